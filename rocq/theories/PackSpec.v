(** Specification for C166: objects of different sizes, one behind the other. *)

Require Import ZArith List Bool.
Require Import Verif.BitsSpec Verif.SimpleSpec.
Import ListNotations.
Open Scope Z_scope.

(** requests, given as pairs of a size and an alignment *)
Definition requests (ans : Z -> Z -> Z) (rq : list (Z * Z)) : list op := map (fun r => OAllocate (fst r) (snd r) ans) rq.

(** all of them served from the buffer, the first at [p], each of the others [step] of its
    predecessor's size behind the predecessor *)
Fixpoint packed (step : Z -> Z) (p : Z) (rq : list (Z * Z)) : list event :=
  match rq with
  | [] => []
  | (size, align) :: t => EAllocate size align p [] :: packed step (p + step size) t
  end.

Definition total_of (step : Z -> Z) (rq : list (Z * Z)) : Z := fold_right (fun r n => step (fst r) + n) 0 rq.

(** sizes that are multiples of the alignments, alignments from the largest, at most [a], to the smallest *)
Fixpoint ordered (a : Z) (rq : list (Z * Z)) : Prop :=
  match rq with
  | [] => True
  | (size, align) :: t => 0 < size /\ pow2 align /\ align <= a /\ (align | size) /\ ordered align t
  end.
