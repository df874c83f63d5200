(** Specification for C157: requests that need the same number of blocks are served alike. *)

Require Import ZArith List Bool.
Require Import Verif.BitsSpec Verif.SimpleSpec Verif.Outcome.
Import ListNotations.
Open Scope Z_scope.

(** both sizes reach into the same block, whose size is [b], and do not fill it *)
Definition same_size (b size size' : Z) : Prop :=
  size = size' \/ exists k, k * b < size < k * b + b /\ k * b < size' < k * b + b.

(** every block is aligned to all alignments up to its size *)
Definition same_alignment (b align align' : Z) : Prop :=
  align = align' \/ (align <= b /\ align' <= b).

(** two calls that differ at most in this; an upstream, if asked, answers the same *)
Definition same_request (b : Z) (o o' : op) : Prop :=
  match o, o' with
  | OAllocate size align ans, OAllocate size' align' ans' =>
    same_size b size size' /\ same_alignment b align align' /\ ans size align = ans' size' align'
  | ODeallocate p, ODeallocate p' => p = p'
  | ORelease, ORelease => True
  | _, _ => False
  end.

(** what the client sees, but for the size and the alignment it passed itself *)
Definition seen (e : event) : event :=
  match e with
  | EAllocate size align p calls => EAllocate 0 1 p (map (fun _ => UpAllocate 0 1) calls)
  | _ => e
  end.

Definition seen_of {S : Type} (r : res (S * list event)) : res (S * list event) :=
  match r with
  | Ok (s, es) => Ok (s, map seen es)
  | Abort => Abort
  | UB => UB
  | Hang => Hang
  end.
