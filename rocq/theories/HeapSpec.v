(** The allocation functions of the system and how they may be used.  Nothing here refers to
    the model. *)

Require Import ZArith List.
Require Import Verif.BitsSpec.
Import ListNotations.
Open Scope Z_scope.

(** A pointer from posix_memalign goes back to free, one from _aligned_malloc to _aligned_free. *)
Inductive family : Type := Posix | Crt.

(** the calls of these functions, with the answers *)
Inductive system_call : Type :=
| Obtain (f : family) (align size : Z) (failed : bool) (p : Z)
| Return_ (f : family) (p : Z).

(** the alignments they accept; [word] is the size of a pointer *)
Definition accepts (word : Z) (f : family) (align : Z) : Prop :=
  match f with Posix => pow2 align /\ (word | align) | Crt => pow2 align end.

(** a pointer that was obtained and not returned, with its family *)
Fixpoint remove_held (p : Z) (l : list (family * Z)) : list (family * Z) :=
  match l with [] => [] | x :: l' => if snd x =? p then l' else x :: remove_held p l' end.
Definition held_after (l : list (family * Z)) (c : system_call) : list (family * Z) :=
  match c with
  | Obtain f _ _ failed p => if failed then l else if p =? 0 then l else (f, p) :: l
  | Return_ _ p => remove_held p l
  end.

(** Every call is one the system defines: accepted alignments, and only what is held, from the
    same family, is returned (or the null pointer). *)
Fixpoint correct_use (word : Z) (l : list (family * Z)) (cs : list system_call) : Prop :=
  match cs with
  | [] => True
  | c :: cs' =>
    match c with
    | Obtain f align _ _ _ => accepts word f align
    | Return_ f p => p = 0 \/ In (f, p) l
    end /\ correct_use word (held_after l c) cs'
  end.

(** ** The user of aligned_malloc and aligned_free *)

(** the calls; [failed] and [p] are what the system will answer, a pointer also if it fails *)
Inductive heap_op : Type := Malloc (size align : Z) (failed : bool) (p : Z) | Free (p : Z).
Inductive heap_event : Type := Malloced (size align : Z) (p : Z) | Freed (p : Z).

Fixpoint remove_pointer (p : Z) (l : list Z) : list Z :=
  match l with [] => [] | q :: l' => if q =? p then l' else q :: remove_pointer p l' end.
Definition owned_after (l : list Z) (e : heap_event) : list Z :=
  match e with Malloced _ _ p => if p =? 0 then l else p :: l | Freed p => remove_pointer p l end.

(** alignments are powers of two, and what is freed is owned (or null) *)
Fixpoint correct_client (l : list Z) (es : list heap_event) : Prop :=
  match es with
  | [] => True
  | e :: es' =>
    match e with Malloced _ align _ => pow2 align | Freed p => p = 0 \/ In p l end /\
    correct_client (owned_after l e) es'
  end.
