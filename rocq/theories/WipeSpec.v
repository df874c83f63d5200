(** What a compiler may leave out.  Nothing here refers to the model.

    A program is the sequence of accesses it makes to the bytes of memory.  What of it is
    observable ([intro.abstract]): what it shows to the world and what is written with the
    promise that the write is done (through volatile lvalues, or by memset_s, C11 K.3.7.4.1).
    A compiler may leave out everything else if that cannot be observed.  Other liberties of
    compilers (other orders, copies of values elsewhere) are not considered. *)

Require Import ZArith List.
Import ListNotations.
Open Scope Z_scope.

Inductive access : Type :=
| Write (a v : Z)       (** an ordinary write of the value [v] to the byte at [a] *)
| Promised (a v : Z)    (** the same with the promise that it is done *)
| Show (a : Z).         (** the byte at [a] is read and shown: printed, sent, compared *)

Inductive observed : Type := Shown (v : Z) | Done (a v : Z).

(** where programs run.  RSIZE_MAX belongs to the C library. *)
Inductive platform : Type :=
| Msvc                        (** _MSC_VER is defined *)
| Ext1 (rsize_max : Z)        (** it is not, __STDC_LIB_EXT1__ is: a C library with memset_s *)
| Neither.                    (** neither: for example GCC and Clang with glibc *)

(** the C library's limits for memset_s *)
Definition legal (pl : platform) (p : Z) (n : nat) : Prop :=
  match pl with Ext1 rsize_max => p <> 0 /\ Z.of_nat n <= rsize_max | _ => True end.

Definition bytes := Z -> Z.
Definition set_byte (m : bytes) (a v : Z) : bytes := fun b => if b =? a then v else m b.

(** memory after a program, and what is observed of it *)
Fixpoint after (m : bytes) (p : list access) : bytes :=
  match p with
  | [] => m
  | Write a v :: p' | Promised a v :: p' => after (set_byte m a v) p'
  | Show _ :: p' => after m p'
  end.
Fixpoint observations (m : bytes) (p : list access) : list observed :=
  match p with
  | [] => []
  | Write a v :: p' => observations (set_byte m a v) p'
  | Promised a v :: p' => Done a v :: observations (set_byte m a v) p'
  | Show a :: p' => Shown (m a) :: observations m p'
  end.

(** [q] is [p] with some accesses left out *)
Inductive thinned : list access -> list access -> Prop :=
| thinned_nil : thinned [] []
| thinned_keep : forall x q p, thinned q p -> thinned (x :: q) (x :: p)
| thinned_drop : forall x q p, thinned q p -> thinned q (x :: p).

(** what a compiler may make of the three parts of a complete program *)
Definition may_become (p1 p2 p3 q1 q2 q3 : list access) : Prop :=
  thinned q1 p1 /\ thinned q2 p2 /\ thinned q3 p3 /\
  forall m, observations m (q1 ++ q2 ++ q3) = observations m (p1 ++ p2 ++ p3).

(** whatever the compiler does: when the part [p2] of the program is over, the byte at [a]
    is 0 *)
Definition erased (p1 p2 p3 : list access) (a : Z) : Prop :=
  forall q1 q2 q3, may_become p1 p2 p3 q1 q2 q3 -> forall m, after m (q1 ++ q2) a = 0.

(** the byte at [a] is shown before it is written again *)
Fixpoint shown_first (a : Z) (p : list access) : Prop :=
  match p with
  | [] => False
  | Show b :: p' => b = a \/ shown_first a p'
  | Write b _ :: p' | Promised b _ :: p' => b <> a /\ shown_first a p'
  end.
