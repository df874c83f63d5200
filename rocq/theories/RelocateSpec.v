(** Callables as objects in memory, as far as the place where they live matters.
    Nothing here refers to the model. *)

Require Import ZArith List Bool.
Require Import Verif.TimerSpec.
Import ListNotations.
Open Scope Z_scope.

(** a part of an object: bytes that do not depend on where the object is, or a pointer
    to the byte number [offset] of the object itself (as in a string that keeps short
    contents inside) *)
Inductive part : Type := Fixed (bytes : list Z) | Inside (offset : Z).
Definition is_fixed (p : part) : Prop := match p with Fixed _ => True | Inside _ => False end.

(** the eight bytes of a pointer, lowest first *)
Fixpoint bytes_of (n : nat) (x : Z) : list Z :=
  match n with O => [] | S n' => x mod 256 :: bytes_of n' (x / 256) end.
(** the bytes of an object at an address *)
Definition part_at (address : Z) (p : part) : list Z :=
  match p with Fixed bytes => bytes | Inside offset => bytes_of 8 ((address + offset) mod 2 ^ 64) end.
Definition object_at (address : Z) (l : list part) : list Z := flat_map (part_at address) l.

(** Place [s] keeps its timer's callable at [addr s]; a callable of type [ty] has the
    parts [parts ty].  A callable is constructed where its timer is *)
Definition built (addr : nat -> Z) (parts : nat -> list part) (ops : list top) : Prop :=
  forall s now ty bytes, In (TNew s now (ty, bytes)) ops -> bytes = object_at (addr s) (parts ty).

(** [bytes] are an intact object of type [ty] in place [s] *)
Definition intact (addr : nat -> Z) (parts : nat -> list part) (s ty : nat) (bytes : list Z) : Prop :=
  bytes = object_at (addr s) (parts ty).
