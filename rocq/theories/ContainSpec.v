(** What a standard container asks of its allocator, through std::allocator_traits (C++17
    [allocator.requirements], Table 31).  Nothing here refers to the model. *)

Require Import List.
Require Import Verif.ForwardSpec.
Import ListNotations.

(** types are numbers; T is the element type the allocator was written for *)
Inductive request :=
| Copy_                             (** X u(a): the container keeps a copy of the allocator *)
| Select                            (** select_on_container_copy_construction(a) *)
| Convert (U : nat)                 (** X a(b) where b is the allocator rebound to U *)
| Same                              (** a == a2, a != a2 *)
| SameAs (U : nat)                  (** a == b, a != b where b is the allocator rebound to U *)
| Get                               (** allocate(a, n) *)
| GiveBack                          (** deallocate(a, p, n) *)
| Make (U : nat) (args : list argument)   (** construct(a, p, args...) with p a pointer to U *)
| Unmake (U : nat)                  (** destroy(a, p) with p a pointer to U *)
| Largest.                          (** max_size(a) *)

(** Every member function of a container that can hold elements outside itself and has a destructor
    asks for memory and gives it back. *)
Definition owns_memory (uses : list request) : Prop := In Get uses /\ In GiveBack uses.

(** a vector that is filled with copies and moves of elements of its own type, copied and
    destroyed *)
Definition vector_uses (T : nat) : list request :=
  [Copy_; Select; Same; Get; GiveBack; Largest; Make T [Arg T true LValue]; Make T [Arg T false RValue]; Unmake T].
(** a list: its allocator is rebound to the nodes N *)
Definition list_uses (T N : nat) : list request :=
  [Copy_; Select; Convert N; Same; Get; GiveBack; Largest; Make T [Arg T true LValue]; Unmake T].
