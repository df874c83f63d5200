(** What a client of a monotonic buffer sees.  Nothing here refers to the model. *)

Require Import ZArith List Bool.
Require Import Verif.BitsSpec Verif.SimpleSpec.
Import ListNotations.
Open Scope Z_scope.

(** a buffer inside the address space *)
Definition mono_made (buffer size : Z) : Prop := 0 <= buffer /\ 0 <= size /\ buffer + size < 2 ^ 64.

(** The allocations served from the buffer since the last release, latest first:
    non-null answers without a call of the upstream.  Giving memory back does not
    count. *)
Definition handed_after (l : list alloc) (e : event) : list alloc :=
  match e with
  | EAllocate size align p [] => if p =? 0 then l else (p, size) :: l
  | ERelease => []
  | _ => l
  end.
Definition handed (es : list event) : list alloc := fold_left handed_after es [].

(** each allocation of the list ends before the ones handed out later begin *)
Definition ascending (l : list alloc) : Prop :=
  forall l1 a l2 b l3, l = l1 ++ a :: l2 ++ b :: l3 -> fst b + snd b <= fst a.

(** where the unused part of a buffer at [d] begins *)
Definition top (d : Z) (l : list alloc) : Z :=
  match l with [] => d | a :: _ => fst a + snd a end.

(** the request fits behind everything handed out, in a buffer of [n] bytes at [d]
    (a null buffer has no bytes) *)
Definition fits_behind (d n : Z) (l : list alloc) (size align : Z) : Prop :=
  d <> 0 /\ exists q, top d l <= q /\ (align | q) /\ q + size <= d + n.

(** the answer of addresses that wrap around at 2^64: a request of at least one byte
    is taken if it ends inside the buffer after wrapping *)
Definition wrapped_fits (d n : Z) (l : list alloc) (size align q : Z) : Prop :=
  0 < d /\ 0 < n /\ least_multiple align (top d l) q /\ q < 2 ^ 64 /\
  (q + size <= d + n \/ 2 ^ 64 <= q + size <= 2 ^ 64 + (d + n)).

(** a request whose padding and size do not lead out of the address space of a
    buffer ending at [e] *)
Definition fair_op (e : Z) (o : op) : Prop :=
  match o with
  | OAllocate size align ans => 0 <= size /\ pow2 align /\ e + align + size <= 2 ^ 64
  | _ => True
  end.

(** a request of any size, for an alignment that leaves room for one more aligned
    address behind a buffer ending at [e]; in the lower half of the address space every
    power of two does *)
Definition roomy_op (e : Z) (o : op) : Prop :=
  match o with
  | OAllocate size align ans => 0 <= size < 2 ^ 64 /\ pow2 align /\ align < 2 ^ 64 /\ e + align <= 2 ^ 64
  | _ => True
  end.

(** a request the interface allows: any size, any power of two *)
Definition legal_op (o : op) : Prop :=
  match o with
  | OAllocate size align ans => 0 <= size < 2 ^ 64 /\ pow2 align /\ align < 2 ^ 64
  | _ => True
  end.

Definition is_dealloc_op (o : op) : bool := match o with ODeallocate _ => true | _ => false end.
Definition is_dealloc_event (e : event) : bool := match e with EDeallocate _ _ => true | _ => false end.

(** the calls of the upstream a history made *)
Definition calls_of (e : event) : list upcall :=
  match e with EAllocate _ _ _ c => c | EDeallocate _ c => c | ERelease => [] end.
