(** Addresses and sizes of [w] bits.  The vocabulary of BitsSpec.v and MonoSpec.v with
    the width as a parameter; nothing here refers to the model. *)

Require Import ZArith List Bool.
Require Import Verif.BitsSpec Verif.SimpleSpec Verif.MonoSpec.
Import ListNotations.
Open Scope Z_scope.

(** the platforms the library is built for have pointers of 32 or 64 bits; std::size_t
    and std::uintptr_t are as wide as pointers *)
Definition platform (w : Z) : Prop := w = 32 \/ w = 64.

(** [k] is the least non-negative distance from [p] to a multiple of [a] *)
Definition least_skip_in (w a p k : Z) : Prop :=
  0 <= k /\ (a | (p + k) mod 2 ^ w) /\
  forall j, 0 <= j < k -> ~ (a | (p + j) mod 2 ^ w).

(** [m] is the greatest power of two a multiple of which is in every block of [n] bytes
    at a multiple of [a] *)
Definition guaranteed_in (w a n m : Z) : Prop :=
  forall p, 0 <= p -> (a | p) -> p + n <= 2 ^ w -> exists q, p <= q < p + n /\ (m | q).
Definition best_alignment_in (w a n m : Z) : Prop :=
  pow2 m /\ guaranteed_in w a n m /\
  forall m', pow2 m' -> guaranteed_in w a n m' -> m' <= m.

(** a buffer inside the address space *)
Definition buffer_in (w buffer size : Z) : Prop := 0 <= buffer /\ 0 <= size /\ buffer + size < 2 ^ w.

(** a request whose padding and size do not lead out of the address space of a buffer
    ending at [e] *)
Definition fair_in (w e : Z) (o : op) : Prop :=
  match o with
  | OAllocate size align ans => 0 <= size /\ pow2 align /\ e + align + size <= 2 ^ w
  | _ => True
  end.

(** a request of any size, for an alignment that leaves room for one more aligned
    address behind a buffer ending at [e] *)
Definition roomy_in (w e : Z) (o : op) : Prop :=
  match o with
  | OAllocate size align ans => 0 <= size < 2 ^ w /\ pow2 align /\ align < 2 ^ w /\ e + align <= 2 ^ w
  | _ => True
  end.

(** a request the interface allows *)
Definition legal_in (w : Z) (o : op) : Prop :=
  match o with
  | OAllocate size align ans => 0 <= size < 2 ^ w /\ pow2 align /\ align < 2 ^ w
  | _ => True
  end.

(** the request is taken if it ends inside the buffer after wrapping *)
Definition wrapped_fits_in (w d n : Z) (l : list alloc) (size align q : Z) : Prop :=
  0 < d /\ 0 < n /\ least_multiple align (top d l) q /\ q < 2 ^ w /\
  (q + size <= d + n \/ 2 ^ w <= q + size <= 2 ^ w + (d + n)).
