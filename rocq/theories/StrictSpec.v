(** Buffers inside arrays, and what a client sees of a resource that uses one.  Nothing here
    refers to the model. *)

Require Import ZArith List Bool.
Require Import Verif.BitsSpec Verif.SimpleSpec.
Import ListNotations.
Open Scope Z_scope.

(** The buffer of [size] bytes at [buffer] is a part of an array that begins at [lo] and ends
    before [hi]; the array lies inside the address space. *)
Definition part_of_array (lo hi buffer size : Z) : Prop :=
  0 < lo /\ lo <= buffer /\ 0 < size /\ buffer + size <= hi /\ hi < 2 ^ 64.

(** what the call says about a request: the pointer and the requests passed upstream *)
Definition passed_on (up : bool) (size align : Z) (ans : Z -> Z -> Z) : Z * list upcall :=
  if up then (ans size align, [UpAllocate size align]) else (0, []).

(** a request with a size and an alignment that std::size_t can hold *)
Definition word_op (o : op) : Prop :=
  match o with
  | OAllocate size align ans => 0 <= size < 2 ^ 64 /\ pow2 align /\ align < 2 ^ 64
  | _ => True
  end.

(** a request with padding and size below 2^64 *)
Definition small_op (o : op) : Prop :=
  match o with
  | OAllocate size align ans => 0 <= size /\ pow2 align /\ align < 2 ^ 64 /\ size + align <= 2 ^ 64
  | _ => True
  end.

(** The event shows memory between [d] and [e] being handed out or taken back. *)
Definition touches (d e : Z) (x : event) : Prop :=
  match x with
  | EAllocate size align p [] => p <> 0
  | EDeallocate p _ => d <= p < e
  | _ => False
  end.
