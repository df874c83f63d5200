(** Specification for C154: where in memory the buffer lies does not matter. *)

Require Import ZArith List Bool.
Require Import Verif.Outcome Verif.BitsSpec Verif.SimpleSpec Verif.SimpleModel Verif.MonoModel.
Import ListNotations.
Open Scope Z_scope.

(** A buffer of [n] bytes at [b], and a second one [d] bytes further up (down, when [d]
    is negative).  A client of the second one passes the pointer [moved b n d p] where a
    client of the first passes [p]: a pointer into the buffer is displaced, any other
    (one from the upstream resource, the null pointer) is the same. *)
Definition in_buffer (b n p : Z) : bool := (b <=? p) && (p <? b + n).
Definition moved (b n d p : Z) : Z := if in_buffer b n p then p + d else p.

Definition moved_op (b n d : Z) (o : op) : op :=
  match o with
  | OAllocate size align ans => OAllocate size align ans
  | ODeallocate p => ODeallocate (moved b n d p)
  | ORelease => ORelease
  end.

(** what the client and the upstream of the second one see, given what those of the first
    one do: a pointer served from the buffer (no upstream is called) is displaced, null
    stays null, what comes from the upstream or goes to it is as the client's *)
Definition moved_call (b n d : Z) (u : upcall) : upcall :=
  match u with
  | UpAllocate size align => UpAllocate size align
  | UpDeallocate p => UpDeallocate (moved b n d p)
  end.
Definition moved_event (b n d : Z) (e : event) : event :=
  match e with
  | EAllocate size align p [] => EAllocate size align (if p =? 0 then 0 else p + d) []
  | EAllocate size align p calls => EAllocate size align p calls
  | EDeallocate p calls => EDeallocate (moved b n d p) (map (moved_call b n d) calls)
  | ERelease => ERelease
  end.

(** the outcome of a history on the second one: the same one, with displaced pointers *)
Definition moved_outcome {S : Type} (move : S -> S) (b n d : Z) (r : res (S * list event)) : res (S * list event) :=
  match r with
  | Ok (s, es) => Ok (move s, map (moved_event b n d) es)
  | Abort => Abort
  | UB => UB
  | Hang => Hang
  end.

(** the two resources: the same books for different addresses *)
Definition moved_simple (d : Z) (s : state) : state :=
  St (data s + d) (bc s) (has_up s) (prv s) (nxt s) (inuse s) (freec s) (busyc s).
Definition moved_mono (d : Z) (s : mono) : mono := Mono (mdata s + d) (msize s) (mup s) (mnext s + d).

(** What may be asked of both: an alignment that divides the distance, no request that
    runs off the address space from the end ([top]) of either; and a pointer that is not
    of the first buffer is not of the second one either. *)
Definition movable (b n top d : Z) (o : op) : Prop :=
  match o with
  | OAllocate size align _ =>
    0 <= size /\ pow2 align /\ (align | d) /\ top + align + size <= 2 ^ 64 /\ top + d + align + size <= 2 ^ 64
  | ODeallocate p => 0 <= p < 2 ^ 64 /\ (in_buffer b n p = false -> in_buffer (b + d) n p = false)
  | ORelease => True
  end.
