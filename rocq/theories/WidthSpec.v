(** Resources, requests and states on a platform with addresses of [w] bits. *)

Require Import ZArith List.
Require Import Verif.Outcome Verif.Machine Verif.BitsSpec Verif.SimpleSpec Verif.SimpleModel Verif.SimpleView Verif.WordSpec.
Import ListNotations.
Open Scope Z_scope.

(** the resource lies in an address space of [w] bits, with room for MaxBlockCount blocks
    from its start (pointer_to_block_index, simple_resource.h:451) *)
Definition within (w : Z) (c : cfg) (buffer size : Z) : Prop :=
  buffer + size < 2 ^ w /\ buffer + BS c + MB c * BS c < 2 ^ w.

(** a call whose arguments are values of std::size_t and std::uintptr_t; size and alignment
    do not lead out of the address space; so too what the upstream answers *)
Definition call_in (w : Z) (o : op) : Prop :=
  match o with
  | OAllocate size align ans => 0 <= size /\ 0 <= align /\ size + align <= 2 ^ w /\ 0 <= ans size align < 2 ^ w
  | ODeallocate p => 0 <= p < 2 ^ w
  | ORelease => True
  end.

(** the same state with counters of [w] bits *)
Definition narrow (w : Z) (s : state) : state :=
  with_busyc (with_freec s (wrap w (freec s))) (wrap w (busyc s)).

(** One history with 64 bits beside the same history with [w] bits: they come to the same
    end, show the same events and leave the same regions; free_count() and busy_count() agree
    as far as [w] bits go. *)
Definition alike (w : Z) (wide narrowed : res (state * list event)) : Prop :=
  match wide with
  | Ok (s, es) => narrowed = Ok (narrow w s, es)
  | Abort => narrowed = Abort
  | UB => narrowed = UB
  | Hang => narrowed = Hang
  end.
(** the same if the wide one is a debug build and the other one is a release build *)
Definition alike_release (w : Z) (wide narrowed : res (state * list event)) : Prop :=
  match wide with
  | Ok (s, es) => narrowed = Ok (narrow w s, es)
  | Hang => narrowed = Hang
  | Abort | UB => True
  end.
