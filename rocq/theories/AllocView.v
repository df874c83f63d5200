(** What it means for a modelled memory resource to be safe to use. *)

Require Import ZArith List.
Require Import Verif.Outcome Verif.SimpleSpec Verif.AllocSpec Verif.AllocModel.
Import ListNotations.
Open Scope Z_scope.

(** Whatever calls a client has made so far (asking for sizes and alignments of the
    class [ok], giving back only what it holds), its storage is disjoint, in [mem]
    and aligned, and any further such call returns. *)
Definition safe (R : resource) (s0 : rstate R) (ok : Z -> Z -> Prop) (mem : Z -> Prop) : Prop :=
  forall qs s tr, res_run R s0 qs = Ok (s, tr) -> fair_trace ok [] tr ->
    good_trace mem tr /\
    forall q, allowed ok (owned tr) q -> exists s' r, res_step R s q = Ok (s', r).

(** What is assumed of the C library: for legal alignments and positive sizes
    posix_memalign and free behave like a safe resource; the error code is 0 exactly
    when storage was found. *)
Definition libc_resource (L : libc) : resource :=
  Resource (heap L)
    (fun h size align => match posix_memalign L h align size with
                         | (h', err, p) => Ok (h', if err =? 0 then p else 0) end)
    (fun h p => Ok (free_ L h p)).
Definition libc_ok (L : libc) (h : heap L) (mem : Z -> Prop) : Prop :=
  safe (libc_resource L) h (fun size align => 0 < size /\ posix_legal align) mem.
