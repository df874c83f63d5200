(** Specification for C156: the upstream has no influence on what the buffer serves. *)

Require Import ZArith List Bool.
Require Import Verif.SimpleSpec Verif.Outcome.
Import ListNotations.
Open Scope Z_scope.

(** The calls of a client of a resource with an upstream, as they are without one: the
    answers of the upstream do not come, so what it answered cannot be given back (null
    is given back instead).  The buffer's blocks are the [n] bytes from [d] on. *)
Definition own (d n p : Z) : bool := (d <=? p) && (p <? d + n).
Definition lone_op (d n : Z) (o : op) : op :=
  match o with
  | OAllocate size align ans => OAllocate size align (fun _ _ => 0)
  | ODeallocate p => ODeallocate (if own d n p then p else 0)
  | ORelease => ORelease
  end.

(** what a client sees then: what was asked of the upstream is answered with null, all else
    is the same *)
Definition lone_event (d n : Z) (e : event) : event :=
  match e with
  | EAllocate size align p [] => EAllocate size align p []
  | EAllocate size align p (_ :: _) => EAllocate size align 0 []
  | EDeallocate p calls => EDeallocate (if own d n p then p else 0) []
  | ERelease => ERelease
  end.

Definition lone_outcome {S : Type} (f : S -> S) (d n : Z) (r : res (S * list event)) : res (S * list event) :=
  match r with
  | Ok (s, es) => Ok (f s, map (lone_event d n) es)
  | Abort => Abort
  | UB => UB
  | Hang => Hang
  end.

(** the upstream's memory is aligned to blocks (of [b] bytes): debug builds check what is
    handed out, all builds what is given back *)
Definition block_aligned (dbg : bool) (b d n : Z) (o : op) : Prop :=
  match o with
  | OAllocate size align ans => dbg = true -> answer_fits b (ans size align)
  | ODeallocate p => 0 <= p < 2 ^ 64 /\ (own d n p = false -> (b | p))
  | ORelease => True
  end.
