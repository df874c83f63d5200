(** Specification for C163: a larger buffer serves whatever a smaller one does. *)

Require Import ZArith List Bool.
Require Import Verif.SimpleSpec.
Import ListNotations.
Open Scope Z_scope.

(** a call that the resource has dealt with on its own: a request served from the buffer (or for
    nothing), memory taken back into it, release() *)
Definition from_buffer (e : event) : Prop :=
  match e with
  | EAllocate size _ p calls => calls = [] /\ (size = 0 \/ p <> 0)
  | EDeallocate _ calls => calls = []
  | ERelease => True
  end.
