(** The upstream resource of a history.  Nothing here refers to the model. *)

Require Import ZArith.
Require Import Verif.Outcome Verif.SimpleSpec.

(** what the upstream resource answers, should it be asked, is a multiple of the block size *)
Definition upstream_fits (b : Z) (o : op) : Prop :=
  match o with OAllocate size align ans => answer_fits b (ans size align) | _ => True end.
