(** Calls that take nothing from a buffer and give nothing back to it.  Nothing here refers to
    the model. *)

Require Import ZArith List Bool.
Require Import Verif.BitsSpec Verif.SimpleSpec.
Import ListNotations.
Open Scope Z_scope.

(** a request that got null or was passed on to the upstream; null or memory of the upstream
    given back *)
Definition idle (e : event) : bool :=
  match e with
  | EAllocate size align p calls => (p =? 0) || negb (Nat.eqb (length calls) 0)
  | EDeallocate p calls => (p =? 0) || negb (Nat.eqb (length calls) 0)
  | ERelease => false
  end.

(** a history without these calls: what is called and what is seen *)
Fixpoint busy_ops (ops : list op) (es : list event) : list op :=
  match ops, es with
  | o :: ops', e :: es' => if idle e then busy_ops ops' es' else o :: busy_ops ops' es'
  | _, _ => []
  end.
Definition busy_events (es : list event) : list event := filter (fun e => negb (idle e)) es.

(** any call; the alignments do not lead out of the address space *)
Definition roomy (room : Z) (o : op) : Prop :=
  match o with OAllocate size align ans => 0 <= size /\ pow2 align /\ room + align <= 2 ^ 64 | _ => True end.
