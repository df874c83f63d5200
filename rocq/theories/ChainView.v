(** The vocabulary in which C158 is stated of the model. *)

Require Import ZArith List Bool.
Require Import Verif.Outcome Verif.SimpleModel Verif.SimpleSpec Verif.SimpleView Verif.MonoModel Verif.WorldModel Verif.ChainSpec Verif.ChainModel
  Verif.LoneSpec Verif.LoneProofs.
Import ListNotations.
Open Scope Z_scope.
Open Scope res_scope.

(** the same resource without its upstream *)
Definition alone (b : body) : body :=
  match b with BMono s => BMono (lone_mono s) | BSimple m n s => BSimple m n (lone s) | BNull => BNull end.

Definition get_one (dbg : bool) (fuel : nat) (b : body) (size align : Z) : res (body * Z) :=
  ' (b', e) <- body_step dbg fuel b (OAllocate size align (fun _ _ => 0));; Ok (b', pointer_of e).
Definition back_one (dbg : bool) (fuel : nat) (b : body) (p : Z) : res body :=
  ' (b', e) <- body_step dbg fuel b (ODeallocate p);; Ok b'.
Definition clear_one (dbg : bool) (fuel : nat) (b : body) : res body :=
  ' (b', e) <- body_step dbg fuel b ORelease;; Ok b'.
(** a simple_resource holds its blocks, a monotonic_buffer_resource is given everything *)
Definition holds_one (b : body) (p : Z) : bool :=
  match b with BSimple m n s => own (data s) (bc s * n) p | _ => true end.

(** a newly made resource, with ([up]) or without an upstream *)
Definition sound (dbg up : bool) (b : body) : Prop :=
  match b with
  | BMono s => exists buffer size, s = mono_construct buffer size up
  | BSimple m n s => exists buffer size, made (Cfg m n dbg) buffer size up s
  | BNull => False
  end.
(** the upstream of a simple_resource is one whose blocks are multiples of its own *)
Definition stands_on (b b' : body) : Prop :=
  match b with
  | BSimple m n s => match b' with BSimple m' n' s' => (n | n') | _ => False end
  | _ => True
  end.

(** a chain: every resource but the last has the next one as its upstream *)
Fixpoint chained (good : bool -> body -> Prop) (l : list body) : Prop :=
  match l with
  | [] => False
  | [b] => good false b
  | b :: ((b' :: _) as l') => good true b /\ stands_on b b' /\ chained good l'
  end.
