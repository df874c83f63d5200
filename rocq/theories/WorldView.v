(** The words in which the theorems about several resources speak of the model. *)

Require Import ZArith List Bool.
Require Import Verif.Outcome Verif.BitsSpec Verif.SimpleSpec Verif.MonoSpec Verif.WorldSpec.
Require Import Verif.MonoModel Verif.SimpleModel Verif.SimpleView Verif.WorldModel.
Import ListNotations.
Open Scope Z_scope.

(** what a client of this resource holds: the memory of a monotonic buffer until
    release(), that of a simple_resource until it is given back *)
Definition held (b : body) (es : list event) : list alloc :=
  match b with BMono _ => handed es | BSimple _ _ _ => live es | BNull => [] end.

(** [b] is a resource just made on the buffer at [fst place] of [snd place] bytes, and
    the calls [ops] are of the kind its theorems allow: C66_disjoint_partial,
    C50_no_overlap_partial *)
Definition just_made (dbg : bool) (fuel : nat) (place : alloc) (b : body) (ops : list op) : Prop :=
  match b with
  | BMono s => mono_made (fst place) (snd place) /\ (exists up, s = mono_construct (fst place) (snd place) up) /\
      Forall (fair_op (fst place + snd place)) ops
  | BSimple m n s => exists up, made (Cfg m n dbg) (fst place) (snd place) up s /\ (Z.to_nat (bc s) < fuel)%nat /\
      careful_client (data s) n (bc s) up ops
  | BNull => True
  end.

(** the pointers of an object name its own class *)
Definition own_code (o : object) : Prop :=
  allocate_ o = class_of (members o) /\ deallocate_ o = class_of (members o).

(** two resources of one class *)
Definition same_kind (a b : body) : Prop :=
  match a, b with
  | BMono _, BMono _ | BNull, BNull => True
  | BSimple m n _, BSimple m' n' _ => m = m' /\ n = n'
  | _, _ => False
  end.
