(** Properties C43-C47, C85 and C86: detector.h and the type traits of
    function_traits.h. *)

Require Import List Bool Arith String.
Require Import Verif.TraitsSpec Verif.TraitsModel Verif.TraitsProofs.
Import ListNotations.

(** ** C43 *)

(** for every function type R(Args...) c v r n each has_X_qualifier compiles and tells
    whether X is written *)
Theorem C43_const : forall r args q, has_const_qualifier (fn r args q) = Some (q_const q).
Proof. exact const_q. Qed.
Print Assumptions C43_const.

Theorem C43_volatile : forall r args q, has_volatile_qualifier (fn r args q) = Some (q_volatile q).
Proof. exact volatile_q. Qed.
Print Assumptions C43_volatile.

Theorem C43_lvalue_reference : forall r args q,
  has_lvalue_reference_qualifier (fn r args q) = Some (match q_ref q with RefL => true | _ => false end).
Proof. exact lref_q. Qed.
Print Assumptions C43_lvalue_reference.

Theorem C43_rvalue_reference : forall r args q,
  has_rvalue_reference_qualifier (fn r args q) = Some (match q_ref q with RefR => true | _ => false end).
Proof. exact rref_q. Qed.
Print Assumptions C43_rvalue_reference.

Theorem C43_noexcept : forall r args q, has_noexcept_qualifier (fn r args q) = Some (q_noexcept q).
Proof. exact noexcept_q. Qed.
Print Assumptions C43_noexcept.

(** int(float, char) const && : "noexcept" and "volatile" have the same length, and
    neither is reported *)
Example C43_instance :
  let t := fn (Fund 0) [Fund 1; Fund 2] (Quals true false RefR false) in
  has_const_qualifier t = Some true /\ has_volatile_qualifier t = Some false /\
  has_lvalue_reference_qualifier t = Some false /\ has_rvalue_reference_qualifier t = Some true /\
  has_noexcept_qualifier t = Some false.
Proof. repeat split; vm_compute; reflexivity. Qed.

(** ** C44 *)

Theorem C44_const : forall r args q, remove_const_qualifier (fn r args q) = Some (fn r args (without_const q)).
Proof. exact rm_const. Qed.
Print Assumptions C44_const.

Theorem C44_volatile : forall r args q, remove_volatile_qualifier (fn r args q) = Some (fn r args (without_volatile q)).
Proof. exact rm_volatile. Qed.
Print Assumptions C44_volatile.

Theorem C44_reference : forall r args q, remove_reference_qualifier (fn r args q) = Some (fn r args (without_ref q)).
Proof. exact rm_ref. Qed.
Print Assumptions C44_reference.

Theorem C44_noexcept : forall r args q, remove_noexcept_qualifier (fn r args q) = Some (fn r args (without_noexcept q)).
Proof. exact rm_noexcept. Qed.
Print Assumptions C44_noexcept.

Theorem C44_all : forall r args q, remove_all_qualifiers (fn r args q) = Some (fn r args no_quals).
Proof. exact rm_all. Qed.
Print Assumptions C44_all.

(** each remover is idempotent and any two commute, on every type: if one order does
    not compile the other does not either *)
Theorem C44_idempotent_commute : forall f g t,
  In f [remove_const_qualifier; remove_volatile_qualifier; remove_reference_qualifier;
        remove_noexcept_qualifier; remove_all_qualifiers] ->
  In g [remove_const_qualifier; remove_volatile_qualifier; remove_reference_qualifier;
        remove_noexcept_qualifier; remove_all_qualifiers] ->
  bind_ty (f t) f = f t /\ bind_ty (f t) g = bind_ty (g t) f.
Proof. exact removers. Qed.
Print Assumptions C44_idempotent_commute.

Example C44_instance :
  let t := fn (Fund 0) [Fund 1] (Quals true true RefL true) in
  remove_volatile_qualifier t = Some (fn (Fund 0) [Fund 1] (Quals true false RefL true)) /\
  bind_ty (remove_noexcept_qualifier t) remove_reference_qualifier =
    Some (fn (Fund 0) [Fund 1] (Quals true true RefNone false)).
Proof. split; vm_compute; reflexivity. Qed.

(** ** C45 *)

Theorem C45_return_type : forall r args q, return_type (fn r args q) = Some r.
Proof. exact ret_q. Qed.
Print Assumptions C45_return_type.

Theorem C45_params_list : forall r args q, params_list (fn r args q) = Some args.
Proof. exact params_q. Qed.
Print Assumptions C45_params_list.

(** two types about which all the traits say the same are the same type *)
Theorem C45_determined : forall t u,
  return_type t <> None ->
  return_type t = return_type u -> params_list t = params_list u ->
  has_const_qualifier t = has_const_qualifier u ->
  has_volatile_qualifier t = has_volatile_qualifier u ->
  has_lvalue_reference_qualifier t = has_lvalue_reference_qualifier u ->
  has_rvalue_reference_qualifier t = has_rvalue_reference_qualifier u ->
  has_noexcept_qualifier t = has_noexcept_qualifier u -> t = u.
Proof. exact determined. Qed.
Print Assumptions C45_determined.

Example C45_instance :
  return_type (fn (Ptr (Fund 0)) [Fund 1; LRef (Class 7)] (Quals false true RefNone true)) = Some (Ptr (Fund 0)) /\
  params_list (fn (Ptr (Fund 0)) [Fund 1; LRef (Class 7)] (Quals false true RefNone true)) = Some [Fund 1; LRef (Class 7)].
Proof. split; vm_compute; reflexivity. Qed.

(** ** C46 *)

Theorem C46_is_detected : forall op args, is_detected op args = true <-> op args <> None.
Proof. exact detected_iff. Qed.
Print Assumptions C46_is_detected.

Theorem C46_detected_or_well_formed : forall default op args t, op args = Some t -> detected_or_t default op args = t.
Proof. exact detected_or_some. Qed.
Print Assumptions C46_detected_or_well_formed.

Theorem C46_detected_or_ill_formed : forall default op args, op args = None -> detected_or_t default op args = default.
Proof. exact detected_or_none. Qed.
Print Assumptions C46_detected_or_ill_formed.

Theorem C46_exact : forall expected op args, expected <> nonesuch ->
  (is_detected_exact expected op args = true <-> op args = Some expected).
Proof. exact detected_exact_iff. Qed.
Print Assumptions C46_exact.

(** the exception is real: nonesuch is exactly what an ill-formed Op "gives" *)
Theorem C46_exact_nonesuch : forall op args, op args = None -> is_detected_exact nonesuch op args = true.
Proof. intros op args H. unfold is_detected_exact, detected_t, detector. rewrite H. reflexivity. Qed.
Print Assumptions C46_exact_nonesuch.

(** Op<T> = typename T::value_type with only class 3 having one, a double (Fund 1) *)
Definition value_type : metafun := fun args => match args with [Class 3] => Some (Fund 1) | _ => None end.
Example C46_instance :
  is_detected value_type [Class 3] = true /\ is_detected value_type [Class 4] = false /\
  detected_or_t (Fund 9) value_type [Class 3] = Fund 1 /\ detected_or_t (Fund 9) value_type [Fund 3] = Fund 9 /\
  is_detected_exact (Fund 1) value_type [Class 3] = true /\ is_detected_exact (Fund 2) value_type [Class 3] = false /\
  is_detected_exact (Fund 1) value_type [Class 4] = false /\ Fund 1 <> nonesuch.
Proof. repeat split; discriminate. Qed.

(** ** C47 *)

(** is_invocable in a C++17 program: exactly the types C47 names, except the pointer
    types with a top-level const or volatile and the pointers to C-variadic functions *)
Theorem C47_classifies_partial : forall P t, cpp17 P ->
  (forall u, t = Ptr u -> pointee_ok u) ->
  (is_invocable P t = true <-> invocable P t /\ ~ missed t).
Proof. exact invocable_classifies. Qed.
Print Assumptions C47_classifies_partial.

(** signature_t is the function type itself *)
Theorem C47_signature_function : forall P r args e q, signature P (Fun r args e q) = Some (Fun r args e q).
Proof. exact signature_function. Qed.
Print Assumptions C47_signature_function.

(** and for a class with one call operator the type of that operator, qualifiers
    included *)
Theorem C47_signature_functor : forall P t k o, cpp17 P -> class_type t k -> one_call_operator P k o ->
  signature P t = Some (o_type o) /\ functor_signature P t = Some (o_type o).
Proof. exact signature_functor. Qed.
Print Assumptions C47_signature_functor.

(** no other type has a signature *)
Theorem C47_signature_none : forall P t, cpp17 P ->
  (forall r args e q, t <> Fun r args e q) -> (forall k o, class_type t k -> ~ one_call_operator P k o) ->
  signature P t = None.
Proof. exact signature_none. Qed.
Print Assumptions C47_signature_none.

(** class 1 is a generic lambda, class 2 has int operator()(char) const noexcept *)
Definition sig2 := fn (Fund 0) [Fund 1] (Quals true false RefNone true).
Definition lambdas : program := fun k =>
  match k with
  | 1 => CallOps 1 [Overload (fn (Fund 0) [Fund 1] no_quals) false true true]
  | 2 => CallOps 2 [Overload sig2 false false true]
  | _ => CallOps k []
  end.

Lemma lambdas_cpp17 : cpp17 lambdas.
Proof.
  intros [|[|[|k]]] o; cbn; [intros []|intros [<-|[]]|intros [<-|[]]|intros []]; cbn; split; auto;
    unfold sig2, fn; eauto 6.
Qed.

Example C47_instance : cpp17 lambdas /\
  is_invocable lambdas (Class 2) = true /\ is_invocable lambdas (Cv CvConst (Class 2)) = true /\
  is_invocable lambdas (Class 1) = false /\ is_invocable lambdas (Class 3) = false /\
  is_invocable lambdas (Ptr sig2) = false /\ is_invocable lambdas (MemPtr 2 sig2) = true /\
  is_invocable lambdas (Ptr (fn (Fund 0) [] no_quals)) = true /\ is_invocable lambdas (Ptr (Class 2)) = false /\
  signature lambdas (Class 2) = Some sig2 /\ signature lambdas (Ptr (fn (Fund 0) [] no_quals)) = None.
Proof. split; [exact lambdas_cpp17|]. repeat split; vm_compute; reflexivity. Qed.

(** int ( *const)(char): a const pointer to a function *)
Theorem C47_const_pointer_refuted : exists t, invocable lambdas t /\ is_invocable lambdas t = false /\
  t = Cv CvConst (Ptr (fn (Fund 0) [Fund 1] no_quals)).
Proof.
  eexists. split; [|split; [|reflexivity]]; [|reflexivity].
  eapply inv_pointer. constructor. apply uc_same.
Qed.
Print Assumptions C47_const_pointer_refuted.

(** int ( * )(char const*, ...): a pointer to printf *)
Theorem C47_variadic_pointer_refuted : exists t, invocable lambdas t /\ is_invocable lambdas t = false /\
  t = Ptr (Fun (Fund 0) [Ptr (Cv CvConst (Fund 1))] true no_quals).
Proof.
  eexists. split; [|split; [|reflexivity]]; [|reflexivity].
  eapply inv_pointer. apply uc_same.
Qed.
Print Assumptions C47_variadic_pointer_refuted.

(** ** C85 *)

(** every function type without a C ellipsis gets an answer: C43-C45.  No trait
    compiles for a function type with one *)
Theorem C85_variadic_refuted : forall r args q,
  has_const_qualifier (Fun r args true q) = None /\ has_volatile_qualifier (Fun r args true q) = None /\
  has_lvalue_reference_qualifier (Fun r args true q) = None /\ has_rvalue_reference_qualifier (Fun r args true q) = None /\
  has_noexcept_qualifier (Fun r args true q) = None /\ remove_const_qualifier (Fun r args true q) = None /\
  remove_volatile_qualifier (Fun r args true q) = None /\ remove_reference_qualifier (Fun r args true q) = None /\
  remove_noexcept_qualifier (Fun r args true q) = None /\ remove_all_qualifiers (Fun r args true q) = None /\
  return_type (Fun r args true q) = None /\ params_list (Fun r args true q) = None.
Proof. exact ellipsis_rejected. Qed.
Print Assumptions C85_variadic_refuted.

(** what does hold: among function types every trait compiles exactly without ellipsis *)
Theorem C85_total_partial : forall r args e q,
  (forall f, In f [has_const_qualifier; has_volatile_qualifier; has_lvalue_reference_qualifier;
                   has_rvalue_reference_qualifier; has_noexcept_qualifier] -> f (Fun r args e q) <> None <-> e = false) /\
  (forall f, In f [remove_const_qualifier; remove_volatile_qualifier; remove_reference_qualifier;
                   remove_noexcept_qualifier; remove_all_qualifiers; return_type] -> f (Fun r args e q) <> None <-> e = false) /\
  (params_list (Fun r args e q) <> None <-> e = false).
Proof. exact compiles_without_ellipsis. Qed.
Print Assumptions C85_total_partial.

Example C85_instance : return_type (Fun (Fund 0) [Fund 1] true no_quals) = None /\
  return_type (Fun (Fund 0) [Fund 1] false no_quals) = Some (Fund 0).
Proof. split; vm_compute; reflexivity. Qed.

(** ** C86 *)

(** is_detected_convertible, for target types nonesuch does not convert to; [conv] is
    std::is_convertible_v *)
Theorem C86_convertible_partial : forall conv to op args, conv nonesuch to = false ->
  (is_detected_convertible conv to op args = true <-> exists t, op args = Some t /\ conv t to = true).
Proof. exact detected_convertible_iff. Qed.
Print Assumptions C86_convertible_partial.

(** a class constructible from anything accepts the placeholder too, so the ill-formed
    Op is reported as convertible *)
Theorem C86_convertible_refuted : forall conv to op args,
  (forall t, conv t to = true) -> op args = None -> is_detected_convertible conv to op args = true.
Proof. intros conv to op args H E. apply H. Qed.
Print Assumptions C86_convertible_refuted.

(** exactly: for an ill-formed Op the answer is that for nonesuch *)
Theorem C86_exact_partial : forall conv to op args,
  is_detected_convertible conv to op args = true <->
  (exists t, op args = Some t /\ conv t to = true) \/ (op args = None /\ conv nonesuch to = true).
Proof. exact detected_convertible_exact. Qed.
Print Assumptions C86_exact_partial.

(** types convert to themselves, int (0) to double (1), anything to class 5 *)
Definition some_conv (a b : ty) : bool :=
  match a, b with
  | _, Class 5 => true
  | Fund 0, Fund 1 => true
  | _, _ => ty_eqb a b
  end.
Example C86_instance : some_conv nonesuch (Fund 1) = false /\
  is_detected_convertible some_conv (Fund 1) (fun _ => Some (Fund 0)) [] = true /\
  is_detected_convertible some_conv (Fund 1) (fun _ => Some (Class 4)) [] = false /\
  is_detected_convertible some_conv (Fund 1) (fun _ => None) [] = false /\
  is_detected_convertible some_conv (Class 5) (fun _ => None) [] = true.
Proof. repeat split. Qed.
