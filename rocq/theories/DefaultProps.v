(** Properties C97 to C100: where allocators and buffer resources get their resource
    from, and allocators of different types. *)

Require Import ZArith List Bool Lia.
Require Import Verif.Outcome Verif.DefaultSpec Verif.DefaultModel Verif.DefaultProofs.
Import ListNotations.
Open Scope Z_scope.

(** ** C97 *)

(** every history in which objects are constructed before they are used has exactly the
    events that the specification says, and the objects end up with those resources *)
Theorem C97_history : forall init ops, proper init [] ops ->
  exists s, default_run (at_start init) ops = Ok (s, expected init [] ops) /\
    forall x, pointer_of s x = resource_of init (rev ops) x.
Proof. exact default_history. Qed.
Print Assumptions C97_history.

(** in particular an object constructed without a resource asks, whatever happens later,
    the resource that was the default when it was constructed *)
Theorem C97_captured : forall init before k x later,
  proper init [] (before ++ DMake k x :: later) ->
  (forall o, In o later -> match o with DMake _ y | DMakeOn _ y _ | DCopy y _ => y <> x | _ => True end) ->
  exists s es, default_run (at_start init) (before ++ DMake k x :: later) = Ok (s, es) /\
    default_step s (DAsk x) = Ok (s, [DAsked x (default_after init (rev before))]).
Proof. exact made_without. Qed.
Print Assumptions C97_captured.

Example C97_instance :
  let before := [DSet 100] in
  let later := [DSet 200; DMake KMono 2; DCopy 3 1; DAsk 3; DAsk 2; DMakeOn KSimple 4 300; DAsk 4; DSet 8] in
  proper 7 [] (before ++ DMake KAllocator 1 :: later) /\
  (forall o, In o later -> match o with DMake _ y | DMakeOn _ y _ | DCopy y _ => y <> 1%nat | _ => True end) /\
  default_after 7 (rev before) = 100 /\
  expected 7 [] (before ++ DMake KAllocator 1 :: later) =
    [DOld 7; DOld 100; DAsked 3 100; DAsked 2 200; DAsked 4 300; DOld 200].
Proof.
  cbn. repeat split; try discriminate.
  intros o H. repeat (destruct H as [H|H]; [subst o; try exact I; discriminate|]). contradiction.
Qed.

(** ** C98 *)

(** while nobody makes null the default, an allocator can ask its resource *)
Theorem C98_usable_partial : forall init ops x, proper init [] ops -> init <> 0 ->
  (forall o, In o ops -> match o with DSet q | DMakeOn _ _ q => q <> 0 | _ => True end) ->
  resource_of init (rev ops) x <> None ->
  exists s es r, default_run (at_start init) ops = Ok (s, es) /\ allocator_allocate s x = Ok r.
Proof. exact allocator_usable. Qed.
Print Assumptions C98_usable_partial.

Example C98_instance :
  let ops := [DMake KAllocator 1; DSet 100; DMake KAllocator 2] in
  proper 7 [] ops /\ resource_of 7 (rev ops) 2 = Some 100 /\
  (forall o, In o ops -> match o with DSet q | DMakeOn _ _ q => q <> 0 | _ => True end).
Proof.
  cbn. repeat split; try discriminate.
  intros o H. repeat (destruct H as [H|H]; [subst o; try exact I; discriminate|]). contradiction.
Qed.

(** set_default_resource(nullptr) does not restore the system resource: an allocator
    constructed afterwards dereferences null *)
Theorem C98_null_refuted : forall init, exists ops s es,
  proper init [] ops /\ default_run (at_start init) ops = Ok (s, es) /\ allocator_allocate s 1 = UB.
Proof.
  intros init. exists [DSet 0; DMake KAllocator 1]. do 2 eexists.
  split; [cbn; auto|]. split; reflexivity.
Qed.
Print Assumptions C98_null_refuted.

(** exactly: an allocator can ask its resource unless that is null, wherever the null
    came from *)
Theorem C98_exact_partial : forall init ops x r, proper init [] ops -> resource_of init (rev ops) x = Some r ->
  exists s es, default_run (at_start init) ops = Ok (s, es) /\
    (r <> 0 -> allocator_allocate s x = Ok r) /\ (r = 0 -> allocator_allocate s x = UB).
Proof. exact allocator_usable_exact. Qed.
Print Assumptions C98_exact_partial.

(** the copy of an allocator made while null was the default stays unusable, the one
    made before stays usable *)
Example C98_exact_instance :
  let ops := [DMake KAllocator 1; DSet 0; DMake KAllocator 2; DSet 100; DCopy 3 2; DCopy 4 1] in
  proper 7 [] ops /\ resource_of 7 (rev ops) 3 = Some 0 /\ resource_of 7 (rev ops) 4 = Some 7.
Proof. cbn. repeat split; discriminate. Qed.

(** ** C99 *)

(** in every order of initialisation the language allows, the initialisers of the
    variables of a unit that includes the header find the system resource *)
Theorem C99_startup_partial : forall includes sys l u z, allowed includes l -> includes u = true ->
  In (u, z) (startup_run sys 0 l) -> z = sys.
Proof. exact startup_including. Qed.
Print Assumptions C99_startup_partial.

(** unit 0 includes the header, unit 1 does not *)
Definition unit_0_includes (u : nat) : bool := Nat.eqb u 0.
Example C99_instance : allowed unit_0_includes [InitDefault; Init 0 0; Init 1 0] /\
  In (0%nat, 64) (startup_run 64 0 [InitDefault; Init 0 0; Init 1 0]).
Proof.
  split; [split|cbn; auto].
  - intros [|a before] u v after E H; [discriminate E|]. injection E as <- _. left. reflexivity.
  - intros [|a [|b [|c [|d before]]]] after E; try discriminate E.
    injection E as <-. cbn. split; [tauto|]. intros [H|[H|H]]; try discriminate H; contradiction.
Qed.

(** the initialiser of a variable in a unit that does not include the header, and that
    calls a function of one that does, can find null *)
Theorem C99_startup_refuted : forall sys, sys <> 0 -> exists includes l,
  allowed includes l /\ includes 0%nat = true /\ In InitDefault l /\
  l = [Init 1 0; InitDefault] /\ In (1%nat, 0) (startup_run sys 0 l).
Proof.
  intros sys Hs. exists unit_0_includes, [Init 1 0; InitDefault].
  split; [split|cbn; auto].
  - intros [|a [|b [|c before]]] u v after E H; try discriminate E.
    injection E as <- <- <-. discriminate H.
  - intros [|a [|b [|c before]]] after E; try discriminate E.
    injection E as <- <-. cbn. split; [intros [H|H]; [discriminate H|contradiction]|tauto].
Qed.
Print Assumptions C99_startup_refuted.

(** exactly: the variables of a unit find the system resource in every allowed order if
    and only if the unit includes the header *)
Theorem C99_exact_partial : forall includes sys u, sys <> 0 ->
  ((forall l z, allowed includes l -> In (u, z) (startup_run sys 0 l) -> z = sys) <-> includes u = true).
Proof. exact startup_exact. Qed.
Print Assumptions C99_exact_partial.

(** and in every order at all an initialiser finds the system resource if the default
    resource was initialised before, null otherwise *)
Theorem C99_reads : forall sys before u v after,
  exists reads later, startup_run sys 0 (before ++ Init u v :: after) = reads ++ (u, if existsb is_init_default before then sys else 0) :: later /\
    length reads = length (filter (fun x => negb (is_init_default x)) before).
Proof. exact startup_reads. Qed.
Print Assumptions C99_reads.

(** ** C100 *)

(** allocators of one type: a copy uses the same resource, and two are equal exactly when
    they use the same *)
Theorem C100_same_type_partial : forall T r q,
  allocator_from T (AllocOf T r) = Some (AllocOf T r) /\
  allocators_equal (AllocOf T r) (AllocOf T q) = Some (r =? q) /\
  allocators_different (AllocOf T r) (AllocOf T q) = Some (negb (r =? q)).
Proof. intros. split; [apply from_same|apply equal_same]. Qed.
Print Assumptions C100_same_type_partial.

(** but neither the conversion from an allocator of another type nor the comparison with
    one ever compiles: they need the private member of another class *)
Theorem C100_other_type_refuted : forall T U r q, T <> U ->
  allocator_from T (AllocOf U r) = None /\
  allocators_equal (AllocOf T r) (AllocOf U q) = None /\
  allocators_different (AllocOf T r) (AllocOf U q) = None.
Proof. intros. split; [apply no_conversion|apply no_comparison]; assumption. Qed.
Print Assumptions C100_other_type_refuted.

Example C100_instance :
  allocators_equal (AllocOf 1 64) (AllocOf 1 64) = Some true /\
  allocators_equal (AllocOf 1 64) (AllocOf 1 65) = Some false /\ 1%nat <> 2%nat.
Proof. cbn. auto. Qed.

(** exactly: both compile if and only if the value types are the same *)
Theorem C100_exact_partial : forall T U r q,
  (forall a, allocator_from T (AllocOf U r) = Some a <-> T = U /\ a = AllocOf T r) /\
  (forall b, allocators_equal (AllocOf T r) (AllocOf U q) = Some b <-> T = U /\ b = (r =? q)) /\
  (forall b, allocators_different (AllocOf T r) (AllocOf U q) = Some b <-> T = U /\ b = negb (r =? q)).
Proof. exact allocators_exact. Qed.
Print Assumptions C100_exact_partial.
