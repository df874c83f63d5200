(** Properties C106 and C107: several memory resources in one program (memory.h,
    monotonic_buffer_resource.h, simple_resource.h). *)

Require Import ZArith List Bool Lia.
Require Import Verif.Outcome Verif.BitsSpec Verif.SimpleSpec Verif.MonoSpec Verif.WorldSpec.
Require Import Verif.MonoModel Verif.SimpleModel Verif.SimpleView Verif.WorldModel Verif.WorldView.
Require Import Verif.MonoProofs Verif.SimpleMainProofs Verif.SimpleRefuted Verif.SimpleExamples Verif.WorldProofs.
Import ListNotations.
Open Scope Z_scope.

(** ** C106 *)

(** in a program that does not assign resources, each behaves as if it were alone,
    however the calls are interleaved *)
Theorem C106_alone_partial : forall dbg fuel ops W W' es, (forall x a, W x = Some a -> own_code a) ->
  Forall is_call ops -> world_run dbg fuel W ops = Ok (W', es) ->
  forall x a, W x = Some a ->
  exists b, body_run dbg fuel (members a) (calls_to x ops) = Ok (b, events_of x es) /\ W' x = Some (made_of b).
Proof. exact alone. Qed.
Print Assumptions C106_alone_partial.

(** so any number of resources on separate buffers, each used within the limits of C66
    or C50, never hand out overlapping memory *)
Theorem C106_separate_partial : forall dbg fuel (W : world) place ops,
  (forall x a, W x = Some a -> a = made_of (members a) /\ just_made dbg fuel (place x) (members a) (calls_to x ops)) ->
  (forall x y, W x <> None -> W y <> None -> x <> y -> disjoint (place x) (place y)) ->
  (forall o, In o ops -> exists x c, o = WCall x c /\ W x <> None) ->
  exists W' es, world_run dbg fuel W ops = Ok (W', es) /\
    (forall x a, W x = Some a -> pairwise_disjoint (held (members a) (events_of x es))) /\
    (forall x y a b p q, x <> y -> W x = Some a -> W y = Some b ->
       In p (held (members a) (events_of x es)) -> In q (held (members b) (events_of y es)) -> disjoint p q).
Proof. exact separate. Qed.
Print Assumptions C106_separate_partial.

(** a null resource accepts every call, changes nothing and hands out nothing; see
    C106_alone_partial for what that means in a program with others *)
Theorem C106_null : forall dbg fuel cs, exists es, body_run dbg fuel BNull cs = Ok (BNull, es) /\
  forall sz al p l, In (EAllocate sz al p l) es -> p = 0.
Proof. exact null_hands_out_nothing. Qed.
Print Assumptions C106_null.

(** a simple_resource, two monotonic buffers and a null resource *)
Definition some_world : world := fun x =>
  match x with
  | 0%nat => Some (made_of (BSimple 8 4 (fresh 4096 8 false)))
  | 1%nat => Some (made_of (BMono (mono_construct 8192 32 false)))
  | 2%nat => Some (made_of (BMono (mono_construct 8224 16 false)))
  | 3%nat => Some (made_of BNull)
  | _ => None
  end.
Definition some_places (x : nat) : alloc :=
  match x with 0%nat => (4096, 32) | 1%nat => (8192, 32) | 2%nat => (8224, 16) | _ => (0, 0) end.
Definition some_program : list wop :=
  [WCall 0 (get 5); WCall 1 (ask 8); WCall 2 (ask 10); WCall 0 (get 7); WCall 3 (ask 1); WCall 1 (ask 4);
   WCall 0 (ODeallocate 4096); WCall 2 (ask 10); WCall 0 (get 6); WCall 1 ORelease; WCall 1 (ask 30)].
Example C106_instance : forall dbg,
  (forall x a, some_world x = Some a ->
     a = made_of (members a) /\ just_made dbg 50 (some_places x) (members a) (calls_to x some_program)) /\
  (forall x y, some_world x <> None -> some_world y <> None -> x <> y -> disjoint (some_places x) (some_places y)) /\
  exists W', world_run dbg 50 some_world some_program = Ok (W',
    [(0%nat, EAllocate 5 1 4096 []); (1%nat, EAllocate 8 1 8192 []); (2%nat, EAllocate 10 1 8224 []);
     (0%nat, EAllocate 7 1 4104 []); (3%nat, EAllocate 1 1 0 []); (1%nat, EAllocate 4 1 8200 []);
     (0%nat, EDeallocate 4096 []); (2%nat, EAllocate 10 1 0 []); (0%nat, EAllocate 6 1 4096 []);
     (1%nat, ERelease); (1%nat, EAllocate 30 1 8192 [])]).
Proof.
  intros dbg. split; [|split].
  - intros [|[|[|[|x]]]] a H; cbn in H; try discriminate; injection H as <-; (split; [reflexivity|]); cbn [members made_of just_made some_places fst snd].
    + exists false. split; [apply made_8|]. split; [cbn; lia|].
      change (calls_to 0 some_program) with pool_ops.
      apply (pool_is_careful (conf 8 dbg) 4096 32 false (fresh 4096 8 false) 2); [apply made_8|lia|cbn; lia|].
      exact pool_example.
    + split; [unfold mono_made; cbn; lia|]. split; [exists false; reflexivity|].
      assert (pow2 1) by (exists 0; split; [lia|reflexivity]). repeat constructor; auto; cbn; lia.
    + split; [unfold mono_made; cbn; lia|]. split; [exists false; reflexivity|].
      assert (pow2 1) by (exists 0; split; [lia|reflexivity]). repeat constructor; auto; cbn; lia.
    + exact I.
  - intros [|[|[|[|x]]]] [|[|[|[|y]]]] Hx Hy N; unfold disjoint; cbn in *; try congruence; lia.
  - destruct dbg; eexists; vm_compute; reflexivity.
Qed.

(** What is missing: assignment compiles, since only the copy constructors are deleted.
    After x = y both resources hand out the same memory: *)
Theorem C106_assigned_refuted : forall dbg fuel (W : world) x y a b sz al ans b' p, x <> y ->
  W x = Some a -> W y = Some b -> own_code b -> class_of (members a) = class_of (members b) ->
  body_step dbg fuel (members b) (OAllocate sz al ans) = Ok (b', EAllocate sz al p []) ->
  p <> 0 -> 0 < sz ->
  exists W', world_run dbg fuel W [WAssign x y; WCall x (OAllocate sz al ans); WCall y (OAllocate sz al ans)] =
      Ok (W', [(x, EAllocate sz al p []); (y, EAllocate sz al p [])]) /\
    ~ disjoint (p, sz) (p, sz).
Proof. exact served_twice. Qed.
Print Assumptions C106_assigned_refuted.

(** and so on for every sequence of calls *)
Theorem C106_twins_refuted : forall dbg fuel (W : world) x y a b cs b' es, x <> y ->
  W x = Some a -> W y = Some b -> own_code b -> class_of (members a) = class_of (members b) ->
  body_run dbg fuel (members b) cs = Ok (b', es) ->
  exists W', world_run dbg fuel W (WAssign x y :: map (WCall x) cs ++ map (WCall y) cs) =
    Ok (W', map (pair x) es ++ map (pair y) es).
Proof. exact assigned_twins. Qed.
Print Assumptions C106_twins_refuted.

(** a simple_resource forgets its allocations that way: nothing complains when it is
    destroyed although the client still holds memory *)
Theorem C106_forgotten_refuted : forall dbg, exists W' s,
  let W : world := fun x => if (x <? 2)%nat then Some (made_of (BSimple 8 4 (fresh (4096 + 64 * Z.of_nat x) 8 false))) else None in
  world_run dbg 50 W [WCall 0 (get 1); WAssign 0 1] = Ok (W', [(0%nat, EAllocate 1 1 4096 [])]) /\
  live [EAllocate 1 1 4096 []] = [(4096, 1)] /\
  W' 0%nat = Some (made_of (BSimple 8 4 s)) /\ destroy s = Ok tt.
Proof. intros [|]; do 2 eexists; cbn zeta; repeat split; vm_compute; reflexivity. Qed.
Print Assumptions C106_forgotten_refuted.

Example C106_refuted_instance : forall dbg,
  own_code (made_of (BMono (mono_construct 8224 16 false))) /\
  exists b, body_step dbg 50 (BMono (mono_construct 8224 16 false)) (ask 8) = Ok (b, EAllocate 8 1 8224 []) /\
  exists W', world_run dbg 50 some_world [WAssign 1 2; WCall 1 (ask 8); WCall 2 (ask 8)] =
    Ok (W', [(1%nat, EAllocate 8 1 8224 []); (2%nat, EAllocate 8 1 8224 [])]).
Proof.
  intros dbg. split; [split; reflexivity|].
  destruct dbg; eexists; (split; [vm_compute; reflexivity|eexists; vm_compute; reflexivity]).
Qed.

(** Every program, assignments included: a call of a resource does what it does for a
    resource by itself with the past that assignments gave it. *)
Theorem C106_exact_partial : forall dbg fuel ops W W' es x a c a' e, (forall x a, W x = Some a -> own_code a) ->
  world_run dbg fuel W ops = Ok (W', es) -> W' x = Some a -> object_step dbg fuel a c = Ok (a', e) ->
  exists p0 es', W (fst (past_of ops x)) = Some p0 /\
    body_run dbg fuel (members p0) (snd (past_of ops x) ++ [c]) = Ok (members a', es' ++ [e]).
Proof. exact assigned_past. Qed.
Print Assumptions C106_exact_partial.

Example C106_exact_instance : forall dbg,
  let ops := [WCall 1 (ask 4); WCall 2 (ask 2); WAssign 1 2; WCall 1 (ask 3); WCall 2 (ask 5); WAssignBase 2 1] in
  (forall x a, some_world x = Some a -> own_code a) /\
  past_of ops 1%nat = (2%nat, [ask 2; ask 3]) /\ past_of ops 2%nat = (2%nat, [ask 2; ask 5]) /\
  exists W' es a a', world_run dbg 50 some_world ops = Ok (W', es) /\ W' 1%nat = Some a /\
    object_step dbg 50 a (ask 1) = Ok (a', EAllocate 1 1 8229 []).
Proof.
  intros dbg. cbv zeta. split; [intros [|[|[|[|x]]]] a H; cbn in H; try discriminate; injection H as <-; split; reflexivity|].
  split; [reflexivity|]. split; [reflexivity|].
  destruct dbg; do 4 eexists; (split; [vm_compute; reflexivity|split; [vm_compute; reflexivity|vm_compute; reflexivity]]).
Qed.

(** ** C107 *)

(** allocate and deallocate run the code of the object's own class, in every program
    that assigns through memory_resource only between resources of one class *)
Theorem C107_own_code_partial : forall dbg fuel ops W W' es x a c, (forall x a, W x = Some a -> own_code a) ->
  Forall (same_class W) ops -> world_run dbg fuel W ops = Ok (W', es) -> W' x = Some a ->
  object_step dbg fuel a c = (' (b, e) <- body_step dbg fuel (members a) c;; Ok (made_of b, e))%res.
Proof. exact own_calls. Qed.
Print Assumptions C107_own_code_partial.

(** What is missing: resources of different classes.  The two function pointers are
    copied, and the next call is undefined. *)
Theorem C107_base_refuted : forall dbg fuel (W : world) x y a b c, W x = Some a -> W y = Some b ->
  own_code b -> ~ same_kind (members a) (members b) ->
  c <> ORelease -> world_run dbg fuel W [WAssignBase x y; WCall x c] = UB.
Proof. exact base_assigned. Qed.
Print Assumptions C107_base_refuted.

(** Exactly when: the class whose code an object runs is that of the resource its
    pointers were copied from. *)
Theorem C107_exact_partial : forall dbg fuel ops W W' es x a c, (forall x a, W x = Some a -> own_code a) ->
  world_run dbg fuel W ops = Ok (W', es) -> W' x = Some a -> c <> ORelease ->
  exists a0 s0, W x = Some a0 /\ W (code_of ops x) = Some s0 /\
    (same_kind (members s0) (members a0) ->
       object_step dbg fuel a c = (' (b, e) <- body_step dbg fuel (members a) c;; Ok (made_of b, e))%res) /\
    (~ same_kind (members s0) (members a0) -> object_step dbg fuel a c = UB).
Proof. exact code_exact. Qed.
Print Assumptions C107_exact_partial.

(** the pointers of the null resource go astray and come back *)
Example C107_exact_instance : forall dbg,
  let away := [WAssignBase 3 0; WAssignBase 1 2] in
  let back := [WAssignBase 2 3; WAssignBase 3 0; WAssignBase 3 2] in
  code_of away 3%nat = 0%nat /\ code_of away 1%nat = 2%nat /\ code_of back 3%nat = 3%nat /\
  (exists W', world_run dbg 50 some_world (away ++ [WCall 1 (ask 8)]) = Ok (W', [(1%nat, EAllocate 8 1 8192 [])])) /\
  world_run dbg 50 some_world (away ++ [WCall 3 (ask 8)]) = UB /\
  (exists W', world_run dbg 50 some_world (back ++ [WCall 3 (ask 8)]) = Ok (W', [(3%nat, EAllocate 8 1 0 [])])).
Proof. intros []; cbv zeta; repeat split; try (eexists; vm_compute; reflexivity); reflexivity. Qed.

Example C107_instance : forall dbg,
  Forall (same_class some_world) [WAssignBase 1 2; WCall 1 (ask 8)] /\
  (exists W', world_run dbg 50 some_world [WAssignBase 1 2; WCall 1 (ask 8)] = Ok (W', [(1%nat, EAllocate 8 1 8192 [])])) /\
  world_run dbg 50 some_world [WAssignBase 1 0; WCall 1 (ask 8)] = UB /\
  world_run dbg 50 some_world [WAssignBase 3 0; WCall 3 (ODeallocate 0)] = UB.
Proof.
  intros dbg. split; [|destruct dbg; (split; [eexists; vm_compute; reflexivity|split; reflexivity])].
  repeat constructor. cbn. intros a b Ha Hb. injection Ha as <-. injection Hb as <-. reflexivity.
Qed.
