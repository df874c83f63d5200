(** Clients that meet the conditions of the theorems about simple_resource. *)

Require Import ZArith Lia List Bool.
Require Import Verif.Outcome Verif.BitsSpec Verif.SimpleModel Verif.SimpleSpec Verif.SimpleView Verif.SimpleProofs.
Require Import Verif.SimpleOpProofs Verif.SimpleHistProofs Verif.SimpleMainProofs Verif.SimpleRefuted
  Verif.SimpleSweepSpec.
Import ListNotations.
Open Scope Z_scope.

Lemma alloc_keeps : forall d b n up rs size align ans rs' e r,
  spec_step d b n up rs (OAllocate size align ans) rs' e -> In r (busy rs) -> In r (busy rs').
Proof.
  intros d b n up rs size align ans rs' e r H I. inversion H; subst; auto.
  match goal with F : first_fit _ _ _ _ _ _ _ _, B : busy rs' = _ |- _ =>
    rewrite B; destruct F as [-> [FB _]]; rewrite busy_app, busy_cons_free in I by auto end.
  apply in_app_or in I. apply in_or_app. destruct I; [left|right; right]; auto.
Qed.

Lemma first_alloc : forall d b n up size ans rs' e, 0 < b -> 0 < size <= n * b ->
  spec_step d b n up [Reg 0 n false] (OAllocate size 1 ans) rs' e ->
  In (Reg 0 (size / b + 1) true) (busy rs').
Proof.
  intros d b n up size ans rs' e B S H.
  assert (CH : can_hold d b (Reg 0 n false) size 1).
  { exists d. unfold region_addr. cbn [rstart rlen]. split; [lia|]. split; [apply Z.divide_1_l|lia]. }
  assert (NN : ~ nothing_fits d b [Reg 0 n false] size 1) by (intros N; apply (N _ (or_introl eq_refl) eq_refl CH)).
  inversion H; subst; try contradiction; try lia.
  match goal with F : first_fit _ _ _ _ _ _ _ _, A : first_aligned _ _ _ _ _, E : busy rs' = _ |- _ =>
    destruct F as [FE _]; destruct A as [A1 [_ A3]]; rename E into EB end.
  destruct l as [|x l]; [injection FE as <- <-|destruct l; discriminate].
  specialize (A3 (region_addr d b (Reg 0 n false)) ltac:(lia) ltac:(apply Z.divide_1_l)).
  unfold region_addr in *. cbn [rstart] in *. assert (i = 0) by nia. subst i.
  rewrite EB. left. reflexivity.
Qed.

Lemma get_valid : forall d b n rel (al : list region -> Z -> Z -> Prop) mf rs k,
  0 < k -> al rs k 1 -> valid_op d b n false rel al mf rs (get k).
Proof. intros. right. split; auto. split; [exact pow2_1|]. split; [auto|discriminate]. Qed.

Lemma give_valid : forall d b n rel al (mf : list region -> region -> Prop) rs m p,
  In (Reg 0 m true) (busy rs) -> mf rs (Reg 0 m true) -> p = d ->
  valid_op d b n false rel al mf rs (ODeallocate p).
Proof.
  intros d b n rel al mf rs m p I M ->. right. left. exists (Reg 0 m true). apply in_busy in I. destruct I.
  split; auto. split; auto. split; auto. unfold region_addr. cbn [rstart]. lia.
Qed.

Definition single_ops : list op := [get 1; get 3; ODeallocate 4096; get 2; ORelease; get 1].
Lemma single_example : single_block_client 4096 4 8 false single_ops.
Proof.
  assert (P : forall rs k, 0 < k < 4 -> pool_request 4 1 rs k 1) by (intros rs k H; unfold pool_request; lia).
  unfold single_block_client, single_ops, get. fold (get 1) (get 2) (get 3). cbn [valid_client].
  split; [apply get_valid; [lia|apply P; lia]|]. intros rs1 e1 S1.
  split; [apply get_valid; [lia|apply P; lia]|]. intros rs2 e2 S2.
  split; [apply give_valid with (1 / 4 + 1); [|exact I|reflexivity]|].
  { eapply alloc_keeps; [exact S2|]. eapply (first_alloc _ _ _ _ 1); [| |exact S1]; lia. }
  intros rs3 e3 S3. split; [apply get_valid; [lia|apply P; lia]|]. intros rs4 e4 S4.
  split; [reflexivity|]. intros rs5 e5 S5. split; [apply get_valid; [lia|apply P; lia]|]. auto.
Qed.

Definition pool_ops : list op := [get 5; get 7; ODeallocate 4096; get 6].
Lemma pool_example : pool_client 4096 4 8 2 false pool_ops.
Proof.
  assert (P : forall rs k, 4 < k < 8 -> pool_request 4 2 rs k 1) by (intros rs k H; unfold pool_request; lia).
  unfold pool_client, pool_ops. cbn [valid_client].
  split; [apply get_valid; [lia|apply P; lia]|]. intros rs1 e1 S1.
  split; [apply get_valid; [lia|apply P; lia]|]. intros rs2 e2 S2.
  split; [apply give_valid with (5 / 4 + 1); [|exact I|reflexivity]|].
  { eapply alloc_keeps; [exact S2|]. eapply (first_alloc _ _ _ _ 5); [| |exact S1]; lia. }
  intros rs3 e3 S3. split; [apply get_valid; [lia|apply P; lia]|]. auto.
Qed.

Definition stack_ops : list op := [get 5; ODeallocate 4096; get 9; get 3].
Lemma stack_example : stack_client 4096 4 8 false stack_ops.
Proof.
  assert (P : forall rs k, 0 < k < 100 -> k mod 4 <> 0 -> odd_request 4 rs k 1).
  { intros rs k H M. split; [lia|]. split; [lia|]. intros D. apply M. apply Z.mod_divide; auto; lia. }
  unfold stack_client, stack_ops. cbn [valid_client].
  split; [apply get_valid; [lia|apply P; [lia|discriminate]]|]. intros rs1 e1 S1.
  assert (I1 := first_alloc 4096 4 8 false 5 _ _ _ ltac:(lia) ltac:(lia) S1).
  split; [apply give_valid with (5 / 4 + 1); [exact I1| |reflexivity]|].
  { intros r Hr Br. cbn [rstart]. 
    assert (B : busy rs1 = [Reg 0 (5 / 4 + 1) true]).
    { inversion S1; subst; try contradiction; try discriminate.
      - match goal with F : first_fit _ _ _ _ _ _ _ _, E : busy rs1 = _ |- _ => destruct F as [FE _]; rewrite E in * end.
        destruct l as [|x l]; [injection FE as <- <-|destruct l; discriminate]. cbn [app busy filter] in *.
        destruct I1 as [I1|[]]. rewrite I1. reflexivity. }
    assert (X : In r (busy rs1)) by (apply in_busy; auto). rewrite B in X. destruct X as [<-|[]]. cbn. lia. }
  intros rs2 e2 S2. split; [apply get_valid; [lia|apply P; [lia|discriminate]]|]. intros rs3 e3 S3.
  split; [apply get_valid; [lia|apply P; [lia|discriminate]]|]. auto.
Qed.

(** a client that takes block 0 first and keeps it *)
Definition pinned_ops : list op := [get 5; get 1; ODeallocate 4100; get 3].
Lemma pinned_example : pinned_client 4096 4 8 false pinned_ops.
Proof.
  intros rs T B.
  assert (E : rs = [Reg 0 1 true; Reg 1 7 false]).
  { apply tiling_unique with 8; auto. split; [cbn; lia|].
    intros l r1 r2 t X. destruct l as [|x [|y [|z l]]]; cbn [app] in X; try discriminate X.
    injection X as <- <- _. left. reflexivity. }
  subst rs.
  assert (P : forall rs k, 0 < k < 100 -> reachable_request 4096 4 8 rs k 1).
  { intros rs k H. split; [lia|]. apply reach_divides; try lia; [exact pow2_1|apply Z.divide_1_l]. }
  unfold pinned_ops. cbn [valid_client].
  split; [apply get_valid; [lia|apply P; lia]|]. intros rs1 e1 S1.
  assert (I1 : In (Reg 1 2 true) (busy rs1)).
  { assert (CH : can_hold 4096 4 (Reg 1 7 false) 5 1).
    { exists 4100. unfold region_addr. cbn [rstart rlen]. split; [lia|]. split; [apply Z.divide_1_l|lia]. }
    assert (NN : ~ nothing_fits 4096 4 [Reg 0 1 true; Reg 1 7 false] 5 1).
    { intros N. apply (N (Reg 1 7 false)); auto. right. left. auto. }
    inversion S1; subst; try contradiction; try discriminate.
    match goal with F : first_fit _ _ _ _ _ _ _ _, A : first_aligned _ _ _ _ _, E : busy rs1 = _ |- _ =>
      destruct F as [FE [FB _]]; destruct A as [A1 [_ A3]]; rewrite E; clear E end.
    destruct l as [|x [|y [|z l]]]; cbn [app] in FE; try discriminate FE.
    - injection FE as <- _. discriminate FB.
    - injection FE as <- <- <-. apply in_app_iff. right. left.
      specialize (A3 4100 ltac:(unfold region_addr; cbn [rstart]; lia) ltac:(apply Z.divide_1_l)).
      unfold region_addr in *. cbn [rstart] in *. f_equal. lia. }
  split; [apply get_valid; [lia|apply P; lia]|]. intros rs2 e2 S2.
  split.
  { right. left. exists (Reg 1 2 true). assert (I2 := alloc_keeps _ _ _ _ _ _ _ _ _ _ _ S2 I1).
    apply in_busy in I2. destruct I2. split; auto. split; auto. split; [discriminate|reflexivity]. }
  intros rs3 e3 S3. split; [apply get_valid; [lia|apply P; lia]|]. auto.
Qed.

(** a consistent state and a request for which the search is right *)
Lemma fit_request :
  first_fit 4096 4 [Reg 0 2 false; Reg 2 1 true; Reg 3 5 false] 5 1 [] (Reg 0 2 false) [Reg 2 1 true; Reg 3 5 false] /\
  search_safe 4096 4 [Reg 0 2 false; Reg 2 1 true; Reg 3 5 false] 5 1.
Proof.
  assert (CH : can_hold_spare 4096 4 (Reg 0 2 false) 5 1).
  { exists 4096. unfold region_addr. cbn [rstart rlen]. split; [lia|]. split; [apply Z.divide_1_l|lia]. }
  assert (CH' : can_hold 4096 4 (Reg 0 2 false) 5 1).
  { destruct CH as [q [Q1 [Q2 Q3]]]. exists q. split; auto. split; auto. lia. }
  split; [|split].
  - split; auto. split; auto. split; auto. intros x [].
  - intros l f t E F N. exfalso. apply (N (Reg 0 2 false)); auto.
    destruct l as [|x l]; cbn [app] in E; injection E as <- E; left; auto.
  - intros l f t [E [F [_ N]]]. destruct l as [|x l]; cbn [app] in E; injection E as <- E; auto.
    exfalso. apply (N (Reg 0 2 false)); auto. left. auto.
Qed.

(** the fresh resource and a request larger than the buffer *)
Lemma large_request : careful 4096 4 8 [Reg 0 8 false] 33 1 /\ nothing_fits 4096 4 [Reg 0 8 false] 33 1.
Proof.
  assert (NF : nothing_fits 4096 4 [Reg 0 8 false] 33 1).
  { intros r [<-|[]] _ [q [Q1 [_ Q2]]]. unfold region_addr in *. cbn [rstart rlen] in *. lia. }
  split; auto. split; [lia|]. split; [right; auto|]. split.
  - intros l f t E _ _. destruct l as [|x l]; [injection E as _ <-; auto|]. destruct l; discriminate E.
  - intros l f t [E [F [C _]]]. exfalso. apply (NF f); auto. rewrite E. apply in_app_iff. right. left. auto.
Qed.

(** a first region of two free blocks in which block 1 was in use before *)
Definition long_ops : list op := [get 1; get 1; get 1; ODeallocate 4096; ODeallocate 4100].
Lemma long_wf : forall dbg, wf (conf 8 dbg) (after (conf 8 dbg) (fresh 4096 8 false) long_ops)
  [Reg 0 2 false; Reg 2 1 true; Reg 3 5 false].
Proof.
  intros dbg. destruct dbg; (constructor;
  [ constructor; [vm_compute; auto|exists 1024; vm_compute; auto|vm_compute; split; discriminate|vm_compute; auto|intros _; vm_compute; auto]
  | vm_compute; repeat split; discriminate | coal | heads | vm_compute; reflexivity | vm_compute; reflexivity ]).
Qed.
Lemma long_passes : passes_first_free 4096 4 [Reg 0 2 false; Reg 2 1 true; Reg 3 5 false] 9 1.
Proof.
  exists [], (Reg 0 2 false), [Reg 2 1 true; Reg 3 5 false]. split; [reflexivity|]. split; [intros x []|].
  split; [reflexivity|]. split; [|discriminate]. intros [q [Q1 [_ Q2]]]. cbn in *. lia.
Qed.

(** a first region of two blocks in use, and block 1 was never the start of a region *)
Definition busy_ops : list op := [get 5; get 1; get 1; ODeallocate 4104].
Lemma busy_wf : forall dbg, wf (conf 8 dbg) (after (conf 8 dbg) (fresh 4096 8 false) busy_ops)
  [Reg 0 2 true; Reg 2 1 false; Reg 3 1 true; Reg 4 4 false].
Proof.
  intros dbg. destruct dbg; (constructor;
  [ constructor; [vm_compute; auto|exists 1024; vm_compute; auto|vm_compute; split; discriminate|vm_compute; auto|intros _; vm_compute; auto]
  | vm_compute; repeat split; discriminate | coal | heads | vm_compute; reflexivity | vm_compute; reflexivity ]).
Qed.
Lemma busy_passes : passes_first_free 4096 4 [Reg 0 2 true; Reg 2 1 false; Reg 3 1 true; Reg 4 4 false] 9 1.
Proof.
  exists [Reg 0 2 true], (Reg 2 1 false), [Reg 3 1 true; Reg 4 4 false]. split; [reflexivity|]. split; [intros x [<-|[]]; reflexivity|].
  split; [reflexivity|]. split; [|discriminate]. intros [q [Q1 [_ Q2]]]. cbn in *. lia.
Qed.

Lemma pool_wf : forall dbg, wf (conf 8 dbg) (after (conf 8 dbg) (fresh 4096 8 false) pool_ops)
  [Reg 0 2 true; Reg 2 2 true; Reg 4 4 false].
Proof.
  intros dbg. destruct dbg; (constructor;
  [ constructor; [vm_compute; auto|exists 1024; vm_compute; auto|vm_compute; split; discriminate|vm_compute; auto|intros _; vm_compute; auto]
  | vm_compute; repeat split; discriminate | coal | heads | vm_compute; reflexivity | vm_compute; reflexivity ]).
Qed.

(** * Resources built without assertions *)

Lemma made_16 : made (conf 16 false) 4096 32 false (fresh 4096 8 false).
Proof.
  constructor.
  - apply conf_ok. lia.
  - unfold buffer_ok. lia.
  - intros _. cbn [MB BS conf]. lia.
  - vm_compute; reflexivity.
  - discriminate.
  - apply ordinary_small; cbn [data bc fresh BS conf]; lia.
Qed.

Ltac concrete_wf := constructor;
  [ constructor; [vm_compute; auto|exists 1024; vm_compute; auto|vm_compute; split; discriminate|vm_compute; auto|intros _; vm_compute; auto]
  | vm_compute; repeat split; discriminate | coal | heads | vm_compute; reflexivity | vm_compute; reflexivity ].

Lemma wf_16 : wf (conf 16 false) (fresh 4096 8 false) [Reg 0 8 false].
Proof. concrete_wf. Qed.
Lemma wf_8 : wf (conf 8 false) (fresh 4096 8 false) [Reg 0 8 false].
Proof. concrete_wf. Qed.
Lemma ok_256 : cfg_ok (conf 256 false).
Proof. constructor; cbn [MB BS conf]; [lia|exact pow2_4|lia]. Qed.
Lemma wf_256 : wf (conf 256 false) (fresh 4096 256 false) [Reg 0 256 false].
Proof. concrete_wf. Qed.
Lemma inside_wf :
  wf (conf 8 false) (after (conf 8 false) (fresh 4096 8 false) [get 1; get 5; ODeallocate 4096])
    ([] ++ Reg 0 1 false :: Reg 1 2 true :: [Reg 3 5 false]).
Proof. cbn [app]. concrete_wf. Qed.
Lemma forgets_wf :
  wf (conf 256 false) (after (conf 256 false) (fresh 4096 255 false) [get 1; get 5])
    ([Reg 0 1 true; Reg 1 2 true] ++ [Reg 3 252 false]).
Proof. cbn [app]. concrete_wf. Qed.

(** every outcome of a search in states that no list of regions explains *)
Lemma hold_1 : forall d b r size, can_hold d b r size 1 <-> size <= rlen r * b.
Proof.
  intros d b r size. unfold can_hold. split.
  - intros [q [A [B C]]]. lia.
  - intros H. exists (region_addr d b r). split; [lia|]. split; [apply Z.divide_1_l|lia].
Qed.
Lemma search_instance :
  let c := conf 8 true in
  let ops := [get 5; get 1; get 1; get 1; ODeallocate 4104; get 5; ODeallocate 4100] in
  let s := after c (fresh 4096 8 false) ops in
  let ops2 := [get 5; get 1; get 1; ODeallocate 4104; get 5; ODeallocate 4096] in
  let s2 := after c (fresh 4096 8 false) ops2 in
  (exists es, run c 60 (fresh 4096 8 false) ops = Ok (s, es)) /\
  nxt s 1 = 3 /\ nxt s 2 = 3 /\
  (exists es, run c 60 (fresh 4096 8 false) ops2 = Ok (s2, es)) /\
  search_from_0 4096 4 8 (nxt s) (inuse s) 3 1 (Some (Holds 2)) /\
  search_from_0 4096 4 8 (nxt s) (inuse s) 4 1 (Some (Holds 2)) /\
  search_from_0 4096 4 8 (nxt s) (inuse s) 5 1 (Some (Holds 1)) /\
  search_from_0 4096 4 8 (nxt s) (inuse s) 9 1 None /\
  search_from_0 4096 4 8 (nxt s2) (inuse s2) 13 1 (Some Ends) /\
  (exists s', allocate_impl c 60 s 3 1 (fun _ _ => 0) = Ok (s', 4104, [])) /\
  allocate_impl c 60 s 4 1 (fun _ _ => 0) = Abort /\
  (exists s', allocate_impl c 60 s 5 1 (fun _ _ => 0) = Ok (s', 4100, [])) /\
  allocate_impl c 60 s 9 1 (fun _ _ => 0) = Hang /\
  allocate_impl c 60 s2 13 1 (fun _ _ => 0) = Ok (s2, 0, []).
Proof.
  intros c ops s ops2 s2.
  assert (F : nxt s 0 = 2 /\ nxt s 1 = 3 /\ nxt s 2 = 3 /\ inuse s 0 = true /\ inuse s 1 = false /\ inuse s 2 = false)
    by (vm_compute; auto 10).
  destruct F as [N0 [N1 [N2 [U0 [U1 U2]]]]].
  assert (F : nxt s2 0 = 3 /\ inuse s2 0 = false /\ inuse s2 3 = true /\ nxt s2 3 = 0 /\ inuse s2 1 = true /\ nxt s2 1 = 3)
    by (vm_compute; auto 10).
  destruct F as [M0 [V0 [V3 [M3 [V1 M1]]]]].
  assert (W0 : first_free_from (nxt s) (inuse s) 0 2).
  { apply free_later; [auto|lia|]. rewrite N0. apply free_here; auto. }
  assert (W1 : first_free_from (nxt s) (inuse s) 1 1) by (apply free_here; auto).
  assert (L2 : rlen (from_block (nxt s) 8 2) = 1) by (unfold from_block; rewrite N2; reflexivity).
  assert (L1 : rlen (from_block (nxt s) 8 1) = 2) by (unfold from_block; rewrite N1; reflexivity).
  assert (L0 : rlen (from_block (nxt s2) 8 0) = 3) by (unfold from_block; rewrite M0; reflexivity).
  split; [eexists; vm_compute; reflexivity|]. split; [auto|]. split; [auto|].
  split; [eexists; vm_compute; reflexivity|].
  split; [apply search_0; [apply looks_holds; auto; apply hold_1; lia|discriminate]|].
  split; [apply search_0; [apply looks_holds; auto; apply hold_1; lia|discriminate]|].
  split.
  { apply search_1; [|apply looks_holds; auto; apply hold_1; lia|discriminate].
    apply looks_on with (f := 2); auto; [rewrite hold_1; lia|lia]. }
  split.
  { apply search_forever; [apply looks_on with (f := 2)|apply looks_on with (f := 1)]; auto; try (rewrite hold_1; lia); lia. }
  split.
  { apply search_1; [apply looks_on with (f := 0); [apply free_here; auto|rewrite hold_1; lia|lia]| |discriminate].
    apply looks_ends. intros f W. exfalso.
    inversion W as [i E|i f' E E' W']; subst; [congruence|]. rewrite M1 in W'.
    inversion W' as [i E2|i f2 E2 E2' W2]; subst; congruence. }
  split; [eexists; vm_compute; reflexivity|]. split; [vm_compute; reflexivity|].
  split; [eexists; vm_compute; reflexivity|]. split; vm_compute; reflexivity.
Qed.

(** the same pointer handed out twice *)
Lemma same_pointer_refuted : forall dbg, exists c s ops s' es, DBG c = dbg /\
  history c false s ops s' es /\ ~ NoDup (map fst (live es)).
Proof.
  intros dbg. set (ops := [get 5; get 1; ODeallocate 4096; OAllocate 9 8 (fun _ _ => 0)]).
  exists (conf 8 dbg), (fresh 4096 8 false), ops, (after (conf 8 dbg) (fresh 4096 8 false) ops),
    (seen (conf 8 dbg) (fresh 4096 8 false) ops).
  split; [reflexivity|]. split.
  - assert (V : Forall sane_op ops).
    { unfold ops. repeat constructor; try lia; try apply pow2_1. exists 3. split; [lia|reflexivity]. }
    exists 4096, 32, 50%nat. split; [apply made_8|]. split; [exact V|]. unfold ops.
    destruct dbg; (split; [vm_compute; reflexivity|vm_compute; tauto]).
  - assert (E : map fst (live (seen (conf 8 dbg) (fresh 4096 8 false) ops)) = [4104; 4104]) by (destruct dbg; vm_compute; reflexivity).
    rewrite E. intros N. inversion N as [|? ? N1 _]; subst. apply N1. left. reflexivity.
Qed.

(** free_count() below zero: nothing can be given back any more *)
Lemma live_stuck : exists c s ops s' es, DBG c = true /\ history c false s ops s' es /\
  Forall (small_alignment (BS c)) ops /\ live es = [(4096, 5); (4100, 25); (4104, 21)] /\ freec s' = 2 ^ 64 - 1 /\
  forall p, In p (map fst (live es)) -> deallocate_impl c s' p = Abort.
Proof.
  set (ops := [get 5; get 21; ODeallocate 4096; get 25; get 5]).
  exists (conf 8 true), (fresh 4096 8 false), ops, (after (conf 8 true) (fresh 4096 8 false) ops),
    (seen (conf 8 true) (fresh 4096 8 false) ops).
  assert (E : live (seen (conf 8 true) (fresh 4096 8 false) ops) = [(4096, 5); (4100, 25); (4104, 21)]) by (vm_compute; reflexivity).
  split; [reflexivity|]. split; [unfold ops; hist made_8|]. split; [unfold ops, get; repeat constructor; cbn; lia|].
  split; [exact E|]. split; [vm_compute; reflexivity|].
  intros p. rewrite E. cbn [map fst In]. intros [<-|[<-|[<-|[]]]]; vm_compute; reflexivity.
Qed.

(** both ways to give a block back, and to fail, after a history that leaves the links inconsistent *)
Lemma free_instance :
  let c := conf 8 true in
  let ops := [get 1; get 13; ODeallocate 4096; ODeallocate 4100; get 9; get 17; ODeallocate 4096; get 13] in
  let s := after c (fresh 4096 8 false) ops in
  history c false (fresh 4096 8 false) ops s (seen c (fresh 4096 8 false) ops) /\
  Forall (small_alignment (BS c)) ops /\
  map fst (live (seen c (fresh 4096 8 false) ops)) = [4100; 4108] /\ freec s = 0 /\
  gap_before (prv s) (inuse s) 1 && gap_after (nxt s) (inuse s) 1 = true /\
  deallocate_impl c s 4100 = Abort /\
  gap_before (prv s) (inuse s) 3 && gap_after (nxt s) (inuse s) 3 = false /\
  exists s2, deallocate_impl c s 4108 = Ok (s2, []) /\ freec s2 = 0 /\ busyc s2 = 1.
Proof.
  cbv zeta. split; [hist made_8|]. split; [unfold get; repeat constructor; cbn; lia|].
  split; [vm_compute; reflexivity|]. split; [vm_compute; reflexivity|]. split; [vm_compute; reflexivity|].
  split; [vm_compute; reflexivity|]. split; [vm_compute; reflexivity|].
  eexists. split; [vm_compute; reflexivity|]. split; vm_compute; reflexivity.
Qed.

(** * release() block by block *)

Ltac meet := first [apply meets_here; vm_compute; reflexivity | apply meets_none; vm_compute; reflexivity
  | apply meets_later; [vm_compute; reflexivity|vm_compute; discriminate|meet]].
Lemma release_instance :
  let c := conf 8 true in
  let ops := [get 1; get 5; get 1; ODeallocate 4096; ODeallocate 4100; get 5; get 1; get 1] in
  let s := after c (fresh 4096 8 false) ops in
  history c false (fresh 4096 8 false) ops s (seen c (fresh 4096 8 false) ops) /\
  map fst (live (seen c (fresh 4096 8 false) ops)) = [4112; 4104; 4096; 4108] /\
  exists s2, sweeps c s 0 [0; 3; 4] (Ok s2) /\ release c (enough 8) s = Ok s2 /\ busyc s2 = 1 /\
    inuse s2 2 = true /\ destroy s2 = Abort.
Proof.
  cbv zeta. split; [hist made_8|]. split; [vm_compute; reflexivity|].
  eexists. split.
  { eapply sweeps_again; [|vm_compute; reflexivity|vm_compute; discriminate|]; [meet|].
    eapply sweeps_again; [|vm_compute; reflexivity|vm_compute; discriminate|]; [meet|].
    eapply sweeps_last; [|vm_compute; reflexivity|vm_compute; reflexivity]; meet. }
  split; [vm_compute; reflexivity|]. split; [vm_compute; reflexivity|]. split; vm_compute; reflexivity.
Qed.

(** all five blocks are given back, and the one that cannot be *)
Lemma release_all_instance :
  let c := conf 8 true in
  let ops := [get 1; get 1; get 5; get 1; ODeallocate 4096; ODeallocate 4100; get 5; get 1; get 1] in
  let s := after c (fresh 4096 8 false) ops in
  history c false (fresh 4096 8 false) ops s (seen c (fresh 4096 8 false) ops) /\ busyc s = 5 /\
  exists s2, sweeps c s 0 [0; 2; 4; 5; 6] (Ok s2) /\ release c (enough 8) s = Ok s2 /\ destroy s2 = Ok tt.
Proof.
  cbv zeta. split; [hist made_8|]. split; [vm_compute; reflexivity|].
  eexists. split.
  { do 4 (eapply sweeps_again; [|vm_compute; reflexivity|vm_compute; discriminate|]; [meet|]).
    eapply sweeps_last; [|vm_compute; reflexivity|vm_compute; reflexivity]; meet. }
  split; vm_compute; reflexivity.
Qed.
(** three of four live blocks are given back, and one more is taken *)
Lemma balance_instance :
  let c := conf 8 true in
  let before := [get 1; get 5; get 1; ODeallocate 4096; ODeallocate 4100; get 5; get 1; get 1] in
  let ops := before ++ [ORelease; get 1] in
  let s := fresh 4096 8 false in
  made c 4096 32 false s /\ Forall (countable (4096 + BS c + MB c * BS c)) ops /\
  run c (enough 8) s ops = Ok (after c s ops, seen c s ops) /\
  count is_served (seen c s ops) = 7 /\ count is_returned (seen c s ops) = 2 /\
  released c (enough 8) s ops [[0; 3; 4]] /\ busyc (after c s ops) = 2 /\ destroy (after c s ops) = Abort.
Proof.
  cbv zeta. split; [apply made_8|]. split.
  { cbn [app]. repeat (apply Forall_cons; [first [left; reflexivity|right; repeat split; cbn; try lia; exact pow2_1]|]). constructor. }
  split; [vm_compute; reflexivity|]. split; [vm_compute; reflexivity|]. split; [vm_compute; reflexivity|].
  split; [|split; vm_compute; reflexivity].
  cbn [app]. do 8 (eapply released_later; [discriminate|vm_compute; reflexivity|]).
  eapply released_here.
  { do 2 (eapply sweeps_again; [|vm_compute; reflexivity|vm_compute; discriminate|]; [meet|]).
    eapply sweeps_last; [|vm_compute; reflexivity|vm_compute; reflexivity]; meet. }
  eapply released_later; [discriminate|vm_compute; reflexivity|]. constructor.
Qed.
(** release build; the second request fills the buffer to its last byte *)
Lemma balance_any_instance :
  let c := conf 16 false in
  let ops := [get 1; get 28; get 1; ORelease; get 1] in
  let s := fresh 4096 8 false in
  construct c 4096 32 false = Ok s /\ Forall (countable (4096 + BS c + MB c * BS c)) ops /\
  run c (enough 8) s ops = Ok (after c s ops, seen c s ops) /\
  run (conf 16 true) (enough 8) s ops = Abort /\
  count is_served (seen c s ops) = 4 /\ count is_returned (seen c s ops) = 0 /\
  freed c (enough 8) s ops [[0; 1; 9]] /\ busyc (after c s ops) = 1.
Proof.
  cbv zeta. split; [vm_compute; reflexivity|]. split.
  { cbn [app]. repeat (apply Forall_cons; [first [left; reflexivity|right; repeat split; cbn; try lia; exact pow2_1]|]). constructor. }
  split; [vm_compute; reflexivity|]. split; [vm_compute; reflexivity|]. split; [vm_compute; reflexivity|].
  split; [vm_compute; reflexivity|].
  split; [|vm_compute; reflexivity].
  do 3 (eapply freed_later; [discriminate|vm_compute; reflexivity|]).
  eapply freed_here.
  - vm_compute. reflexivity.
  - repeat constructor; cbn; intuition discriminate.
  - intros i. cbn [inuse In].
    repeat match goal with |- context [match ?x with _ => _ end] => is_var x; destruct x end; intuition (discriminate || lia).
  - eapply freed_later; [discriminate|vm_compute; reflexivity|]. constructor.
Qed.
Lemma release_abort_instance :
  let c := conf 8 true in
  let ops := [get 5; get 21; ODeallocate 4096; get 25; get 5] in
  let s := after c (fresh 4096 8 false) ops in
  history c false (fresh 4096 8 false) ops s (seen c (fresh 4096 8 false) ops) /\
  sweeps c s 0 [0] Abort /\ release c (enough 8) s = Abort.
Proof.
  cbv zeta. split; [hist made_8|]. split; [|vm_compute; reflexivity].
  apply sweeps_abort; [meet|vm_compute; reflexivity].
Qed.

Lemma upstream_instance :
  let c := conf 8 true in
  let ops := [get 5; get 1; get 1; ODeallocate 4104; get 5; ODeallocate 4096] in
  let s := after c (fresh 4096 8 true) ops in
  made c 4096 32 true (fresh 4096 8 true) /\
  (exists es, run c 60 (fresh 4096 8 true) ops = Ok (s, es)) /\
  search_from_0 4096 4 8 (nxt s) (inuse s) 13 1 (Some Ends) /\
  allocate_impl c 60 s 13 1 (fun _ _ => 8192) = Ok (s, 8192, [UpAllocate 13 1]).
Proof.
  intros c ops s.
  assert (F : nxt s 0 = 3 /\ inuse s 0 = false /\ inuse s 3 = true /\ nxt s 3 = 0 /\ inuse s 1 = true /\ nxt s 1 = 3)
    by (vm_compute; auto 10).
  destruct F as [M0 [V0 [V3 [M3 [V1 M1]]]]].
  assert (L0 : rlen (from_block (nxt s) 8 0) = 3) by (unfold from_block; rewrite M0; reflexivity).
  split; [apply made_8_up|]. split; [eexists; vm_compute; reflexivity|]. split; [|vm_compute; reflexivity].
  apply search_1; [apply looks_on with (f := 0); [apply free_here; auto|rewrite hold_1; lia|lia]| |discriminate].
  apply looks_ends. intros f W. exfalso.
  inversion W as [i E|i f' E E' W']; subst; [congruence|]. rewrite M1 in W'.
  inversion W' as [i E2|i f2 E2 E2' W2]; subst; congruence.
Qed.
