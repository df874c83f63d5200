(** Lemmas for C57, C58 and C59: what holds as long as nothing has been granted twice. *)

Require Import ZArith Lia List Bool Permutation.
Require Import Verif.Outcome Verif.Machine Verif.BitsModel Verif.BitsSpec Verif.BitsProofs.
Require Import Verif.SimpleModel Verif.SimpleSpec Verif.SimpleView Verif.SimpleProofs Verif.SimpleAllocProofs.
Require Import Verif.SimpleScanProofs Verif.SimpleOpProofs Verif.SimpleHistProofs Verif.SimpleReleaseProofs
  Verif.SimpleAnyProofs Verif.SimpleMainProofs Verif.SimpleWalkProofs Verif.SimpleKeepProofs Verif.PastProofs.
Import ListNotations.
Open Scope Z_scope.
Open Scope res_scope.

Lemma tiles_path : forall next prev used n rs p a l, 0 <= a -> rs <> [] ->
  tiles next prev used n p a rs -> path next a l -> l = map rstart rs.
Proof.
  intros next prev used n. induction rs as [|r rs IH]; intros p a l A NE T P; [congruence|].
  cbn [tiles] in T. destruct T as [T1 [T2 [T3 [T4 [T5 [T6 T7]]]]]].
  destruct l as [|x l]; [destruct P|]. cbn [path] in P. destruct P as [-> P]. cbn [map]. rewrite T1. f_equal.
  destruct (Z.eqb_spec (a + rlen r) n) as [E|E].
  - destruct rs as [|r2 rs]; [|cbn [tiles] in T7; lia].
    destruct l as [|y l]; [reflexivity|]. destruct P as [P _]. congruence.
  - destruct rs as [|r2 rs]; [cbn [tiles] in T7; lia|].
    destruct l as [|y l]; [lia|]. destruct P as [_ P]. rewrite T5 in P.
    apply (IH a (a + rlen r)); auto; [lia|discriminate].
Qed.
Lemma tiles_used : forall next prev used n rs p a, tiles next prev used n p a rs -> map used (map rstart rs) = map rbusy rs.
Proof.
  intros next prev used n. induction rs as [|r rs IH]; intros p a T; [reflexivity|].
  cbn [tiles] in T. destruct T as [T1 [_ [_ [_ [_ [T6 T7]]]]]]. cbn [map]. rewrite T1, T6. f_equal. eapply IH; eauto.
Qed.

(** the walk over next_index(), in terms of regions *)
Lemma in_order_walk : forall c s es l, 1 <= bc s -> in_order c s es -> path (nxt s) 0 l ->
  exists rs, l = map rstart rs /\ map (inuse s) l = map rbusy rs /\ coalesced rs /\
    freec s = Z.of_nat (length (free rs)) /\ busyc s = Z.of_nat (length (busy rs)).
Proof.
  intros c s es l B [rs [T [[C Co] [F [U _]]]]] P. exists rs.
  assert (NE : rs <> []) by (intros ->; cbn [contiguous] in C; lia).
  assert (E : l = map rstart rs) by (eapply tiles_path; eauto; lia). split; auto.
  split; [subst l; eapply tiles_used; eauto|]. auto.
Qed.

Lemma filter_used : forall (f : bool -> bool) used rs, map used (map rstart rs) = map rbusy rs ->
  length (filter (fun i => f (used i)) (map rstart rs)) = length (filter (fun r => f (rbusy r)) rs).
Proof.
  intros f used. induction rs as [|r rs IH]; intros H; [reflexivity|]. cbn [map] in H.
  assert (E1 := f_equal (fun l => hd true l) H). cbn [hd] in E1. assert (E2 := f_equal (@tl bool) H). cbn [tl] in E2.
  cbn [map filter]. rewrite E1. destruct (f (rbusy r)); cbn [length]; rewrite IH; auto.
Qed.

Lemma history_blocks : forall c up s ops s' es, history c up s ops s' es -> Forall (plain_op (BS c)) ops -> 1 <= bc s'.
Proof.
  intros c up s ops s' es [buffer [size [fuel [M [V [R PL]]]]]] PV.
  destruct (made_wf _ _ _ _ _ M) as [HC [W _]].
  destruct (run_place c fuel ops s s' es HC) as [_ [E _]]; auto.
  { apply (construct_aligned c buffer size up s HC (made_buffer _ _ _ _ _ M) (made_from _ _ _ _ _ M)). }
  assert (G := g_bc _ _ (wf_geom _ _ _ W)). lia.
Qed.

Lemma app_same_length : forall A (a c b d : list A), length a = length c -> a ++ b = c ++ d -> b = d.
Proof.
  intros A. induction a as [|x a IH]; intros [|y c] b d L E; try discriminate L; auto.
  cbn [app] in E. injection E as _ E. apply (IH c); auto.
Qed.

(** C57 *)
Lemma coalesced_until_overlap : forall c up s ops s' es l i j t, history c up s ops s' es -> Forall (plain_op (BS c)) ops ->
  (forall es1 es2, es = es1 ++ es2 -> well_granted c s (live es1)) ->
  path (nxt s') 0 (l ++ i :: j :: t) -> inuse s' i = true \/ inuse s' j = true.
Proof.
  intros c up s ops s' es l i j t H V G P. assert (B := history_blocks _ _ _ _ _ _ H V).
  destruct (in_order_walk c s' es _ B (until_overlap _ _ _ _ _ _ H V G) P) as [rs [E [U [Co _]]]].
  rewrite map_app in U. cbn [map] in U.
  symmetry in E. apply map_eq_app in E. destruct E as [l1 [l2 [-> [E1 E2]]]].
  destruct l2 as [|r1 l2]; [discriminate E2|]. destruct l2 as [|r2 l2]; [discriminate E2|].
  assert (LL : length (map (inuse s') l) = length (map rbusy l1)) by (rewrite !map_length, <- E1, map_length; auto).
  rewrite map_app in U. cbn [map] in U. apply app_same_length in U; auto.
  assert (Q1 := f_equal (fun l => hd true l) U). cbn [hd] in Q1.
  assert (Q2 := f_equal (fun l => hd true (tl l)) U). cbn [hd tl] in Q2.
  rewrite Q1, Q2. apply (Co l1 r1 r2 l2). reflexivity.
Qed.

(** C59 *)
Lemma counts_until_overlap : forall c up s ops s' es l, history c up s ops s' es -> Forall (plain_op (BS c)) ops ->
  (forall es1 es2, es = es1 ++ es2 -> well_granted c s (live es1)) -> path (nxt s') 0 l ->
  freec s' = Z.of_nat (length (filter (fun i => negb (inuse s' i)) l)) /\
  busyc s' = Z.of_nat (length (filter (inuse s') l)) /\
  busyc s' = Z.of_nat (length (live es)).
Proof.
  intros c up s ops s' es l H V G P. assert (B := history_blocks _ _ _ _ _ _ H V).
  assert (IO := until_overlap _ _ _ _ _ _ H V G).
  destruct (in_order_walk c s' es _ B IO P) as [rs [E [U [_ [F Bu]]]]]. subst l.
  split; [rewrite F; f_equal; symmetry; apply (filter_used negb (inuse s') rs); auto|].
  split; [rewrite Bu; f_equal; symmetry; apply (filter_used (fun b => b) (inuse s') rs); auto|].
  destruct IO as [rs2 [T [[C _] [_ [Bu2 Pm]]]]]. rewrite Bu2. f_equal.
  apply Permutation_length in Pm. rewrite !map_length in Pm. auto.
Qed.

(** C58 *)
Lemma bracket : forall c up s ops s1 es fuel ops' s2 es', history c up s ops s1 es -> Forall (plain_op (BS c)) ops ->
  (forall es1 es2, es = es1 ++ es2 -> well_granted c s (live es1)) ->
  Forall (plain_op (BS c)) ops' -> run c fuel s1 ops' = Ok (s2, es') -> polite (live es) es' ->
  (forall es1 es2, es' = es1 ++ es2 -> well_granted c s (live (es ++ es1))) ->
  Permutation (map (granted (BS c)) (live (es ++ es'))) (map (granted (BS c)) (live es)) ->
  exists rs, regions_of s1 rs /\ regions_of s2 rs /\ tiling (bc s) rs /\ freec s2 = freec s1 /\ busyc s2 = busyc s1 /\
    forall fuel2 ops2, (Z.to_nat (bc s) < fuel2)%nat ->
      valid_client (data s) (BS c) (bc s) up false (careful (data s) (BS c) (bc s)) any_order rs ops2 ->
      exists t1 t2 es2, run c fuel2 s1 ops2 = Ok (t1, es2) /\ run c fuel2 s2 ops2 = Ok (t2, es2).
Proof.
  intros c up s ops s1 es fuel ops' s2 es' H V G V' R PL G' P.
  destruct (history_keeps _ _ _ _ _ _ H V G) as [r1 [W1 [S1 [LF I1]]]].
  destruct H as [buffer [size [fuel0 [M _]]]].
  destruct (made_wf _ _ _ _ _ M) as [HC [_ [U [_ [O _]]]]].
  assert (E1 := S1). destruct E1 as [D1 [D2 D3]].
  destruct (run_keeps c fuel ops' s1 r1 s2 es' (live es) HC W1 LF) as [r2 [W2 [S2 [_ I2]]]]; auto.
  - rewrite D1, D2. exact O.
  - rewrite D1. exact I1.
  - intros ea eb E. specialize (G' ea eb E). unfold live in G'. rewrite fold_left_app in G'.
    destruct G' as [Ga Gb]. split; [exact Ga|]. rewrite D1, D2. exact Gb.
  - assert (S2' : same_place s s2) by (eapply same_place_trans; eauto).
    assert (E2 := S2'). destruct E2 as [F1 [F2 F3]].
    assert (T1 := wf_tiling _ _ _ W1). rewrite D2 in T1. assert (T2 := wf_tiling _ _ _ W2). rewrite F2 in T2.
    assert (r1 = r2).
    { apply (same_regions (data s) (BS c) (bc s)); auto; [apply bs_pos; auto|].
      unfold granted_inv in *. rewrite D1 in I2. rewrite <- I1, <- I2. unfold live in P |- *. rewrite fold_left_app in P.
      apply Permutation_sym. exact P. }
    subst r2. exists r1. split; [apply (wf_tiles _ _ _ W1)|]. split; [apply (wf_tiles _ _ _ W2)|]. split; auto.
    split; [rewrite (wf_free _ _ _ W1), (wf_free _ _ _ W2); auto|].
    split; [rewrite (wf_busy _ _ _ W1), (wf_busy _ _ _ W2); auto|].
    rewrite <- U. exact (alike c s s1 s2 r1 HC W1 W2 S1 S2' O).
Qed.

Lemma give_and_take_back : forall c up s ops s1 es fuel size align ans s2 p, history c up s ops s1 es ->
  Forall (plain_op (BS c)) ops -> (forall es1 es2, es = es1 ++ es2 -> well_granted c s (live es1)) ->
  0 <= size -> pow2 align -> align <= BS c -> size + align <= 2 ^ 64 ->
  allocate_impl c fuel s1 size align ans = Ok (s2, p, []) -> p <> 0 ->
  well_granted c s ((p, size) :: live es) ->
  exists s3 rs, deallocate_impl c s2 p = Ok (s3, []) /\ regions_of s1 rs /\ regions_of s3 rs /\ tiling (bc s) rs /\
    freec s3 = freec s1 /\ busyc s3 = busyc s1.
Proof.
  intros c up s ops s1 es fuel size align ans s2 p H V G Z0 PA AB ZA A PN WG.
  assert (WG0 : well_granted c s (live es)).
  { apply (G es []). rewrite app_nil_r. reflexivity. }
  destruct (history_keeps _ _ _ _ _ _ H V G) as [r1 [W1 [S1 [LF I1]]]].
  assert (H' := H). destruct H' as [buffer [sz [fuel0 [M _]]]].
  destruct (made_wf _ _ _ _ _ M) as [HC [_ [U [_ [O _]]]]].
  assert (E1 := S1). destruct E1 as [D1 [D2 D3]].
  assert (O1 : ordinary_buffer (data s1) (bc s1 * BS c)) by (rewrite D1, D2; exact O).
  assert (PO : plain_op (BS c) (OAllocate size align ans)) by (cbn [plain_op]; auto).
  assert (ST : step c fuel s1 (OAllocate size align ans) = Ok (s2, EAllocate size align p [])) by (cbn [step]; rewrite A; reflexivity).
  assert (LA : live_after (live es) (EAllocate size align p []) = (p, size) :: live es)
    by (cbn [live_after]; apply Z.eqb_neq in PN; rewrite PN; reflexivity).
  assert (WG1 : well_granted c s1 (live_after (live es) (EAllocate size align p []))).
  { rewrite LA. destruct WG as [Ga Gb]. split; [exact Ga|]. rewrite D1, D2. exact Gb. }
  assert (I1' : granted_inv (data s1) (BS c) r1 (live es)) by (rewrite D1; exact I1).
  destruct (step_keeps c fuel s1 r1 _ s2 _ (live es) HC W1 LF O1 PO ST Logic.I I1' WG1) as [r2 [W2 [S2 [LF2 I2]]]].
  rewrite LA in I2. assert (E2 := S2). destruct E2 as [F1 [F2 F3]].
  assert (O2 : ordinary_buffer (data s2) (bc s2 * BS c)) by (rewrite F1, F2; exact O1).
  assert (I2' : granted_inv (data s2) (BS c) r2 ((p, size) :: live es)) by (rewrite F1; exact I2).
  destruct (give_back c fuel [p] s2 r2 _ HC W2 LF2 O2 I2') as [s3 [r3 [R3 _]]].
  { constructor; [intros []|constructor]. }
  { intros q [<-|[]]. left. reflexivity. }
  cbn [map run step] in R3. destruct (deallocate_impl c s2 p) as [[s3' ups]| | |] eqn:DE; try discriminate R3.
  cbn [bind] in R3. injection R3 as -> ->.
  destruct (bracket c up s ops s1 es fuel [OAllocate size align ans; ODeallocate p] s3
    [EAllocate size align p []; EDeallocate p []] H V G) as [rs [Q1 [Q2 [Q3 [Q4 [Q5 _]]]]]].
  - constructor; [exact PO|constructor; [exact Logic.I|constructor]].
  - cbn [run]. rewrite ST. cbn [bind run step]. rewrite DE. reflexivity.
  - cbn [polite]. rewrite LA. cbn [map fst]. split; [exact Logic.I|]. split; [right; left; reflexivity|exact Logic.I].
  - intros ea eb E. unfold live. rewrite fold_left_app. fold (live es).
    destruct ea as [|a ea]; [exact WG0|]. cbn [app] in E. injection E as <- E. cbn [fold_left]. rewrite LA.
    destruct ea as [|a ea]; [exact WG|]. cbn [app] in E. injection E as <- E. cbn [fold_left live_after remove_ptr fst].
    rewrite Z.eqb_refl. destruct ea; [exact WG0|discriminate E].
  - unfold live. rewrite fold_left_app. fold (live es). cbn [fold_left]. rewrite LA. cbn [live_after remove_ptr fst].
    rewrite Z.eqb_refl. apply Permutation_refl.
  - exists s3, rs. auto 7.
Qed.
