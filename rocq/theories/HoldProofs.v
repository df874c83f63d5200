(** Lemmas for C162. *)

Require Import ZArith Lia List Bool Permutation.
Require Import Verif.Outcome Verif.Machine Verif.BitsModel Verif.BitsSpec Verif.BitsProofs.
Require Import Verif.SimpleModel Verif.SimpleSpec Verif.SimpleView Verif.SimpleProofs Verif.SimpleScanProofs Verif.SimpleAllocProofs Verif.SimpleOpProofs
  Verif.SimpleAnyProofs Verif.SimpleHistProofs Verif.SimpleMainProofs Verif.SimpleExactProofs Verif.SimpleRefuted.
Require Import Verif.MonoModel Verif.MonoSpec Verif.MonoProofs Verif.RoomSpec Verif.RoomProofs Verif.GrowProofs Verif.LessSpec Verif.LessProofs.
Import ListNotations.
Open Scope Z_scope.
Open Scope res_scope.

(** * Regions *)

Lemma coalesced_tail : forall r rs, coalesced (r :: rs) -> coalesced rs.
Proof. intros r rs C l r1 r2 t ->. apply (C (r :: l) r1 r2 t). reflexivity. Qed.

(** an interval of blocks none of which is in use lies in one free region *)
Lemma free_interval : forall n rs z a b, contiguous n z rs -> coalesced rs -> z <= a < b -> b <= n ->
  (forall r, In r rs -> rbusy r = true -> b <= rstart r \/ rstart r + rlen r <= a) ->
  exists f, In f rs /\ rbusy f = false /\ rstart f <= a /\ b <= rstart f + rlen f.
Proof.
  intros n; induction rs as [|r rs IH]; intros z a b C CO AB BN D; cbn [contiguous] in C; [lia|].
  destruct C as [C1 [C2 C3]].
  assert (UP : z + rlen r <= a -> exists f, In f (r :: rs) /\ rbusy f = false /\ rstart f <= a /\ b <= rstart f + rlen f).
  { intros UA. destruct (IH (z + rlen r) a b C3 (coalesced_tail _ _ CO) ltac:(lia) BN) as [f [I F]].
    - intros x I. apply D. right. exact I.
    - exists f. split; [right; exact I|exact F]. }
  destruct (rbusy r) eqn:RB.
  - destruct (D r (or_introl eq_refl) RB); [lia|]. apply UP. lia.
  - destruct (Z_le_gt_dec (z + rlen r) a); [apply UP; lia|].
    exists r. split; [left; reflexivity|]. split; [exact RB|]. split; [lia|].
    destruct rs as [|x rs]; cbn [contiguous] in C3; [lia|]. destruct C3 as [C3 [C4 _]].
    destruct (CO [] r x rs eq_refl) as [X|X]; [congruence|].
    destruct (D x (or_intror (or_introl eq_refl)) X); lia.
Qed.

Lemma region_order : forall n rs z l f t r, contiguous n z rs -> rs = l ++ f :: t -> In r rs ->
  In r l \/ rstart f <= rstart r.
Proof.
  intros n rs z l f t r C -> I. apply in_app_iff in I. destruct I as [I|I]; [auto|]. right.
  revert z C. induction l as [|x l IH]; intros z C; cbn [app contiguous] in C.
  - destruct C as [C1 [C2 C3]]. destruct I as [->|I]; [lia|]. destruct (contiguous_bounds _ _ _ C3) as [_ CB].
    specialize (CB r I). lia.
  - destruct C as [_ [_ C]]. eapply IH; eauto.
Qed.

Lemma regions_apart : forall n rs z r x, contiguous n z rs -> In r rs -> In x rs -> r <> x ->
  rstart r + rlen r <= rstart x \/ rstart x + rlen x <= rstart r.
Proof.
  intros n; induction rs as [|y rs IH]; intros z r x C I J N; [destruct I|]. cbn [contiguous] in C.
  destruct C as [C1 [C2 C3]]. destruct (contiguous_bounds _ _ _ C3) as [_ CB].
  destruct I as [->|I], J as [->|J]; [congruence| | |eapply IH; eauto].
  - specialize (CB x J). lia.
  - specialize (CB r I). lia.
Qed.

(** with less in use every free region is part of a free region *)
Lemma free_within : forall d b n rs rs' L L', 0 < b -> tiling n rs -> tiling n rs' -> exact_inv d b rs L -> exact_inv d b rs' L' ->
  incl L' L -> forall f, In f rs -> rbusy f = false ->
  exists f', In f' rs' /\ rbusy f' = false /\ rstart f' <= rstart f /\ rstart f + rlen f <= rstart f' + rlen f'.
Proof.
  intros d b n rs rs' L L' Hb [C CO] [C' CO'] E E' IN f I F. destruct (contiguous_bounds _ _ _ C) as [_ CB].
  assert (FB := CB f I). apply (free_interval n rs' 0); auto; try lia.
  intros r' I' B'.
  assert (X : In (region_addr d b r', rlen r') (map (fun r => (region_addr d b r, rlen r)) (busy rs'))).
  { apply (in_map (fun r => (region_addr d b r, rlen r))). apply in_busy. auto. }
  apply (Permutation_in _ (Permutation_sym E')) in X. apply in_map_iff in X. destruct X as [a [EA Ia]].
  apply IN in Ia. apply (in_map (fun a => (fst a, given b (snd a)))) in Ia. apply (Permutation_in _ E) in Ia.
  apply in_map_iff in Ia. destruct Ia as [r [ER Ir]]. apply in_busy in Ir. destruct Ir as [Ir Br].
  cbv beta in EA, ER. rewrite EA in ER. unfold region_addr in ER. injection ER as ER1 ER2.
  assert (rstart r = rstart r') by nia.
  assert (NE : f <> r) by (intros ->; congruence).
  destruct (regions_apart _ _ _ _ _ C I Ir NE); lia.
Qed.

(** * simple_resource: careful clients, both builds *)

Lemma careful_hold : forall c buffer size_b up s, made c buffer size_b up s ->
  forall fuel, (Z.to_nat (bc s) < fuel)%nat ->
  forall ops sz al ans ops' sz' al' ans', 0 < sz -> asks_less sz' al' sz al ->
  careful_client (data s) (BS c) (bc s) up (ops ++ [OAllocate sz al ans]) ->
  careful_client (data s) (BS c) (bc s) up (ops' ++ [OAllocate sz' al' ans']) ->
  exists s1 s2 es es' e e', run c fuel s (ops ++ [OAllocate sz al ans]) = Ok (s1, es ++ [e]) /\
    run c fuel s (ops' ++ [OAllocate sz' al' ans']) = Ok (s2, es' ++ [e']) /\
    (incl (live es') (live es) -> served e -> served e' /\ no_later e' e).
Proof.
  intros c buffer size_b up s M fuel F ops sz al ans ops' sz' al' ans' Hs L V V'.
  assert (L0 := L). destruct L0 as [L1 [L2 L3]].
  destruct (made_wf _ _ _ _ _ M) as [HC [W [U [_ [O [D [B [PB [DV N]]]]]]]]].
  destruct (last_request _ _ _ _ _ M _ F ops sz al ans Hs V) as [s1 [es [e [rs [rs1 [R [S1 [S2 [T E]]]]]]]]].
  destruct (last_request _ _ _ _ _ M _ F ops' sz' al' ans' ltac:(lia) V') as [s2 [es' [e' [rs' [rs2 [R' [S1' [S2' [T' E']]]]]]]]].
  exists s1, s2, es, es', e, e'. split; [exact R|]. split; [exact R'|]. intros IN SV.
  assert (VL := valid_last _ _ _ _ _ _ _ _ _ _ _ _ V S1).
  assert (PA : pow2 al) by (cbn [valid_op] in VL; destruct VL as [VL|VL]; [lia|apply VL]).
  assert (FW := free_within _ _ _ _ _ _ _ B T T' E E' IN).
  destruct (contiguous_bounds _ _ _ (proj1 T')) as [_ CB].
  inversion S2 as [|x1 x2 x3 x4 l f t q i x5 Hs1 FF FA Q T1 EQ| | | | | |]; subst; cbn [served] in SV; try contradiction; try lia.
  destruct FF as [RS [F2 [F3 F4]]].
  destruct (FW f ltac:(rewrite RS; apply in_app_iff; right; left; reflexivity) F2) as [g [G1 [G2 [G3 G4]]]].
  assert (CH : can_hold (data s) (BS c) g sz' al').
  { apply (less_holds _ _ _ _ _ sz al); auto. destruct F3 as [q [Q1 [Q2 Q3]]]. exists q. unfold region_addr in *.
    split; [nia|]. split; [exact Q2|nia]. }
  inversion S2' as [|y1 y2 y3 y4 l' f' t' q' i' y5 Hs' FF' FA' Q' T1' EQ'|y1 y2 y3 y4 Hs' NF' U'|y1 y2 y3 y4 Hs' NF' U'| | | |]; subst; try lia.
  - destruct FF' as [RS' [H2 [H3 H4]]].
    assert (I' : In f' rs') by (rewrite RS'; apply in_app_iff; right; left; reflexivity).
    assert (SG : rstart f' <= rstart g).
    { destruct (region_order _ _ _ _ _ _ g (proj1 T') RS' G1) as [X|X]; [|exact X]. exfalso. apply (H4 g X G2 CH). }
    specialize (CB f' I').
    assert (Q0 : 0 < data s + i' * BS c).
    { destruct FA' as [A _]. unfold region_addr in A. nia. }
    cbn [served no_later]. split; [lia|].
    assert (data s + i' * BS c <= data s + i * BS c); [|lia].
    destruct FA' as [_ [_ A3]]. destruct FA as [A1 [A2 _]]. apply A3; [unfold region_addr in *; nia|].
    eapply Z.divide_trans; [|exact A2]. apply weaker_divides; auto.
  - exfalso. apply (NF' g); auto.
  - exfalso. apply (NF' g); auto.
Qed.

(** * A monotonic buffer *)

Lemma handed_facts : forall dbg buffer size up ops s es, mono_made buffer size -> Forall (fair_op (buffer + size)) ops ->
  mono_run dbg (mono_construct buffer size up) ops = Ok (s, es) ->
  ascending (handed es) /\ forall a, In a (handed es) -> buffer <= fst a /\ 0 < snd a.
Proof.
  intros dbg b n up ops s es M F R. destruct (made_end b n up M) as [E1 [E2 [E3 E4]]].
  destruct (mono_run_ok dbg ops _ [] (start_inv b n up M)) as [s' [es' [R' [I [[S1 [S2 S3]] _]]]]].
  { eapply fair_weaken; [|exact F]. exact E1. }
  rewrite R in R'. injection R' as <- <-. fold (handed es) in I. split; [apply (mi_asc _ _ I)|].
  intros a Ia. destruct (mi_bounds _ _ I a Ia) as [[B1 B2] [B3 _]]. split; [|exact B3].
  assert (Nz : mdata s <> 0). { intros Z. destruct (mi_null _ _ I Z) as [_ N]. rewrite N in Ia. destruct Ia. }
  rewrite S1 in B1, Nz. destruct (E2 Nz) as [H1 _]. rewrite H1 in B1. exact B1.
Qed.

Lemma top_incl : forall d l l', ascending l -> (forall a, In a l -> d <= fst a /\ 0 < snd a) -> incl l' l ->
  top d l' <= top d l.
Proof.
  intros d l l' A B IN. destruct l' as [|a l']; cbn [top].
  - destruct l as [|b l]; cbn [top]; [lia|]. specialize (B b (or_introl eq_refl)). lia.
  - assert (I : In a l) by (apply IN; left; reflexivity). destruct l as [|b l]; [destruct I|]. cbn [top].
    destruct I as [->|I]; [lia|]. specialize (B b (or_introl eq_refl)).
    apply in_split in I. destruct I as [l1 [l2 ->]]. specialize (A [] b l1 a l2 eq_refl). lia.
Qed.

Lemma mono_hold : forall dbg buffer size up ops sz al ans s es e ops' sz' al' ans' s' es', mono_made buffer size ->
  Forall (fair_op (buffer + size)) (ops ++ [OAllocate sz al ans]) ->
  mono_run dbg (mono_construct buffer size up) (ops ++ [OAllocate sz al ans]) = Ok (s, es ++ [e]) -> served e ->
  Forall (fair_op (buffer + size)) ops' -> mono_run dbg (mono_construct buffer size up) ops' = Ok (s', es') ->
  incl (handed es') (handed es) -> asks_less sz' al' sz al ->
  exists s2 e', mono_run dbg (mono_construct buffer size up) (ops' ++ [OAllocate sz' al' ans']) = Ok (s2, es' ++ [e']) /\
    served e' /\ no_later e' e.
Proof.
  intros dbg buffer size up ops sz al ans s es e ops' sz' al' ans' s' es' MM FO R SV FO' R' IN L.
  apply Forall_app in FO. destruct FO as [FO1 FO2].
  inversion FO2 as [|x1 x2 FO3 _]; subst. cbn [fair_op] in FO3. destruct FO3 as [G1 [G2 G3]].
  destruct L as [L1 [L2 L3]].
  destruct (mono_contract dbg buffer size up ops MM FO1) as [s1 [es1 [R1 _]]].
  destruct (mono_served dbg buffer size up ops s1 es1 sz al ans MM FO1 R1 ltac:(lia) G2 G3) as [s2 [p [calls [E [Y X]]]]].
  destruct (mono_served dbg buffer size up ops' s' es' sz' al' ans' MM FO' R' ltac:(lia) L2 ltac:(lia)) as [s2' [p' [calls' [E' [Y' X']]]]].
  rewrite mono_run_app, R1 in R. cbn [bind mono_run mono_step] in R. rewrite E in R. cbn [bind] in R.
  injection R as <- R. apply app_inj_tail in R. destruct R as [<- <-].
  destruct (handed_facts _ _ _ _ _ _ _ MM FO1 R1) as [H1 H2].
  assert (TI := top_incl _ _ _ H1 H2 IN).
  apply served_event in SV. assert (SV' := SV). destruct SV' as [-> NP].
  assert (X1 := X eq_refl NP). apply Y in SV. destruct SV as [NB [q [Q1 [Q2 Q3]]]].
  assert (DV : (al' | al)) by (apply weaker_divides; auto).
  assert (F' : fits_behind buffer size (handed es') sz' al').
  { split; auto. exists q. split; [lia|]. split; [apply Z.divide_trans with al; auto|lia]. }
  apply Y' in F'. assert (F2 := F'). destruct F2 as [-> NP']. assert (X2 := X' eq_refl NP').
  exists s2', (EAllocate sz' al' p' []). split.
  { rewrite mono_run_app, R'. cbn [bind mono_run mono_step]. rewrite E'. reflexivity. }
  split; [apply served_event; auto|]. cbn [no_later].
  assert (p' <= p); [|lia]. destruct X1 as [A1 [A2 A3]]. destruct X2 as [B1 [B2 B3]].
  apply B3; [apply Z.divide_trans with al; auto|lia].
Qed.

(** * Witnesses *)

Definition returned : list op := [get 3; get 5; get 3; ODeallocate 4100].

Lemma returned_wf : forall dbg, wf (conf 8 dbg) (after (conf 8 dbg) (fresh 4096 8 false) returned)
  (Reg 0 1 true :: [] ++ Reg 1 2 false :: [Reg 3 1 true; Reg 4 4 false]).
Proof.
  intros dbg. destruct dbg; (constructor;
  [ constructor; [vm_compute; auto|exists 1024; vm_compute; auto|vm_compute; split; discriminate|vm_compute; auto|intros _; vm_compute; auto]
  | vm_compute; repeat split; discriminate | coal | heads | vm_compute; reflexivity | vm_compute; reflexivity ]).
Qed.

Lemma return_hangs : forall dbg, exists c s s1 s2 es, DBG c = dbg /\ made c 4096 32 false s /\
  run c 60 s ([get 3; get 5; get 3] ++ [get 9]) = Ok (s1, es ++ [EAllocate 9 1 4112 []]) /\
  run c 60 s ([get 3; get 5; get 3] ++ [ODeallocate 4100]) = Ok (s2, es ++ [EDeallocate 4100 []]) /\
  In (4100, 5) (live es) /\
  forall ans, never_returns (fun fuel => allocate_impl c fuel s2 9 1 ans).
Proof.
  intros dbg. exists (conf 8 dbg), (fresh 4096 8 false). eexists.
  exists (after (conf 8 dbg) (fresh 4096 8 false) returned), [EAllocate 3 1 4096 []; EAllocate 5 1 4100 []; EAllocate 3 1 4108 []].
  split; [reflexivity|]. split; [exact (made_8 dbg)|].
  split; [destruct dbg; vm_compute; reflexivity|]. split; [destruct dbg; vm_compute; reflexivity|].
  split; [cbn; auto|].
  intros ans fuel. assert (W := returned_wf dbg).
  assert (D : data (after (conf 8 dbg) (fresh 4096 8 false) returned) = 4096 /\
              bc (after (conf 8 dbg) (fresh 4096 8 false) returned) = 8) by (destruct dbg; vm_compute; auto).
  destruct D as [D1 D2]. eapply hang_generic with (2 := W); auto.
  - apply conf_ok. lia.
  - intros x [<-|[]]. reflexivity.
  - discriminate.
  - split; [lia|]. split; [exact pow2_1|lia].
  - rewrite D1, D2. apply ordinary_small; cbn [BS conf]; lia.
  - rewrite D1, D2. apply reach_divides; cbn [BS conf]; try lia; [exact pow2_1|exists 4096; reflexivity].
  - rewrite D1. intros [q [Q1 [_ Q2]]]. cbn in Q1, Q2. lia.
Qed.

Lemma mono_hold_refused : forall dbg, exists s s',
  mono_run dbg (mono_construct 4096 64 false) ([OAllocate (2 ^ 64 - 8) 1 (fun _ _ => 0)] ++ [get 70]) =
    Ok (s, [EAllocate (2 ^ 64 - 8) 1 4096 []] ++ [EAllocate 70 1 4088 []]) /\
  mono_run dbg (mono_construct 4096 64 false) ([] ++ [get 70]) = Ok (s', [] ++ [EAllocate 70 1 0 []]).
Proof. intros dbg. eexists. eexists. split; destruct dbg; vm_compute; reflexivity. Qed.
