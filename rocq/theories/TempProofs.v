(** Lemmas for C165. *)

Require Import ZArith Lia List Bool Permutation.
Require Import Verif.Outcome Verif.Machine Verif.BitsModel Verif.BitsSpec Verif.BitsProofs.
Require Import Verif.SimpleModel Verif.SimpleSpec Verif.SimpleView Verif.SimpleProofs Verif.SimpleScanProofs Verif.SimpleAllocProofs Verif.SimpleOpProofs
  Verif.SimpleAnyProofs Verif.SimpleHistProofs Verif.SimpleMainProofs Verif.SimpleExactProofs Verif.SimpleAstrayProofs Verif.SimpleRefuted.
Require Import Verif.MonoModel Verif.MonoSpec Verif.RoomSpec Verif.RoomProofs Verif.GrowProofs Verif.PastProofs Verif.LargerProofs.
Import ListNotations.
Open Scope Z_scope.
Open Scope res_scope.

(** what is live determines the regions *)
Lemma exact_same : forall d b n rs rs' L L', 0 < b -> tiling n rs -> tiling n rs' -> exact_inv d b rs L -> exact_inv d b rs' L' ->
  Permutation L L' -> rs = rs'.
Proof.
  intros d b n rs rs' L L' B T T' E E' P. apply (same_regions d b n); auto.
  assert (X : Permutation (map (fun r => (region_addr d b r, rlen r)) (busy rs)) (map (fun r => (region_addr d b r, rlen r)) (busy rs'))).
  { rewrite <- E, <- E'. apply Permutation_map. exact P. }
  apply (Permutation_map (fun x => (fst x, snd x * b))) in X. rewrite !map_map in X. exact X.
Qed.

Lemma valid_rest : forall d b n up rel A M ops ops' rs rs1 es, valid_client d b n up rel A M rs (ops ++ ops') ->
  spec_run d b n up rs ops rs1 es -> valid_client d b n up rel A M rs1 ops'.
Proof.
  intros d b n up rel A M; induction ops as [|x ops IH]; intros ops' rs rs1 es V S.
  - inversion S; subst. exact V.
  - inversion S as [|x1 x2 x3 x4 x5 x6 x7 S1 S2]; subst. cbn [app valid_client] in V. destruct V as [_ V].
    eapply IH; [eapply V; exact S1|exact S2].
Qed.

Lemma careful_here : forall c buffer size_b up s, made c buffer size_b up s ->
  forall fuel, (Z.to_nat (bc s) < fuel)%nat ->
  forall ops s1 es, careful_client (data s) (BS c) (bc s) up ops -> run c fuel s ops = Ok (s1, es) ->
  exists rs, wf c s1 rs /\ same_place s s1 /\ spec_run (data s) (BS c) (bc s) up [Reg 0 (bc s) false] ops rs es /\
    tiling (bc s) rs /\ exact_inv (data s) (BS c) rs (live es).
Proof.
  intros c buffer size_b up s M fuel F ops s1 es V R. destruct (made_wf _ _ _ _ _ M) as [HC [W [U [_ [O [D [B [PB [DV N]]]]]]]]].
  destruct (careful_history _ _ _ _ _ _ _ M F V) as [s' [rs [es' [R' [W' [SP [SR _]]]]]]].
  rewrite R in R'. inversion R'; subst s' es'. rewrite U in SR.
  destruct (exact_run _ _ _ _ _ _ _ _ [] D B N (wf_tiling _ _ _ W) ltac:(unfold exact_inv; reflexivity) SR) as [T L].
  exists rs. auto 6.
Qed.

Lemma careful_trace : forall c buffer size_b up s, made c buffer size_b up s ->
  forall fuel, (Z.to_nat (bc s) < fuel)%nat ->
  forall ops mid ops2 s0 s1 es em, careful_client (data s) (BS c) (bc s) up (ops ++ mid) ->
  careful_client (data s) (BS c) (bc s) up (ops ++ ops2) ->
  run c fuel s ops = Ok (s0, es) -> run c fuel s (ops ++ mid) = Ok (s1, es ++ em) -> Permutation (live (es ++ em)) (live es) ->
  exists t1 t2 e2, run c fuel s (ops ++ ops2) = Ok (t1, es ++ e2) /\ run c fuel s (ops ++ mid ++ ops2) = Ok (t2, es ++ em ++ e2).
Proof.
  intros c buffer size_b up s M fuel F ops mid ops2 s0 s1 es em V1 V2 R0 R1 P.
  destruct (made_wf _ _ _ _ _ M) as [HC [W [U [_ [O [D [B _]]]]]]].
  destruct (careful_here _ _ _ _ _ M fuel F ops s0 es (valid_app _ _ _ _ _ _ _ _ _ _ V2) R0) as [r0 [W0 [P0 [S0 [T0 E0]]]]].
  destruct (careful_here _ _ _ _ _ M fuel F _ s1 _ V1 R1) as [r1 [W1 [P1 [_ [T1 E1]]]]].
  assert (r1 = r0) by (eapply exact_same; [exact B|exact T1|exact T0|exact E1|exact E0|exact P]). subst r1.
  assert (V := valid_rest _ _ _ _ _ _ _ _ _ _ _ _ V2 S0).
  rewrite <- U in V. destruct (alike c s s0 s1 r0 HC W0 W1 P0 P1 O fuel ops2 F V) as [t1 [t2 [e2 [X1 X2]]]].
  exists t1, t2, e2. split.
  - rewrite run_app, R0. cbn [bind]. rewrite X1. reflexivity.
  - rewrite app_assoc, run_app, R1. cbn [bind]. rewrite X2. cbn [bind]. rewrite <- app_assoc. reflexivity.
Qed.

Lemma valid_snoc : forall d b n up rel A M o ops rs, valid_client d b n up rel A M rs ops ->
  (forall rs1 es, spec_run d b n up rs ops rs1 es -> valid_op d b n up rel A M rs1 o) ->
  valid_client d b n up rel A M rs (ops ++ [o]).
Proof.
  intros d b n up rel A M o; induction ops as [|x ops IH]; intros rs V K; cbn [app valid_client] in *.
  - split; [apply (K rs []); constructor|]. intros; exact I.
  - destruct V as [V1 V2]. split; [exact V1|]. intros rs' e S. apply IH; [eapply V2; exact S|].
    intros rs1 es R. apply (K rs1 (e :: es)). econstructor; [exact S|exact R].
Qed.

(** a client may give back what it was given *)
Lemma careful_give : forall c buffer size_b up s, made c buffer size_b up s ->
  forall fuel, (Z.to_nat (bc s) < fuel)%nat ->
  forall ops s1 es p, careful_client (data s) (BS c) (bc s) up ops -> run c fuel s ops = Ok (s1, es) -> In p (map fst (live es)) ->
  careful_client (data s) (BS c) (bc s) up (ops ++ [ODeallocate p]).
Proof.
  intros c buffer size_b up s M fuel F ops s1 es p V R I.
  destruct (made_wf _ _ _ _ _ M) as [HC [W [U [_ [O [D [B [PB [DV N]]]]]]]]].
  destruct (careful_here _ _ _ _ _ M fuel F ops s1 es V R) as [rs [_ [_ [SR [T E]]]]].
  apply valid_snoc; [exact V|]. intros rs1 es1 SR1.
  destruct (spec_run_unique (data s) (BS c) (bc s) up ops _ rs es rs1 es1 D B (wf_tiling _ _ _ W)) as [<- _]; auto.
  { apply spec_keeps_tiling. exact N. }
  apply (Permutation_in _ (exact_keys _ _ _ _ E)) in I. apply in_map_iff in I. destruct I as [r [<- Ir]]. apply in_busy in Ir.
  right. left. exists r. split; [apply Ir|]. split; [apply Ir|]. split; [exact Logic.I|reflexivity].
Qed.

Lemma careful_temporary : forall c buffer size_b up s, made c buffer size_b up s ->
  forall fuel, (Z.to_nat (bc s) < fuel)%nat ->
  forall ops sz al ans p ops2 s0 s1 es, p <> 0 ->
  careful_client (data s) (BS c) (bc s) up (ops ++ [OAllocate sz al ans]) ->
  careful_client (data s) (BS c) (bc s) up (ops ++ ops2) ->
  run c fuel s ops = Ok (s0, es) ->
  run c fuel s (ops ++ [OAllocate sz al ans]) = Ok (s1, es ++ [EAllocate sz al p []]) ->
  exists t1 t2 e2, run c fuel s (ops ++ ops2) = Ok (t1, es ++ e2) /\
    run c fuel s (ops ++ OAllocate sz al ans :: ODeallocate p :: ops2) = Ok (t2, es ++ EAllocate sz al p [] :: EDeallocate p [] :: e2).
Proof.
  intros c buffer size_b up s M fuel F ops sz al ans p ops2 s0 s1 es P V1 V2 R0 R1.
  assert (Z0 : (p =? 0) = false) by (apply Z.eqb_neq; exact P).
  assert (LV : live (es ++ [EAllocate sz al p []]) = (p, sz) :: live es).
  { unfold live. rewrite fold_left_app. cbn [fold_left live_after]. rewrite Z0. reflexivity. }
  assert (IP : In p (map fst (live (es ++ [EAllocate sz al p []])))) by (rewrite LV; left; reflexivity).
  assert (V3 := careful_give _ _ _ _ _ M fuel F _ _ _ p V1 R1 IP). rewrite <- app_assoc in V3. cbn [app] in V3.
  destruct (careful_history _ _ _ _ _ _ _ M F V3) as [s3 [r3 [e3 [R3 _]]]].
  assert (X := R3). change [OAllocate sz al ans; ODeallocate p] with ([OAllocate sz al ans] ++ [ODeallocate p]) in X.
  rewrite app_assoc, run_app, R1 in X. cbn [bind] in X. cbn [run step] in X.
  destruct (deallocate_impl c s1 p) as [[s4 cs]| | |] eqn:DE; cbn [bind] in X; try discriminate X. inversion X; subst s4 e3. clear X.
  destruct (careful_here _ _ _ _ _ M fuel F _ s1 _ V1 R1) as [r1 [W1 [[P1 [P2 P3]] [_ [T1 E1]]]]].
  assert (CS : cs = []).
  { apply (Permutation_in _ (exact_keys _ _ _ _ E1)) in IP. apply in_map_iff in IP. destruct IP as [r [ER Ir]]. apply in_busy in Ir.
    destruct Ir as [Ir Br]. apply in_split in Ir. destruct Ir as [l [t ->]].
    destruct (made_wf _ _ _ _ _ M) as [HC _].
    destruct (deallocate_live c s1 l r t HC W1 Br) as [s' [a [n [l' [t' [DL _]]]]]].
    unfold addr in DL. rewrite P1 in DL. unfold region_addr in ER, DL. rewrite ER in DL. rewrite DE in DL. inversion DL. reflexivity. }
  subst cs. rewrite <- app_assoc in R3. cbn [app] in R3.
  apply (careful_trace _ _ _ _ _ M fuel F ops [OAllocate sz al ans; ODeallocate p] ops2 s0 s3 es [EAllocate sz al p []; EDeallocate p []] V3 V2 R0 R3).
  change [EAllocate sz al p []; EDeallocate p []] with ([EAllocate sz al p []] ++ [EDeallocate p []]).
  rewrite app_assoc. unfold live at 1. rewrite fold_left_app. fold (live (es ++ [EAllocate sz al p []])). rewrite LV.
  cbn [fold_left live_after remove_ptr fst]. rewrite Z.eqb_refl. reflexivity.
Qed.

(** * Where the search is not right *)

Lemma temp_wf : forall dbg,
  wf (conf 5 dbg) (after (conf 5 dbg) (fresh 4096 5 false) [get 5; get 9; ODeallocate 4096; get 1; ODeallocate 4096])
    ([] ++ Reg 0 2 false :: [Reg 2 3 true]).
Proof.
  intros dbg. destruct dbg; (constructor;
  [ constructor; [vm_compute; auto|exists 1024; vm_compute; auto|vm_compute; split; discriminate|vm_compute; auto|intros _; vm_compute; auto]
  | vm_compute; repeat split; discriminate | coal | heads | vm_compute; reflexivity | vm_compute; reflexivity ]).
Qed.

Lemma temp_passes : passes_first_free 4096 4 [Reg 0 2 false; Reg 2 3 true] 17 1.
Proof.
  exists [], (Reg 0 2 false), [Reg 2 3 true]. split; [reflexivity|]. split; [intros x []|].
  split; [reflexivity|]. split; [|discriminate]. intros [q [Q1 [_ Q2]]]. cbn in *. lia.
Qed.

Lemma temp_hangs : forall dbg, exists s1 s2, 
  run (conf 5 dbg) 60 (fresh 4096 5 false) ([get 5; get 9; ODeallocate 4096] ++ [get 17]) =
    Ok (s1, [EAllocate 5 1 4096 []; EAllocate 9 1 4104 []; EDeallocate 4096 []; EAllocate 17 1 0 []]) /\
  run (conf 5 dbg) 60 (fresh 4096 5 false) ([get 5; get 9; ODeallocate 4096] ++ [get 1; ODeallocate 4096]) =
    Ok (s2, [EAllocate 5 1 4096 []; EAllocate 9 1 4104 []; EDeallocate 4096 []; EAllocate 1 1 4096 []; EDeallocate 4096 []]) /\
  never_returns (fun fuel => allocate_impl (conf 5 dbg) fuel s2 17 1 (fun _ _ => 0)).
Proof.
  intros dbg. eexists. set (o := [get 5; get 9; ODeallocate 4096; get 1; ODeallocate 4096]). exists (after (conf 5 dbg) (fresh 4096 5 false) o).
  split; [destruct dbg; vm_compute; reflexivity|]. split; [destruct dbg; vm_compute; reflexivity|].
  assert (W := temp_wf dbg). fold o in W. set (s := after (conf 5 dbg) (fresh 4096 5 false) o) in *.
  assert (V : data s = 4096 /\ bc s = 5 /\ nxt s 1 = 2) by (destruct dbg; vm_compute; auto). destruct V as [V1 [V2 V3]].
  apply (returns_exactly_long (conf 5 dbg) s (Reg 0 2 false) [Reg 2 3 true]).
  - apply conf_ok. lia.
  - exact W.
  - cbn. lia.
  - rewrite V3, V2. lia.
  - split; [lia|]. split; [exact pow2_1|lia].
  - rewrite V1, V2. apply ordinary_small; cbn [BS conf]; lia.
  - rewrite V1, V2. apply reach_divides; cbn [BS conf]; try lia; [exact pow2_1|exists 4096; reflexivity].
  - rewrite V1. split; [exact temp_passes|]. split; [rewrite V3; lia|].
    unfold from_block_1. rewrite V2, V3. intros [q [Q1 [_ Q2]]]. cbn in *. lia.
Qed.

(** * A monotonic buffer *)

Lemma mono_temp : forall dbg, exists s1 s2,
  mono_run dbg (mono_construct 4096 64 false) [get 64] = Ok (s1, [EAllocate 64 1 4096 []]) /\
  mono_run dbg (mono_construct 4096 64 false) [get 3; ODeallocate 4096; get 64] =
    Ok (s2, [EAllocate 3 1 4096 []; EDeallocate 4096 []; EAllocate 64 1 0 []]).
Proof. intros dbg. do 2 eexists. split; destruct dbg; vm_compute; reflexivity. Qed.
