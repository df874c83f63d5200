(** Proofs: release() and deallocate after the histories of a client that keeps block 0,
    and pointers of the upstream resource in every state (C61, C63). *)

Require Import List ZArith Lia Bool Permutation.
Require Import Verif.Machine Verif.Outcome Verif.BitsSpec Verif.BitsModel Verif.SimpleSpec Verif.SimpleModel Verif.SimpleView.
Require Import Verif.SimpleProofs Verif.SimpleOpProofs Verif.SimpleHistProofs Verif.SimpleAnyProofs Verif.SimpleMainProofs.
Require Import Verif.SimpleExactProofs Verif.SimpleAstrayProofs.
Import ListNotations.
Open Scope Z_scope.

(** C61 *)
Lemma pinned_release : forall c buffer size up s fuel sz align ans ops s' es, made c buffer size up s ->
  DBG c = true -> 0 < sz < BS c -> pow2 align -> align <= BS c -> sz + align <= 2 ^ 64 ->
  pinned_client (data s) (BS c) (bc s) up ops ->
  run c fuel s (OAllocate sz align ans :: ops) = Ok (s', es) ->
  exists s2, release c (enough (bc s)) s' = Ok s2 /\ regions_of s2 [Reg 0 (bc s) false] /\ freec s2 = 1 /\
    busyc s2 = 0 /\ destroy s2 = Ok tt.
Proof.
  intros c buffer size up s fuel sz align ans ops s' es M DB Hs Pa Hal Hw PC H.
  destruct (made_wf _ _ _ _ _ M) as [HC _].
  destruct (pinned_run _ _ _ _ _ _ _ _ _ _ _ _ M DB Hs Pa Hal Hw PC H) as [rs [W2 [[t ->] [[P1 [P2 P3]] _]]]].
  destruct (one_block_release c s' (Reg 0 1 true) t (enough (bc s)) HC W2 eq_refl) as [s2 E].
  - rewrite P2. auto.
  - exists s2. rewrite P2 in E. exact E.
Qed.

(** C63 *)
Lemma pinned_returned : forall c buffer size up s fuel sz align ans ops s' es, made c buffer size up s ->
  DBG c = true -> 0 < sz < BS c -> pow2 align -> align <= BS c -> sz + align <= 2 ^ 64 ->
  pinned_client (data s) (BS c) (bc s) up ops ->
  run c fuel s (OAllocate sz align ans :: ops) = Ok (s', es) ->
  forall p, In p (map fst (live es)) -> exists s2, deallocate_impl c s' p = Ok (s2, []).
Proof.
  intros c buffer size up s fuel sz align ans ops s' es M DB Hs Pa Hal Hw PC H p I.
  destruct (made_wf _ _ _ _ _ M) as [HC _].
  destruct (pinned_run _ _ _ _ _ _ _ _ _ _ _ _ M DB Hs Pa Hal Hw PC H) as [rs [W [PN [[P1 [P2 P3]] [SR [T [LP LR]]]]]]].
  assert (J : In p (map (region_addr (data s) (BS c)) (busy rs))) by (eapply Permutation_in; eauto).
  apply in_map_iff in J. destruct J as [r [J1 J2]]. apply in_busy in J2. destruct J2 as [J2 J3].
  apply in_split in J2. destruct J2 as [l [t ->]].
  destruct (deallocate_live c s' l r t HC W J3) as [s2 [a [n [l' [t' [E _]]]]]].
  exists s2. rewrite <- E. f_equal. unfold addr. congruence.
Qed.

Lemma made_geometry : forall c buffer size up s fuel ops s' es, made c buffer size up s -> Forall sane_op ops ->
  run c fuel s ops = Ok (s', es) -> cfg_ok c /\ geometry c s' /\ same_place s s' /\ has_up s = up.
Proof.
  intros c buffer size up s fuel ops s' es M SO R.
  destruct (made_wf _ _ _ _ _ M) as [HC [W [U [NX _]]]].
  destruct (run_any c fuel ops s s' es HC) as [[[P1 [P2 P3]] _] _]; auto.
  - apply (g_aligned _ _ (wf_geom _ _ _ W)).
  - intros _ i. left. rewrite NX. reflexivity.
  - split; auto. split; [|split; [repeat split; auto|auto]].
    destruct (wf_geom _ _ _ W) as [G1 G2 G3 G4 G5]. split; rewrite ?P1, ?P2; auto.
Qed.

(** a pointer outside the buffer goes to the upstream exactly when it is a multiple of BlockSize *)
Lemma foreign_pointer : forall c up s ops s' es p, history c up s ops s' es ->
  0 < p < 2 ^ 64 -> ~ data s <= p < data s + bc s * BS c ->
  deallocate_impl c s' p = (if (p mod BS c =? 0) && up then Ok (s', [UpDeallocate p]) else Abort).
Proof.
  intros c up s ops s' es p [buffer [size [fuel [M [SO [R _]]]]]] P N.
  destruct (made_geometry _ _ _ _ _ _ _ _ _ M SO R) as [HC [G [[P1 [P2 P3]] U]]].
  rewrite (deallocate_outside c s' p HC G P) by (rewrite P1, P2; auto). rewrite P3, U. reflexivity.
Qed.

(** in debug builds a request that is passed on aborts unless the answer is a multiple of
    BlockSize, and in release builds every answer is handed out *)
Lemma upstream_answer : forall c fuel s size align ans ans' s' p, cfg_ok c -> size <> 0 ->
  allocate_impl c fuel s size align ans = Ok (s', p, [UpAllocate size align]) ->
  0 <= ans' size align < 2 ^ 64 ->
  allocate_impl c fuel s size align ans' =
    if negb (DBG c) || (ans' size align mod BS c =? 0) then Ok (s', ans' size align, [UpAllocate size align]) else Abort.
Proof.
  intros c fuel s size align ans ans' s' p HC S0 H A. unfold allocate_impl in *.
  rewrite (proj2 (Z.eqb_neq size 0)) in * by auto.
  assert (B : forall x, search_buffer c fuel s size align = Ok x -> forall P : bool,
    (let (s1, q) := x in (q =? 0) && has_up s1) = P -> P = false -> False).
  { intros [s1 q] E P EP ->. rewrite E in H. cbn [bind] in H. rewrite EP in H.
    destruct (DBG c); cbn [cassert] in H; [destruct (is_power_of_2 align)|]; try discriminate H;
      cbn [bind cassert] in H; try discriminate H.
    destruct (is_aligned true q (BS c)) as [b| | |]; cbn [bind] in H; try discriminate H. destruct b; discriminate H. }
  destruct (search_buffer c fuel s size align) as [[s1 q]| | |].
  2-4: destruct (DBG c); cbn [cassert bind] in H; [destruct (is_power_of_2 align)|]; discriminate H.
  specialize (B _ eq_refl _ eq_refl). cbn [bind] in *. 
  destruct ((q =? 0) && has_up s1); [|exfalso; apply B; reflexivity]. 
  destruct (DBG c); cbn [cassert negb orb bind] in *.
  - destruct (is_power_of_2 align); [|discriminate H]. rewrite aligned_bs by auto.
    destruct (is_aligned true (ans size align) (BS c)) as [b| | |]; cbn [bind] in H; try discriminate H.
    destruct b; [|discriminate H]. injection H as <- <-. cbn [bind]. destruct (ans' size align mod BS c =? 0); reflexivity.
  - injection H as <- <-. reflexivity.
Qed.

(** C55 *)
Lemma blocks_used : forall c s rs fuel size align ans l f t, cfg_ok c -> wf c s rs ->
  ordinary_buffer (data s) (bc s * BS c) -> (Z.to_nat (bc s) < fuel)%nat ->
  0 < size -> pow2 align -> size + align <= 2 ^ 64 ->
  alignment_within_reach (data s) (bc s * BS c) align -> search_safe (data s) (BS c) rs size align ->
  first_fit (data s) (BS c) rs size align l f t ->
  exists s' q i k rs', allocate_impl c fuel s size align ans = Ok (s', q, []) /\ wf c s' rs' /\
    busy rs' = busy l ++ Reg i (if size mod BS c =? 0 then k + 1 else k) true :: busy t /\ blocks_for (BS c) size k.
Proof.
  intros c s rs fuel size align ans l f t HC W O F S0 Pa Hw RE SS FF.
  destruct (first_fit_served c s rs fuel size align ans l f t HC W O F S0 Pa Hw RE SS FF)
    as [s' [q [i [rs' [E [_ [_ [W' [_ B]]]]]]]]].
  assert (P := bs_pos c HC). assert (DM := Z.div_mod size (BS c) ltac:(lia)). assert (MB := Z.mod_pos_bound size (BS c) P).
  exists s', q, i, (if size mod BS c =? 0 then size / BS c else size / BS c + 1), rs'. split; auto. split; auto.
  split.
  - rewrite B. destruct (size mod BS c =? 0); reflexivity.
  - split; destruct (Z.eqb_spec (size mod BS c) 0) as [M|M].
    + nia.
    + nia.
    + intros j H. rewrite M, Z.add_0_r in DM. nia.
    + intros j H. nia.
Qed.
