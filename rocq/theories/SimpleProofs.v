(** Lemmas about simple_resource: the region structure and deallocation. *)

Require Import ZArith Lia List Bool Permutation.
Require Import Verif.Outcome Verif.Machine Verif.BitsModel Verif.BitsSpec Verif.BitsProofs.
Require Import Verif.ArithModel Verif.ArithProofs.
Require Import Verif.SimpleModel Verif.SimpleSpec.
Require Export Verif.SimpleView.
Import ListNotations.
Open Scope Z_scope.
Open Scope res_scope.

Lemma bs_pos : forall c, cfg_ok c -> 0 < BS c.
Proof. intros c [_ [k [Hk ->]] _]. apply pow2_pos; auto. Qed.

Lemma iw_spec : forall c, cfg_ok c -> 0 < iw c /\ MB c <= 2 ^ iw c.
Proof.
  intros c [H _ _]. unfold iw. rewrite bits_count_value by lia.
  destruct (Z.eqb_spec (MB c - 1) 0) as [E|N]; [lia|].
  assert (L : Z.log2 (MB c - 1) < 64) by (apply Z.log2_lt_pow2; lia).
  assert (L0 := Z.log2_nonneg (MB c - 1)).
  assert (M : MB c - 1 < 2 ^ (Z.log2 (MB c - 1) + 1)).
  { assert (K := Z.log2_spec (MB c - 1)). unfold Z.succ in K. apply K. lia. }
  destruct (proj1 (uint_from_nbits_spec (Z.log2 (MB c - 1) + 1)) ltac:(lia)) as [t [E [_ [Hin [Hle _]]]]].
  rewrite E. split; [lia|].
  assert (2 ^ (Z.log2 (MB c - 1) + 1) <= 2 ^ bits t) by (apply pow2_le; lia). lia.
Qed.

Lemma bindex_id : forall c i, cfg_ok c -> 0 <= i < MB c -> bindex c i = i.
Proof.
  intros c i H Hi. destruct (iw_spec c H). unfold bindex. apply wrap_id. lia.
Qed.

Lemma cassert_true : forall A dbg (k : res A), cassert dbg true k = k.
Proof. intros A []; reflexivity. Qed.

Lemma in_array_ok : forall A c i (k : res A), 0 <= i < MB c -> in_array c i k = k.
Proof.
  intros A c i k H. unfold in_array.
  destruct (Z.leb_spec 0 i); [|lia]. destruct (Z.ltb_spec i (MB c)); [|lia]. reflexivity.
Qed.

Lemma ltb_true : forall a b, a < b -> (a <? b) = true.
Proof. intros; apply Z.ltb_lt; auto. Qed.
Lemma leb_true : forall a b, a <= b -> (a <=? b) = true.
Proof. intros; apply Z.leb_le; auto. Qed.
Lemma eqb_false : forall a b, a <> b -> (a =? b) = false.
Proof. intros; apply Z.eqb_neq; auto. Qed.
Lemma ltb_false : forall a b, b <= a -> (a <? b) = false.
Proof. intros; apply Z.ltb_ge; auto. Qed.
Lemma leb_false : forall a b, b < a -> (a <=? b) = false.
Proof. intros; apply Z.leb_gt; auto. Qed.

Section Index.
  Variables (c : cfg) (s : state) (i : Z).
  Hypothesis Hbc : bc s <= MB c.
  Hypothesis Hi : 0 <= i < bc s.

  Lemma at_ok : forall A (k : res A), at_ c s i k = k.
  Proof. intros. unfold at_. rewrite ltb_true by lia. rewrite cassert_true. apply in_array_ok. lia. Qed.
  Lemma next_index_ok : next_index c s i = Ok (nxt s i).
  Proof. apply at_ok. Qed.
  Lemma prev_index_ok : prev_index c s i = Ok (prv s i).
  Proof. apply at_ok. Qed.
  Lemma in_use_ok : in_use c s i = Ok (inuse s i).
  Proof. unfold in_use. rewrite ltb_true by lia. rewrite cassert_true. apply in_array_ok. lia. Qed.
  Lemma set_in_use_ok : set_in_use c s i = Ok (with_inuse s (upd (inuse s) i true)).
  Proof. unfold set_in_use. rewrite ltb_true by lia. rewrite cassert_true. apply in_array_ok. lia. Qed.
  Lemma reset_in_use_ok : reset_in_use c s i = Ok (with_inuse s (upd (inuse s) i false)).
  Proof. unfold reset_in_use. rewrite ltb_true by lia. rewrite cassert_true. apply in_array_ok. lia. Qed.
  Lemma set_prev_write : forall p, p < i \/ p = 0 ->
    set_prev c s i p = Ok (with_prv s (upd (prv s) i p)).
  Proof.
    intros p Hp. unfold set_prev. rewrite ltb_true by lia. rewrite cassert_true, at_ok.
    destruct (Z.ltb_spec p i); destruct (Z.eqb_spec p 0); try lia; reflexivity.
  Qed.
  Lemma set_prev_skip : forall p, i <= p -> p <> 0 -> set_prev c s i p = Ok s.
  Proof.
    intros p Hp N. unfold set_prev. rewrite ltb_true by lia. rewrite cassert_true.
    rewrite ltb_false, eqb_false by lia. reflexivity.
  Qed.
  Lemma set_next_write : forall n, 0 <= n < bc s -> i < n \/ n = 0 ->
    set_next c s i n = Ok (with_nxt s (upd (nxt s) i n)).
  Proof.
    intros n Hn Hp. unfold set_next. rewrite ltb_true by lia. rewrite cassert_true, at_ok.
    destruct (Z.ltb_spec i n); destruct (Z.eqb_spec n 0); try lia; reflexivity.
  Qed.
  Lemma set_prev_next_write : forall p n, 0 <= n < bc s -> p < i \/ p = 0 -> i < n \/ n = 0 ->
    set_prev_next c s i p n = Ok (with_nxt (with_prv s (upd (prv s) i p)) (upd (nxt s) i n)).
  Proof.
    intros p n Hn Hp Hn'. unfold set_prev_next. rewrite !ltb_true by lia. rewrite !cassert_true, at_ok.
    destruct (Z.ltb_spec p i); destruct (Z.eqb_spec p 0); try lia;
      destruct (Z.ltb_spec i n); destruct (Z.eqb_spec n 0); try lia; reflexivity.
  Qed.
End Index.

Lemma upd_same : forall A (f : Z -> A) i v, upd f i v i = v.
Proof. intros. unfold upd. rewrite Z.eqb_refl. reflexivity. Qed.
Lemma upd_other : forall A (f : Z -> A) i v j, j <> i -> upd f i v j = f j.
Proof. intros. unfold upd. rewrite eqb_false by auto. reflexivity. Qed.

(** * Segments of the region list *)

Definition link (n x : Z) : Z := if x =? n then 0 else x.

Lemma link_bounds : forall n x, 0 < x <= n -> 0 <= link n x < n.
Proof. intros n x H. unfold link. destruct (Z.eqb_spec x n); lia. Qed.
Lemma link_zero : forall n x, 0 < x <= n -> (link n x = 0 <-> x = n).
Proof. intros n x H. unfold link. destruct (Z.eqb_spec x n); lia. Qed.

(** regions from block [a] (previous region [p]) up to block [b]; [q] is the start
    of the last of them *)
Fixpoint seg (next prev : Z -> Z) (used : Z -> bool) (n p a : Z) (rs : list region) (q b : Z) : Prop :=
  match rs with
  | [] => p = q /\ a = b
  | r :: rs' =>
    rstart r = a /\ 0 < rlen r /\ a + rlen r <= n /\
    prev a = p /\ next a = link n (a + rlen r) /\ used a = rbusy r /\
    seg next prev used n a (a + rlen r) rs' q b
  end.

Lemma tiles_app : forall next prev used n l p a t,
  tiles next prev used n p a (l ++ t) <->
  exists q b, seg next prev used n p a l q b /\ tiles next prev used n q b t.
Proof.
  intros next prev used n; induction l as [|r l IH]; intros p a t; cbn [app tiles seg].
  - split; [intros H; exists p, a; auto|]. intros [q [b [[-> ->] H]]]; auto.
  - split.
    + intros [H1 [H2 [H3 [H4 [H5 [H6 H7]]]]]]. apply IH in H7. destruct H7 as [q [b [H7 H8]]].
      exists q, b. repeat split; auto.
    + intros [q [b [[H1 [H2 [H3 [H4 [H5 [H6 H7]]]]]] H8]]]. repeat split; auto.
      apply IH. exists q, b; auto.
Qed.

Lemma seg_app : forall next prev used n l p a t q b,
  seg next prev used n p a (l ++ t) q b <->
  exists q' b', seg next prev used n p a l q' b' /\ seg next prev used n q' b' t q b.
Proof.
  intros next prev used n; induction l as [|r l IH]; intros p a t q b; cbn [app seg].
  - split; [intros H; exists p, a; auto|]. intros [q' [b' [[-> ->] H]]]; auto.
  - split.
    + intros [H1 [H2 [H3 [H4 [H5 [H6 H7]]]]]]. apply IH in H7. destruct H7 as [q' [b' [H7 H8]]].
      exists q', b'. repeat split; auto.
    + intros [q' [b' [[H1 [H2 [H3 [H4 [H5 [H6 H7]]]]]] H8]]]. repeat split; auto.
      apply IH. exists q', b'; auto.
Qed.

Lemma seg_bounds : forall next prev used n rs p a q b,
  seg next prev used n p a rs q b ->
  a <= b /\ (rs <> [] -> a <= q < b /\ b <= n) /\
  forall r, In r rs -> a <= rstart r /\ 0 < rlen r /\ rstart r + rlen r <= b /\ rstart r <= q.
Proof.
  intros next prev used n; induction rs as [|r rs IH]; intros p a q b H; cbn [seg] in H.
  - destruct H as [-> ->]. split; [lia|]. split; [congruence|]. intros r [].
  - destruct H as [H1 [H2 [H3 [H4 [H5 [H6 H7]]]]]]. destruct (IH _ _ _ _ H7) as [I1 [I2 I3]].
    assert (Q : a <= q < b /\ b <= n).
    { destruct rs as [|r' rs]; [destruct H7 as [-> <-]; lia|].
      destruct I2 as [I2 I2']; [discriminate|]. lia. }
    split; [lia|]. split; [intros _; auto|].
    intros r' [<-|Hr]; [lia|]. destruct (I3 r' Hr) as [J1 [J2 [J3 J4]]]. lia.
Qed.

Lemma tiles_bounds : forall next prev used n rs p a,
  tiles next prev used n p a rs ->
  a <= n /\ forall r, In r rs -> a <= rstart r /\ 0 < rlen r /\ rstart r + rlen r <= n.
Proof.
  intros next prev used n; induction rs as [|r rs IH]; intros p a H; cbn [tiles] in H.
  - subst. split; [lia|]. intros r [].
  - destruct H as [H1 [H2 [H3 [H4 [H5 [H6 H7]]]]]]. destruct (IH _ _ H7) as [I1 I2].
    split; [lia|]. intros r' [<-|Hr]; [lia|]. specialize (I2 r' Hr). lia.
Qed.

Lemma seg_ext : forall next prev used next' prev' used' n rs p a q b,
  (forall r, In r rs -> next' (rstart r) = next (rstart r) /\
     prev' (rstart r) = prev (rstart r) /\ used' (rstart r) = used (rstart r)) ->
  seg next prev used n p a rs q b -> seg next' prev' used' n p a rs q b.
Proof.
  intros next prev used next' prev' used' n; induction rs as [|r rs IH]; intros p a q b E H;
    cbn [seg] in *; auto.
  destruct H as [H1 [H2 [H3 [H4 [H5 [H6 H7]]]]]].
  destruct (E r (or_introl eq_refl)) as [E1 [E2 E3]]. subst a.
  repeat split; auto; try congruence. apply IH; auto. intros r' Hr; apply E; right; auto.
Qed.

Lemma tiles_ext : forall next prev used next' prev' used' n rs p a,
  (forall r, In r rs -> next' (rstart r) = next (rstart r) /\
     prev' (rstart r) = prev (rstart r) /\ used' (rstart r) = used (rstart r)) ->
  tiles next prev used n p a rs -> tiles next' prev' used' n p a rs.
Proof.
  intros next prev used next' prev' used' n; induction rs as [|r rs IH]; intros p a E H;
    cbn [tiles] in *; auto.
  destruct H as [H1 [H2 [H3 [H4 [H5 [H6 H7]]]]]].
  destruct (E r (or_introl eq_refl)) as [E1 [E2 E3]]. subst a.
  repeat split; auto; try congruence. apply IH; auto. intros r' Hr; apply E; right; auto.
Qed.

(** the tail after position [b]: only the previous link of its first region changes *)
Lemma tiles_new_prev : forall next prev used next' prev' used' n rs p p' b,
  (forall j, b <= j -> next' j = next j /\ used' j = used j) ->
  (forall j, b < j -> prev' j = prev j) -> (b < n -> prev' b = p') ->
  tiles next prev used n p b rs -> tiles next' prev' used' n p' b rs.
Proof.
  intros next prev used next' prev' used' n rs p p' b E1 E2 E3 H.
  destruct rs as [|r rs]; cbn [tiles] in *; auto.
  destruct H as [H1 [H2 [H3 [H4 [H5 [H6 H7]]]]]].
  destruct (E1 b ltac:(lia)) as [E4 E5].
  repeat split; auto; try congruence; [apply E3; lia|].
  eapply tiles_ext; [|exact H7]. intros r' Hr.
  destruct (tiles_bounds _ _ _ _ _ _ _ H7) as [_ B]. specialize (B r' Hr).
  destruct (E1 (rstart r') ltac:(lia)). split; auto. split; auto. apply E2. lia.
Qed.

Lemma regions_unique : forall next prev used n rs rs' p p' a,
  tiles next prev used n p a rs -> tiles next prev used n p' a rs' ->
  0 <= a -> rs = rs'.
Proof.
  intros next prev used n; induction rs as [|r rs IH]; intros rs' p p' a H H' Ha.
  - cbn in H. subst. destruct rs' as [|r' rs']; auto. cbn in H'. lia.
  - destruct rs' as [|r' rs']; [cbn in H, H'; lia|]. cbn [tiles] in *.
    destruct H as [H1 [H2 [H3 [H4 [H5 [H6 H7]]]]]].
    destruct H' as [K1 [K2 [K3 [K4 [K5 [K6 K7]]]]]].
    assert (L : rlen r = rlen r').
    { assert (E : link n (a + rlen r) = link n (a + rlen r')) by (unfold link; congruence).
      unfold link in E. destruct (Z.eqb_spec (a + rlen r) n), (Z.eqb_spec (a + rlen r') n); lia. }
    rewrite L in H7. f_equal.
    + destruct r, r'; cbn in *. congruence.
    + eapply IH; eauto. lia.
Qed.

(** the busy regions of a coalesced tiling determine the tiling *)
Lemma coalesced_tail : forall r rs, coalesced (r :: rs) -> coalesced rs.
Proof. intros r rs H l r1 r2 t E. apply (H (r :: l) r1 r2 t). rewrite E. reflexivity. Qed.

Lemma coalesced_head : forall r1 r2 rs, coalesced (r1 :: r2 :: rs) -> rbusy r1 = true \/ rbusy r2 = true.
Proof. intros r1 r2 rs H. apply (H [] r1 r2 rs). reflexivity. Qed.

Lemma coalesced_nil : coalesced [].
Proof. intros [|x l] r1 r2 t E; discriminate. Qed.

Lemma coalesced_cons : forall r rs, coalesced rs ->
  (forall r2 t, rs = r2 :: t -> rbusy r = true \/ rbusy r2 = true) -> coalesced (r :: rs).
Proof.
  intros r rs H H2 [|x l] r1 r2 t E; injection E; intros; subst; eauto.
Qed.

Lemma coalesced_app_inv : forall l t, coalesced (l ++ t) -> coalesced l /\ coalesced t.
Proof.
  intros l t H. split.
  - intros l0 r1 r2 t0 E. apply (H l0 r1 r2 (t0 ++ t)). rewrite E, <- !app_assoc. reflexivity.
  - intros l0 r1 r2 t0 E. apply (H (l ++ l0) r1 r2 t0). rewrite E, <- app_assoc. reflexivity.
Qed.

Lemma coalesced_single : forall r, coalesced [r].
Proof. intros r. apply coalesced_cons; [apply coalesced_nil|]. intros; discriminate. Qed.

(** joining two coalesced lists around a boundary *)
Lemma coalesced_app : forall l t, coalesced l -> coalesced t ->
  (forall l' r1 r2 t', l = l' ++ [r1] -> t = r2 :: t' -> rbusy r1 = true \/ rbusy r2 = true) ->
  coalesced (l ++ t).
Proof.
  induction l as [|r l IH]; intros t Hl Ht B; auto.
  cbn [app]. apply coalesced_cons.
  - apply IH; auto; [apply coalesced_tail with r; auto|].
    intros l' r1 r2 t' E1 E2. apply (B (r :: l') r1 r2 t'); auto. rewrite E1. reflexivity.
  - intros r2 t0 E. destruct l as [|r' l].
    + cbn in E. apply (B [] r r2 t0); auto.
    + injection E; intros; subst. apply coalesced_head with l; auto.
Qed.

Lemma tiles_contiguous : forall next prev used n rs p a,
  tiles next prev used n p a rs -> contiguous n a rs.
Proof.
  intros next prev used n; induction rs as [|r rs IH]; intros p a H; cbn [tiles contiguous] in *; auto.
  destruct H as [H1 [H2 [H3 [H4 [H5 [H6 H7]]]]]]. split; auto. split; auto. eapply IH; eauto.
Qed.

Lemma contiguous_bounds : forall n rs a, contiguous n a rs ->
  a <= n /\ forall r, In r rs -> a <= rstart r /\ 0 < rlen r /\ rstart r + rlen r <= n.
Proof.
  intros n; induction rs as [|r rs IH]; intros a H; cbn in H.
  - subst. split; [lia|]. intros r [].
  - destruct H as [H1 [H2 H3]]. destruct (IH _ H3) as [I1 I2]. split; [lia|].
    intros r' [<-|Hr]; [lia|]. specialize (I2 r' Hr). lia.
Qed.

Lemma busy_determines : forall n rs rs' a, contiguous n a rs -> contiguous n a rs' ->
  coalesced rs -> coalesced rs' -> busy rs = busy rs' -> rs = rs'.
Proof.
  intros n.
  assert (K : forall rs rs' a r r', contiguous n a (r :: rs) -> contiguous n a (r' :: rs') ->
    coalesced (r :: rs) -> coalesced (r' :: rs') -> busy (r :: rs) = busy (r' :: rs') ->
    rbusy r = false -> rbusy r' = true -> False).
  { intros rs rs' a r r' C C' _ _ E B B'. unfold busy in E. cbn [filter] in E.
    rewrite B, B' in E. cbn in C, C'. destruct C as [C1 [C2 C3]]. destruct C' as [D1 [D2 D3]].
    assert (I : In r' (filter rbusy rs)) by (rewrite E; left; auto).
    apply filter_In in I. destruct I as [I _]. destruct (contiguous_bounds _ _ _ C3) as [_ F].
    specialize (F r' I). lia. }
  assert (L : forall rs rs' a r r', contiguous n a (r :: rs) -> contiguous n a (r' :: rs') ->
    coalesced (r :: rs) -> coalesced (r' :: rs') -> busy (r :: rs) = busy (r' :: rs') ->
    rbusy r = false -> rbusy r' = false -> rlen r = rlen r').
  { intros rs rs' a r r' C C' K1 K2 E B B'. unfold busy in E. cbn [filter] in E. rewrite B, B' in E.
    cbn in C, C'. destruct C as [C1 [C2 C3]]. destruct C' as [D1 [D2 D3]].
    assert (G : forall rs r a, rbusy r = false -> coalesced (r :: rs) -> contiguous n a rs ->
      match filter rbusy rs with [] => a = n | x :: _ => rstart x = a end).
    { clear. intros [|y rs] r a B K C; cbn in *; auto.
      destruct (coalesced_head _ _ _ K) as [X|X]; [congruence|]. rewrite X. tauto. }
    assert (G1 := G _ _ _ B K1 C3). assert (G2 := G _ _ _ B' K2 D3). rewrite E in G1.
    destruct (filter rbusy rs'); lia. }
  induction rs as [|r rs IH]; intros rs' a C C' K1 K2 E.
  - destruct rs' as [|r' rs']; auto. cbn in C, C'. destruct C' as [D1 [D2 D3]].
    destruct (contiguous_bounds _ _ _ D3). lia.
  - destruct rs' as [|r' rs'].
    { cbn in C, C'. destruct C as [D1 [D2 D3]]. destruct (contiguous_bounds _ _ _ D3). lia. }
    destruct (rbusy r) eqn:B; destruct (rbusy r') eqn:B'.
    + unfold busy in E. cbn [filter] in E. rewrite B, B' in E. injection E; intros E1 E2. subst r'.
      f_equal. cbn in C, C'. apply (IH rs' (a + rlen r)); try tauto;
        eapply coalesced_tail; eauto.
    + exfalso. eapply (K rs' rs a r' r); eauto.
    + exfalso. eapply (K rs rs' a r r'); eauto.
    + assert (EL := L rs rs' a r r' C C' K1 K2 E B B').
      cbn in C, C'. assert (r = r') by (destruct r, r'; cbn in *; f_equal; intuition congruence).
      subst r'. f_equal. unfold busy in E. cbn [filter] in E. rewrite B in E.
      apply (IH rs' (a + rlen r)); try tauto; eapply coalesced_tail; eauto.
Qed.

(** * Merging *)

Lemma merge_both_free : forall c s l x y t, geometry c s ->
  regions_of s (l ++ x :: y :: t) -> rbusy x = false -> rbusy y = false -> 0 < freec s < 2 ^ 64 ->
  exists s', merge_if_both_not_in_use c s (rstart x) (rstart y) = Ok (s', rstart x) /\
    regions_of s' (l ++ Reg (rstart x) (rlen x + rlen y) false :: t) /\
    data s' = data s /\ bc s' = bc s /\ has_up s' = has_up s /\ inuse s' = inuse s /\
    freec s' = freec s - 1 /\ busyc s' = busyc s /\
    (forall j, j <> rstart x -> nxt s' j = nxt s j).
Proof.
  intros c s l x y t G T Bx By F. unfold regions_of in T.
  apply tiles_app in T. destruct T as [q [b [S T]]]. cbn [tiles] in T.
  destruct T as [X1 [X2 [X3 [X4 [X5 [X6 [Y1 [Y2 [Y3 [Y4 [Y5 [Y6 T]]]]]]]]]]]].
  set (lx := rstart x) in *. set (ry := rstart y) in *. subst b.
  assert (BB := g_bc _ _ G).
  destruct (seg_bounds _ _ _ _ _ _ _ _ _ S) as [S1 [S2 S3]].
  unfold merge_if_both_not_in_use.
  rewrite (eqb_false lx ry) by lia. rewrite (eqb_false ry 0) by lia. cbn [orb].
  rewrite (ltb_true lx ry) by lia. rewrite cassert_true.
  rewrite in_use_ok by lia. cbn [bind]. rewrite X6, Bx.
  rewrite andb_false_r. cbn [bind negb orb]. rewrite cassert_true.
  rewrite in_use_ok by lia. cbn [bind]. replace (inuse s ry) with false by congruence.
  rewrite ltb_true by lia. rewrite cassert_true. rewrite next_index_ok by lia. cbn [bind].
  assert (NR : nxt s ry = link (bc s) (ry + rlen y)) by (rewrite <- Y1 in Y5; exact Y5).
  assert (LB : 0 <= nxt s ry < bc s) by (rewrite NR; apply link_bounds; lia).
  (* set_prev *)
  assert (P : exists s1, set_prev c s (nxt s ry) lx = Ok s1 /\
     data s1 = data s /\ bc s1 = bc s /\ has_up s1 = has_up s /\ inuse s1 = inuse s /\
     freec s1 = freec s /\ busyc s1 = busyc s /\ nxt s1 = nxt s /\
     (forall j, j <> ry + rlen y -> j <> 0 -> prv s1 j = prv s j) /\ (prv s1 0 = prv s 0 \/ lx = 0 /\ prv s1 0 = 0) /\
     (ry + rlen y < bc s -> prv s1 (ry + rlen y) = lx)).
  { destruct (Z.eq_dec (ry + rlen y) (bc s)) as [E|E].
    - assert (N0 : nxt s ry = 0) by (rewrite NR; unfold link; rewrite E, Z.eqb_refl; auto).
      rewrite N0. destruct (Z.eq_dec lx 0) as [E0|E0].
      + rewrite set_prev_write by lia. eexists; split; [reflexivity|]. cbn.
        repeat split; auto; try lia.
        intros j J1 J2. apply upd_other. lia.
      + rewrite set_prev_skip by lia. exists s. repeat split; auto; lia.
    - assert (N0 : nxt s ry = ry + rlen y) by (rewrite NR; unfold link; rewrite eqb_false by lia; auto).
      rewrite N0. rewrite set_prev_write by lia. eexists; split; [reflexivity|]. cbn.
      repeat split; auto; try lia.
      + intros j J1 J2. apply upd_other. lia.
      + left. apply upd_other. lia.
      + intros _. apply upd_same. }
  destruct P as [s1 [E1 [P1 [P2 [P3 [P4 [P5 [P6 [P7 [P8 [P9 P10]]]]]]]]]]].
  rewrite E1. cbn [bind]. rewrite next_index_ok by lia. cbn [bind]. rewrite P7.
  assert (NZ : lx < nxt s ry \/ nxt s ry = 0).
  { rewrite NR. unfold link. destruct (Z.eqb_spec (ry + rlen y) (bc s)); lia. }
  rewrite set_next_write by lia. cbn [bind]. eexists. split; [reflexivity|].
  assert (DF : dec (freec s) = freec s - 1) by (unfold dec; apply wrap_id; lia).
  cbn [data bc has_up inuse freec busyc nxt prv with_freec with_nxt].
  rewrite P1, P2, P3, P4, P5, P6, P7.
  split; [|repeat split; auto; intros j J; apply upd_other; auto].
  unfold regions_of. cbn [data bc has_up inuse freec busyc nxt prv with_freec with_nxt].
  rewrite P2, P4.
  apply tiles_app. exists q, lx. split.
  - eapply seg_ext; [|exact S]. intros r Hr. destruct (S3 r Hr) as [B1 [B2 [B3 B4]]].
    split; [apply upd_other; lia|]. split; auto.
    destruct (Z.eq_dec (rstart r) 0) as [Z0|Z0].
    + rewrite Z0. destruct P9 as [P9|[P9 P9']]; [auto|lia].
    + apply P8; lia.
  - cbn [tiles rstart rlen rbusy]. rewrite upd_same.
    split; [reflexivity|]. split; [lia|]. split; [lia|]. split.
    { destruct (Z.eq_dec lx 0) as [E0|E0].
      - rewrite E0. rewrite E0 in X4. destruct P9 as [P9|[_ P9]]; [congruence|].
        rewrite P9. destruct l as [|r0 l]; [destruct S as [S _]; auto|].
        destruct (S2 ltac:(discriminate)); lia.
      - rewrite P8 by lia. auto. }
    split.
    { rewrite NR. unfold link. replace (ry + rlen y) with (lx + (rlen x + rlen y)) by lia. reflexivity. }
    split; [congruence|].
    replace (lx + (rlen x + rlen y)) with (lx + rlen x + rlen y) by lia.
    eapply tiles_new_prev; [| | |exact T].
    + intros j J. split; auto. apply upd_other. lia.
    + intros j J. apply P8; lia.
    + intros J. replace (lx + rlen x + rlen y) with (ry + rlen y) by lia. apply P10. lia.
Qed.

Lemma merge_left_busy : forall c s l x y t, geometry c s ->
  regions_of s (l ++ x :: y :: t) -> rbusy x = true -> rbusy y = false ->
  merge_if_both_not_in_use c s (rstart x) (rstart y) = Ok (s, rstart y).
Proof.
  intros c s l x y t G T Bx By. unfold regions_of in T.
  apply tiles_app in T. destruct T as [q [b [S T]]]. cbn [tiles] in T.
  destruct T as [X1 [X2 [X3 [X4 [X5 [X6 [Y1 [Y2 [Y3 [Y4 [Y5 [Y6 T]]]]]]]]]]]]. subst b.
  assert (BB := g_bc _ _ G).
  destruct (seg_bounds _ _ _ _ _ _ _ _ _ S) as [S1 _].
  unfold merge_if_both_not_in_use.
  rewrite (eqb_false (rstart x)), (eqb_false (rstart y) 0) by lia. cbn [orb].
  rewrite (ltb_true (rstart x)) by lia. rewrite cassert_true.
  rewrite in_use_ok by lia. cbn [bind]. rewrite X6, Bx, andb_true_r.
  rewrite <- Y1 in Y6. destruct (DBG c) eqn:D; cbn [bind negb orb cassert]; auto.
  rewrite in_use_ok by lia. cbn [bind]. rewrite Y6, By. reflexivity.
Qed.

Lemma merge_right_busy : forall c s l x y t, geometry c s ->
  regions_of s (l ++ x :: y :: t) -> rbusy x = false -> rbusy y = true ->
  merge_if_both_not_in_use c s (rstart x) (rstart y) = Ok (s, rstart x).
Proof.
  intros c s l x y t G T Bx By. unfold regions_of in T.
  apply tiles_app in T. destruct T as [q [b [S T]]]. cbn [tiles] in T.
  destruct T as [X1 [X2 [X3 [X4 [X5 [X6 [Y1 [Y2 [Y3 [Y4 [Y5 [Y6 T]]]]]]]]]]]]. subst b.
  assert (BB := g_bc _ _ G).
  destruct (seg_bounds _ _ _ _ _ _ _ _ _ S) as [S1 _].
  unfold merge_if_both_not_in_use.
  rewrite (eqb_false (rstart x)), (eqb_false (rstart y) 0) by lia. cbn [orb].
  rewrite (ltb_true (rstart x)) by lia. rewrite cassert_true.
  rewrite in_use_ok by lia. cbn [bind]. rewrite X6, Bx, andb_false_r.
  cbn [bind negb orb]. rewrite cassert_true, in_use_ok by lia. cbn [bind].
  rewrite <- Y1 in Y6. rewrite Y6, By. reflexivity.
Qed.

(** * Deallocation *)

Lemma free_app : forall l t, free (l ++ t) = free l ++ free t.
Proof. intros. apply filter_app. Qed.
Lemma busy_app : forall l t, busy (l ++ t) = busy l ++ busy t.
Proof. intros. apply filter_app. Qed.
Lemma free_cons_free : forall r t, rbusy r = false -> free (r :: t) = r :: free t.
Proof. intros r t H. unfold free. cbn [filter]. rewrite H. reflexivity. Qed.
Lemma free_cons_busy : forall r t, rbusy r = true -> free (r :: t) = free t.
Proof. intros r t H. unfold free. cbn [filter]. rewrite H. reflexivity. Qed.
Lemma busy_cons_busy : forall r t, rbusy r = true -> busy (r :: t) = r :: busy t.
Proof. intros r t H. unfold busy. cbn [filter]. rewrite H. reflexivity. Qed.
Lemma busy_cons_free : forall r t, rbusy r = false -> busy (r :: t) = busy t.
Proof. intros r t H. unfold busy. cbn [filter]. rewrite H. reflexivity. Qed.

Lemma regions_count : forall next prev used n rs p a, tiles next prev used n p a rs ->
  Z.of_nat (length rs) <= n - a.
Proof.
  intros next prev used n; induction rs as [|r rs IH]; intros p a H; cbn [tiles length] in *.
  - lia.
  - destruct H as [H1 [H2 [H3 [H4 [H5 [H6 H7]]]]]]. apply IH in H7. lia.
Qed.

Lemma filter_length_le : forall A (f : A -> bool) l, (length (filter f l) <= length l)%nat.
Proof. intros A f; induction l as [|x l IH]; cbn; auto. destruct (f x); cbn; lia. Qed.

Lemma wf_counts : forall c s rs, cfg_ok c -> wf c s rs ->
  0 <= freec s <= bc s /\ 0 <= busyc s <= bc s /\ freec s + busyc s = Z.of_nat (length rs) /\
  Z.of_nat (length rs) <= bc s /\ bc s < 2 ^ 64.
Proof.
  intros c s rs HC W. assert (R := regions_count _ _ _ _ _ _ _ (wf_tiles _ _ _ W)).
  assert (M := mb_range _ HC). assert (B := g_bc _ _ (wf_geom _ _ _ W)).
  rewrite (wf_free _ _ _ W), (wf_busy _ _ _ W).
  assert (L1 := filter_length_le _ (fun r => negb (rbusy r)) rs).
  assert (L2 := filter_length_le _ rbusy rs).
  assert (L : (length (free rs) + length (busy rs) = length rs)%nat).
  { clear. induction rs as [|r rs IH]; auto. unfold free, busy in *. cbn [filter].
    destruct (rbusy r); cbn [negb length]; lia. }
  unfold free, busy in *. lia.
Qed.

(** starts of regions are distinct, and an index belongs to one region *)
Lemma seg_starts_lt : forall next prev used n rs p a q b r, seg next prev used n p a rs q b ->
  In r rs -> rstart r < b.
Proof. intros. destruct (seg_bounds _ _ _ _ _ _ _ _ _ H) as [_ [_ B]]. specialize (B r H0). lia. Qed.

Lemma split_at_start : forall next prev used n rs p a i, tiles next prev used n p a rs ->
  In i (map rstart rs) -> exists l r t, rs = l ++ r :: t /\ rstart r = i.
Proof.
  intros. apply in_map_iff in H0. destruct H0 as [r [E I]]. apply in_split in I.
  destruct I as [l [t ->]]. exists l, r, t. auto.
Qed.

Lemma tiles_set_used : forall next prev used n p a l r t b v,
  tiles next prev used n p a (l ++ r :: t) -> b = rstart r ->
  tiles next prev (upd used b v) n p a (l ++ Reg (rstart r) (rlen r) v :: t).
Proof.
  intros next prev used n p a l r t b v T ->. apply tiles_app in T. destruct T as [q [b [S T]]].
  destruct (seg_bounds _ _ _ _ _ _ _ _ _ S) as [S1 [S2 S3]]. cbn [tiles] in T.
  destruct T as [X1 [X2 [X3 [X4 [X5 [X6 T]]]]]].
  apply tiles_app. exists q, b. split.
  - eapply seg_ext; [|exact S]. intros r' Hr. split; auto. split; auto.
    apply upd_other. specialize (S3 r' Hr). lia.
  - cbn [tiles rstart rlen rbusy]. subst b. rewrite upd_same. repeat split; auto.
    destruct (tiles_bounds _ _ _ _ _ _ _ T) as [_ B].
    eapply tiles_ext; [|exact T]. intros r' Hr. split; auto. split; auto.
    apply upd_other. specialize (B r' Hr). lia.
Qed.

(** the shape of the list after the region [i] was freed *)
Definition freed (l : list region) (r : region) (t : list region) (a n : Z) (l' t' : list region) : Prop :=
  ((l' = l /\ a = rstart r /\ (l = [] \/ exists k x, l = k ++ [x] /\ rbusy x = true)) \/
   (exists x, l = l' ++ [x] /\ rbusy x = false /\ a = rstart x)) /\
  ((t' = t /\ a + n = rstart r + rlen r /\ (t = [] \/ exists y k, t = y :: k /\ rbusy y = true)) \/
   (exists y, t = y :: t' /\ rbusy y = false /\ a + n = rstart y + rlen y)).

Lemma deallocate_blocks_ok : forall c s l r t, cfg_ok c ->
  wf c s (l ++ r :: t) -> rbusy r = true ->
  exists s' a n l' t', deallocate_blocks c s (rstart r) = Ok (s', a) /\
    wf c s' (l' ++ Reg a n false :: t') /\ freed l r t a n l' t' /\
    data s' = data s /\ bc s' = bc s /\ has_up s' = has_up s /\
    inuse s' = upd (inuse s) (rstart r) false /\
    (forall j, j <> a -> nxt s' j = nxt s j).
Proof.
  intros c s l r t HC W Br.
  assert (CN := wf_counts _ _ _ HC W). destruct W as [G T K Hd Hf Hb].
  assert (BB := g_bc _ _ G). assert (M := mb_range _ HC).
  set (i := rstart r) in *.
  assert (T' := T). unfold regions_of in T'. apply tiles_app in T'. destruct T' as [q [b [S T']]].
  cbn [tiles] in T'. destruct T' as [X1 [X2 [X3 [X4 [X5 [X6 TT]]]]]]. fold i in X1. subst b.
  destruct (seg_bounds _ _ _ _ _ _ _ _ _ S) as [S1 [S2 S3]].
  assert (Hi : 0 <= i < bc s) by lia.
  unfold deallocate_blocks. rewrite ltb_true by lia. rewrite cassert_true, in_use_ok by lia.
  cbn [bind]. rewrite X6, Br. cbn [negb abort_when]. rewrite reset_in_use_ok by lia. cbn [bind].
  cbn [busyc freec with_inuse with_busyc].
  assert (NB : (1 <= length (busy (l ++ r :: t)))%nat).
  { rewrite busy_app, busy_cons_busy, app_length by auto. cbn. lia. }
  rewrite (ltb_true 0 (busyc s)) by lia. rewrite cassert_true.
  rewrite (ltb_true (freec s)) by lia. rewrite cassert_true.
  set (s0 := with_freec _ _).
  assert (R0 : regions_of s0 (l ++ Reg i (rlen r) false :: t)).
  { unfold s0, regions_of. cbn [nxt prv inuse bc with_freec with_busyc with_inuse].
    apply tiles_set_used; auto. }
  assert (F0 : freec s0 = Z.of_nat (length (free l)) + 1 + Z.of_nat (length (free t))).
  { unfold s0. cbn [freec with_freec]. unfold inc. rewrite wrap_id by lia. rewrite Hf.
    rewrite free_app, free_cons_busy, app_length by auto. lia. }
  assert (B0 : busyc s0 = Z.of_nat (length (busy l)) + Z.of_nat (length (busy t))).
  { unfold s0. cbn [busyc with_freec with_busyc]. unfold dec. rewrite wrap_id by lia. rewrite Hb.
    rewrite busy_app, busy_cons_busy, app_length by auto. cbn [length]. lia. }
  assert (D0 : data s0 = data s /\ bc s0 = bc s /\ has_up s0 = has_up s /\
    inuse s0 = upd (inuse s) i false /\ nxt s0 = nxt s /\ prv s0 = prv s) by (repeat split).
  clearbody s0. destruct D0 as [D1 [D2 [D3 [D4 [D5 D6]]]]].
  assert (G0 : geometry c s0) by (destruct G; constructor; rewrite ?D1, ?D2; auto).
  assert (LE : Z.of_nat (length (free l)) + Z.of_nat (length (free t)) + 1 < 2 ^ 64).
  { rewrite free_app, free_cons_busy, app_length in Hf by auto.
    assert (freec s + busyc s <= bc s) by lia. lia. }
  (* enter merge_adjacent_blocks *)
  unfold merge_adjacent_blocks. rewrite prev_index_ok by lia. cbn [bind].
  assert (U : (if DBG c then in_use c s0 i else Ok false) = Ok false).
  { destruct (DBG c); auto. rewrite in_use_ok by lia. rewrite D4, upd_same. reflexivity. }
  rewrite U. cbn [bind negb]. rewrite cassert_true. rewrite D6, X4.
  destruct (coalesced_app_inv _ _ K) as [Kl Krt].
  assert (Kt := coalesced_tail _ _ Krt).
  (* first merge: with the region before *)
  assert (M1 : exists s1 a l' n1, merge_if_both_not_in_use c s0 q i = Ok (s1, a) /\
    regions_of s1 (l' ++ Reg a n1 false :: t) /\ a + n1 = i + rlen r /\
    ((l' = l /\ a = i /\ (l = [] \/ exists k x, l = k ++ [x] /\ rbusy x = true)) \/
     (exists x, l = l' ++ [x] /\ rbusy x = false /\ a = rstart x)) /\
    data s1 = data s /\ bc s1 = bc s /\ has_up s1 = has_up s /\ inuse s1 = inuse s0 /\
    freec s1 = Z.of_nat (length (free l')) + 1 + Z.of_nat (length (free t)) /\
    busyc s1 = busyc s0 /\ busy l' = busy l /\ coalesced l' /\
    (forall k x, l' = k ++ [x] -> rbusy x = true) /\
    (forall j, j <> a -> nxt s1 j = nxt s j)).
  { destruct l as [|l0 ll].
    - destruct S as [<- <-]. exists s0, 0, [], (rlen r).
      unfold merge_if_both_not_in_use. cbn [Z.eqb orb].
      split; [reflexivity|]. split; auto. split; [lia|]. split; [left; auto|].
      repeat (split; auto); try congruence; try (intros k x E; destruct k; discriminate).
    - destruct (exists_last (l := l0 :: ll) ltac:(discriminate)) as [l' [x E]].
      rewrite E in *. clear E l0 ll.
      assert (Q : rstart x = q).
      { apply seg_app in S. destruct S as [q' [b' [_ S]]]. cbn [seg] in S. intuition congruence. }
      rewrite <- app_assoc in R0. cbn [app] in R0.
      destruct (rbusy x) eqn:Bx.
      + exists s0, i, (l' ++ [x]), (rlen r).
        assert (E := merge_left_busy c s0 l' x (Reg i (rlen r) false) t G0 R0 Bx eq_refl).
        cbn [rstart] in E. rewrite Q in E. split; [exact E|].
        rewrite <- app_assoc. cbn [app]. split; auto. split; [lia|].
        split; [left; split; auto; split; auto; right; exists l', x; auto|].
        repeat (split; auto); try congruence.
        intros k y Ek. apply app_inj_tail in Ek. destruct Ek; subst; auto.
      + destruct (merge_both_free c s0 l' x (Reg i (rlen r) false) t G0 R0 Bx eq_refl)
          as [s1 [E [R1 [C1 [C2 [C3 [C4 [C5 [C6 C7]]]]]]]]].
        { rewrite F0, free_app, free_cons_free, app_length in * by auto. cbn [free filter length] in *. lia. }
        cbn [rstart rlen] in *. rewrite Q in E.
        exists s1, (rstart x), l', (rlen x + rlen r). rewrite Q at 1. split; [exact E|]. split; auto.
        assert (XE : rstart x + rlen x = i).
        { apply seg_app in S. destruct S as [q' [b' [_ S]]]. cbn [seg] in S. intuition lia. }
        split; [lia|]. split; [right; exists x; auto|].
        repeat (split; try congruence).
        * rewrite C5, F0, free_app, free_cons_free, app_length by auto. cbn [free filter length]. lia.
        * rewrite busy_app, busy_cons_free by auto. cbn [busy filter]. rewrite app_nil_r. auto.
        * apply coalesced_app_inv in Kl. tauto.
        * intros k y Ek. subst l'. rewrite <- app_assoc in Kl. cbn [app] in Kl.
          destruct (Kl k y x [] eq_refl) as [|]; congruence.
        * intros j J. rewrite C7 by auto. congruence. }
  destruct M1 as [s1 [a [l' [n1 [E1 [R1 [An [Sl [C1 [C2 [C3 [C4 [C5 [C6 [C7 [C8 [C9 C10]]]]]]]]]]]]]]]]].
  rewrite E1. cbn [bind]. rewrite next_index_ok by lia. cbn [bind].
  assert (G1 : geometry c s1) by (destruct G; constructor; rewrite ?C1, ?C2; auto).
  assert (R1' := R1). unfold regions_of in R1'. apply tiles_app in R1'. destruct R1' as [q1 [b1 [S' T1]]].
  cbn [tiles rstart rlen rbusy] in T1. destruct T1 as [Y1 [Y2 [Y3 [Y4 [Y5 [Y6 T1]]]]]]. subst b1.
  destruct (seg_bounds _ _ _ _ _ _ _ _ _ S') as [S1' _].
  rewrite C2 in *.
  assert (NI : nxt s1 i = link (bc s) (i + rlen r)).
  { destruct (Z.eq_dec i a) as [Ea|Ea].
    - rewrite Ea, Y5. unfold link. rewrite An. subst a. reflexivity.
    - rewrite C10 by auto. exact X5. }
  rewrite NI.
  (* second merge: with the region after *)
  assert (HEADS : forall j, inuse s1 j = true -> In j (map rstart (l ++ t)) /\ j <> i).
  { intros j Hj. rewrite C4, D4 in Hj. destruct (Z.eq_dec j i) as [->|N]; [rewrite upd_same in Hj; discriminate|].
    rewrite upd_other in Hj by auto. apply Hd in Hj. rewrite map_app in *. cbn [map] in Hj.
    split; auto. apply in_app_iff in Hj. apply in_app_iff. destruct Hj as [Hj|[Hj|Hj]]; auto. exfalso; apply N; symmetry; exact Hj. }
  assert (HL : forall j, inuse s1 j = true -> In j (map rstart (l' ++ t))).
  { intros j Hj. destruct (HEADS j Hj) as [Hj1 Hj2].
    destruct Sl as [[-> _]|[x [-> [Bx Ax]]]]; auto.
    rewrite <- app_assoc, map_app in Hj1. rewrite map_app. apply in_app_iff in Hj1. apply in_app_iff.
    destruct Hj1 as [Hj1|Hj1]; auto. cbn [app map] in Hj1. destruct Hj1 as [Hj1|Hj1]; auto.
    subst j. rewrite <- Ax in Hj. congruence. }
  destruct t as [|y t'].
  - cbn [tiles] in T1. assert (Z0 : link (bc s) (i + rlen r) = 0) by (apply link_zero; lia).
    rewrite Z0. unfold merge_if_both_not_in_use. rewrite (Z.eqb_refl 0), orb_true_r.
    exists s1, a, n1, l', []. split; [reflexivity|]. split.
    + constructor; auto.
      * apply coalesced_app; auto; [apply coalesced_single|].
        intros k x1 x2 t0 Ek Et. left. eapply C9; eauto.
      * intros j Hj. apply HL in Hj. rewrite app_nil_r in Hj. rewrite map_app. apply in_app_iff; auto.
      * rewrite C5, free_app, free_cons_free, app_length by auto. cbn [free filter length]. lia.
      * rewrite C6, B0, busy_app, busy_cons_free, app_length, C7 by auto. lia.
    + split; [split; [exact Sl|left; split; [reflexivity|split; [exact An|left; reflexivity]]]|].
      repeat (split; auto). congruence.
  - destruct T1 as [Y7 T1].
    assert (NZ : link (bc s) (i + rlen r) = rstart y).
    { unfold link. rewrite eqb_false; lia. }
    rewrite NZ. destruct (rbusy y) eqn:By.
    + assert (E2 := merge_right_busy c s1 l' (Reg a n1 false) y t' G1 R1 eq_refl By).
      cbn [rstart] in E2. rewrite E2.
      exists s1, a, n1, l', (y :: t'). split; [reflexivity|]. split.
      * constructor; auto.
        -- apply coalesced_app; auto.
           ++ apply coalesced_cons; auto. intros r2 t0 Et. injection Et; intros; subst. auto.
           ++ intros k x1 x2 t0 Ek Et. left. eapply C9; eauto.
        -- intros j Hj. apply HL in Hj. rewrite map_app in *. apply in_app_iff in Hj. apply in_app_iff.
           destruct Hj; auto. right; right; auto.
        -- rewrite C5, free_app, (free_cons_free (Reg a n1 false)), app_length by auto. cbn [length]. lia.
        -- rewrite C6, B0, busy_app, (busy_cons_free (Reg a n1 false)), app_length, C7 by auto. lia.
      * split; [split; [exact Sl|left; split; [reflexivity|split; [exact An|right; exists y, t'; auto]]]|].
        repeat (split; auto). congruence.
    + assert (F1 : free (y :: t') = y :: free t') by (apply free_cons_free; auto).
      destruct (merge_both_free c s1 l' (Reg a n1 false) y t' G1 R1 eq_refl By)
        as [s2 [E2 [R2 [E3 [E4 [E5 [E6 [E7 [E8 E9]]]]]]]]].
      { rewrite C5. rewrite F1 in *. cbn [length] in *.
        assert (length (free l') <= length (free l))%nat.
        { destruct Sl as [[-> _]|[x [-> _]]]; auto. rewrite free_app, app_length. lia. }
        lia. }
      cbn [rstart rlen] in *. rewrite E2.
      exists s2, a, (n1 + rlen y), l', t'. split; [reflexivity|]. split.
      * constructor; auto.
        -- destruct G; constructor; rewrite ?E3, ?E4, ?C1, ?C2; auto.
        -- apply coalesced_app; auto.
           ++ apply coalesced_cons; [eapply coalesced_tail; eauto|].
              intros r2 t0 Et. subst t'. destruct (coalesced_head _ _ _ Kt); [congruence|auto].
           ++ intros k x1 x2 t0 Ek Et. left. eapply C9; eauto.
        -- intros j Hj. rewrite E6 in Hj. assert (Hj' := HL j Hj). rewrite map_app in *.
           apply in_app_iff in Hj'. apply in_app_iff. destruct Hj' as [Hj'|[Hj'|Hj']]; auto.
           ++ subst j. assert (inuse s1 (a + n1) = false) by tauto.
              replace (rstart y) with (a + n1) in Hj by lia. congruence.
           ++ right; right; auto.
        -- rewrite E7, C5, F1, free_app, (free_cons_free (Reg _ _ false)), app_length by auto. cbn [length]. lia.
        -- rewrite E8, C6, B0, busy_app, (busy_cons_free (Reg _ _ false)), app_length, C7 by auto.
           rewrite (busy_cons_free y) by auto. lia.
      * split.
        { split; auto. right. exists y. split; auto. split; auto. lia. }
        repeat (split; try congruence). intros j J. rewrite E9 by auto. apply C10; auto.
Qed.

