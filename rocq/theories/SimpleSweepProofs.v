(** Lemmas about simple_resource: exactly what release() does in debug builds after every
    history. *)

Require Import ZArith Lia List Bool.
Require Import Verif.Outcome Verif.Machine Verif.BitsModel Verif.BitsSpec Verif.BitsProofs.
Require Import Verif.ArithModel Verif.ArithProofs.
Require Import Verif.SimpleModel Verif.SimpleSpec Verif.SimpleView Verif.SimpleProofs Verif.SimpleAllocProofs.
Require Import Verif.SimpleScanProofs Verif.SimpleOpProofs Verif.SimpleHistProofs
  Verif.SimpleAnyProofs Verif.SimpleMainProofs Verif.SimpleWalkProofs Verif.SimpleFreeProofs Verif.SimpleSweepSpec.
Import ListNotations.
Open Scope Z_scope.
Open Scope res_scope.

(** * the order is determined *)

Lemma meets_unique : forall next used i r, meets next used i r -> forall r', meets next used i r' -> r' = r.
Proof.
  intros next used i r H. induction H as [i U|i U E|i r U E H IH]; intros r' H'; inversion H'; subst; try congruence.
  apply IH; auto.
Qed.

Lemma sweeps_unique : forall c s i js r, sweeps c s i js r -> forall js' r', sweeps c s i js' r' -> js' = js /\ r' = r.
Proof.
  intros c s i js r H. induction H as [s i M|s i j M E|s i j s2 M E N|s i j s2 js r M E N H IH]; intros js' r' H';
    inversion H' as [? ? M'|? ? j' M' E'|? ? j' s2' M' E' N'|? ? j' s2' js'' ? M' E' N' H'']; subst;
    pose proof (meets_unique _ _ _ _ M _ M') as Q; try discriminate Q; try (injection Q as ->); try congruence; auto;
    try (exfalso; congruence); try (split; congruence).
  assert (s2' = s2) by congruence. subst. destruct (IH _ _ H'') as [-> ->]. auto.
Qed.

Lemma meets_in : forall s, links_forward s -> forall i r, meets (nxt s) (inuse s) i r -> 0 <= i < bc s ->
  forall j, r = Some j -> i <= j < bc s /\ inuse s j = true.
Proof.
  intros s LF i r H. induction H as [i U|i U E|i r U E H IH]; intros I j J; try discriminate J.
  - injection J as <-. split; [lia|auto].
  - destruct (LF i) as [X|X]; [contradiction|]. destruct (IH ltac:(lia) j J). split; [lia|auto].
Qed.

Lemma sweeps_on : forall c s i js r, inuse s i = false -> nxt s i <> 0 -> sweeps c s (nxt s i) js r -> sweeps c s i js r.
Proof.
  intros c s i js r U N H. inversion H; subst.
  - apply sweeps_none. apply meets_later; auto.
  - apply sweeps_abort; auto. apply meets_later; auto.
  - eapply sweeps_last; eauto. apply meets_later; auto.
  - eapply sweeps_again; eauto. apply meets_later; auto.
Qed.

(** * how many blocks are in use *)

Definition in_use_of (f : Z -> bool) (l : list Z) : nat := length (filter f l).
Lemma in_use_less : forall f g i l, (forall j, g j = if j =? i then false else f j) ->
  (in_use_of g l <= in_use_of f l)%nat /\ (In i l -> f i = true -> (in_use_of g l < in_use_of f l)%nat).
Proof.
  intros f g i l H. unfold in_use_of. induction l as [|x l [IH1 IH2]]; cbn [filter length In]; [split; [lia|intros []]|].
  rewrite (H x). destruct (Z.eqb_spec x i) as [->|E].
  - split; [destruct (f i); cbn [length]; lia|]. intros _ F. rewrite F. cbn [length]. lia.
  - split; [destruct (f x); cbn [length]; lia|]. intros [X|X] F; [contradiction|].
    specialize (IH2 X F). destruct (f x); cbn [length]; lia.
Qed.
Definition blocks (n : Z) : list Z := map Z.of_nat (seq 0 (Z.to_nat n)).
Lemma blocks_in : forall n i, 0 <= i < n -> In i (blocks n).
Proof. intros n i I. apply in_map_iff. exists (Z.to_nat i). split; [lia|]. apply in_seq. lia. Qed.
Lemma in_use_bound : forall f n, (in_use_of f (blocks n) <= Z.to_nat n)%nat.
Proof.
  intros f n. unfold in_use_of, blocks. pose proof (seq_length (Z.to_nat n) 0) as L.
  assert (X : forall l : list Z, (length (filter f l) <= length l)%nat).
  { induction l as [|x l IH]; cbn [filter length]; [lia|]. destruct (f x); cbn [length]; lia. }
  specialize (X (map Z.of_nat (seq 0 (Z.to_nat n)))). rewrite map_length in X. lia.
Qed.

(** * the loop *)

Definition lift (r : res state) : res (state * unit) := s <- r;; Ok (s, tt).

Record ready (c : cfg) (n : Z) (s : state) : Prop := {
  rd_cfg : cfg_ok c;
  rd_dbg : DBG c = true;
  rd_geometry : geometry c s;
  rd_forward : links_forward s;
  rd_tidy : tidy s;
  rd_counted : counted n s;
  rd_small : n < 2 ^ 64
}.

(** one block *)
Lemma one_back : forall c n s j, ready c n s -> 0 <= j < bc s -> inuse s j = true ->
  (deallocate_impl c s (data s + j * BS c) = Abort /\ deallocate_blocks c s j = Abort) \/
  exists s2, deallocate_impl c s (data s + j * BS c) = Ok (s2, []) /\
    deallocate_blocks c s j = Ok (s2, joined (prv s) (inuse s) j) /\ ready c n s2 /\ same_place s s2 /\
    (forall i, inuse s2 i = if i =? j then false else inuse s i) /\ busyc s2 = busyc s - 1 /\
    0 <= joined (prv s) (inuse s) j < bc s.
Proof.
  intros c n s j R J U. assert (R' := R). destruct R' as [HC DB G LF T K N].
  destruct (free_exact c s n j DB G LF T K N J) as [A B]. rewrite deallocate_block by auto.
  destruct (Z.eq_dec (freec s) (2 ^ 64 - 1)) as [F|F]; [left; rewrite B by auto; auto|].
  destruct (Z.eq_dec (freec s) 0) as [Z0|Z0].
  - destruct (gap_before (prv s) (inuse s) j && gap_after (nxt s) (inuse s) j) eqn:Q;
      [left; rewrite B by auto; auto|]. right. destruct (A U F (fun _ => eq_refl)) as [s2 [E [E1 [E2 [E3 _]]]]].
    exists s2. rewrite E. cbn [bind]. split; [reflexivity|]. split; [reflexivity|].
    pose proof (deallocate_blocks_any _ _ _ _ _ E) as GV.
    split; [constructor; auto; [eapply kept_geometry; eauto|apply GV; auto|eapply deallocate_blocks_tidy; eauto|eapply counted_give; eauto]|].
    split; [auto|]. split; [auto|]. split; [auto|]. unfold joined. destruct T as [TP _]. specialize (TP j ltac:(lia)).
    destruct (gap_before _ _ _); lia.
  - right. destruct (A U F (fun q => False_ind _ (Z0 q))) as [s2 [E [E1 [E2 [E3 _]]]]].
    exists s2. rewrite E. cbn [bind]. split; [reflexivity|]. split; [reflexivity|].
    pose proof (deallocate_blocks_any _ _ _ _ _ E) as GV.
    split; [constructor; auto; [eapply kept_geometry; eauto|apply GV; auto|eapply deallocate_blocks_tidy; eauto|eapply counted_give; eauto]|].
    split; [auto|]. split; [auto|]. split; [auto|]. unfold joined. destruct T as [TP _]. specialize (TP j ltac:(lia)).
    destruct (gap_before _ _ _); lia.
Qed.

Definition given_back (s : state) (js : list Z) (s2 : state) : Prop :=
  same_place s s2 /\ busyc s2 = busyc s - Z.of_nat (length js) /\
  forall i, inuse s2 i = true <-> inuse s i = true /\ ~ In i js.

Lemma release_loop : forall c n k fuel s i, ready c n s -> 0 <= i < bc s ->
  (in_use_of (inuse s) (blocks (bc s)) * Z.to_nat (bc s) + Z.to_nat (bc s - i) <= k)%nat -> (k <= fuel)%nat ->
  exists js r, sweeps c s i js r /\ apply_loop fuel c (in_use c) (release_act c) s tt i = lift r /\
    NoDup js /\ (forall j, In j js -> 0 <= j < bc s /\ inuse s j = true) /\
    (r = Abort \/ exists s2, r = Ok s2 /\ ready c n s2 /\ given_back s js s2).
Proof.
  intros c n. induction k as [|k IH]; intros fuel s i R I B F; [lia|].
  destruct fuel as [|fuel]; [lia|]. assert (R' := R). destruct R' as [HC DB G LF T K N]. assert (GB := g_bc _ _ G).
  cbn [apply_loop]. rewrite next_index_ok by lia. cbn [bind]. rewrite in_use_ok by lia. cbn [bind].
  destruct (inuse s i) eqn:U.
  - (* given back *)
    unfold release_act at 1. destruct (one_back c n s i R I U) as [[A1 A2]|[s2 [E1 [E2 [R2 [SP [E3 [E4 JB]]]]]]]].
    + rewrite A2. cbn [bind]. exists [i], Abort. split; [apply sweeps_abort; auto; apply meets_here; auto|].
      split; [reflexivity|]. split; [constructor; [intros []|constructor]|]. split; [intros j [<-|[]]; auto|auto].
    + rewrite E2. cbn [bind]. assert (BC2 : bc s2 = bc s) by apply SP.
      rewrite next_index_ok by lia. cbn [bind].
      destruct (Z.eqb_spec (nxt s2 (joined (prv s) (inuse s) i)) 0) as [Z0|Z0]; cbn [negb of_bool Z.eqb].
      * exists [i], (Ok s2). split; [eapply sweeps_last; eauto; apply meets_here; auto|]. split; [reflexivity|].
        split; [constructor; [intros []|constructor]|]. split; [intros j [<-|[]]; auto|]. right. exists s2.
        split; auto. split; auto. split; auto. split; [cbn [length]; lia|]. intros x. rewrite E3.
        destruct (Z.eqb_spec x i) as [->|X]; [split; [discriminate|intros [_ X]; exfalso; apply X; left; auto]|].
        split; [intros Y; split; auto; intros [Y2|[]]; congruence|tauto].
      * cbn [of_bool]. change (1 =? 0) with false. cbv iota.
        assert (LF2 := rd_forward _ _ _ R2 (joined (prv s) (inuse s) i)).
        destruct (in_use_less (inuse s) (inuse s2) i (blocks (bc s)) E3) as [_ L].
        specialize (L (blocks_in _ _ I) U).
        destruct (IH fuel s2 1 R2) as [js [r [W [AL [ND [IN D]]]]]]; try lia.
        { rewrite BC2. nia. }
        exists (i :: js), r. split; [eapply sweeps_again; eauto; apply meets_here; auto|]. split; [exact AL|].
        assert (NI : ~ In i js).
        { intros X. destruct (IN i X) as [_ Y]. rewrite E3, Z.eqb_refl in Y. discriminate Y. }
        split; [constructor; auto|]. split.
        { intros j [<-|X]; [auto|]. destruct (IN j X) as [Y1 Y2]. rewrite BC2 in Y1. split; auto. rewrite E3 in Y2.
          destruct (j =? i); [discriminate Y2|auto]. }
        destruct D as [->|[s3 [-> [R3 [SP3 [B3 U3]]]]]]; [auto|]. right. exists s3. split; auto. split; auto.
        split; [eapply same_place_trans; eauto|]. split; [cbn [length]; lia|]. intros x. rewrite U3, E3.
        destruct (Z.eqb_spec x i) as [->|X].
        -- split; [intros [Y _]; discriminate Y|intros [_ Y]; exfalso; apply Y; left; auto].
        -- cbn [In]. intuition congruence.
  - cbn [bind]. destruct (Z.eqb_spec (nxt s i) 0) as [Z0|Z0].
    + exists [], (Ok s). split; [apply sweeps_none; apply meets_none; auto|]. split; [reflexivity|].
      split; [constructor|]. split; [intros j []|]. right. exists s. split; auto. split; auto.
      split; [repeat split|]. split; [cbn [length]; lia|]. intros x. cbn [In]. tauto.
    + destruct (LF i) as [X|X]; [contradiction|].
      destruct (IH fuel s (nxt s i) R) as [js [r [W D]]]; try lia.
      exists js, r. split; [apply sweeps_on; auto|]. exact D.
Qed.

Lemma release_exact : forall c buffer size up s fuel ops s' es, made c buffer size up s -> DBG c = true ->
  Forall sane_op ops -> Z.of_nat (length ops) < 2 ^ 64 -> run c fuel s ops = Ok (s', es) ->
  exists js r, sweeps c s' 0 js r /\ (forall js' r', sweeps c s' 0 js' r' -> js' = js /\ r' = r) /\
    (forall fuel', (enough (bc s) <= fuel')%nat -> release c fuel' s' = r) /\
    NoDup js /\ (forall j, In j js -> 0 <= j < bc s /\ inuse s' j = true) /\
    (r = Abort \/ exists s2, r = Ok s2 /\ same_place s s2 /\ busyc s2 = busyc s' - Z.of_nat (length js) /\
       (forall i, inuse s2 i = true <-> inuse s' i = true /\ ~ In i js) /\
       (destroy s2 = Ok tt <-> busyc s' = Z.of_nat (length js))).
Proof.
  intros c buffer size up s fuel ops s' es M DB V L R.
  destruct (debug_state _ _ _ _ _ _ _ _ _ M DB V R) as [HC [G [LF [SP _]]]].
  destruct (debug_tidy _ _ _ _ _ _ _ _ _ M V L R) as [T K].
  assert (RD : ready c (Z.of_nat (length ops)) s') by (constructor; auto).
  assert (BC : bc s' = bc s) by apply SP. assert (GB := g_bc _ _ G).
  assert (I : 0 <= 0 < bc s') by lia.
  set (k := (in_use_of (inuse s') (blocks (bc s')) * Z.to_nat (bc s') + Z.to_nat (bc s' - 0))%nat).
  assert (KB : (k <= enough (bc s))%nat).
  { unfold k, enough. pose proof (in_use_bound (inuse s') (bc s')) as B. rewrite BC in *. rewrite Z.sub_0_r. nia. }
  destruct (release_loop c (Z.of_nat (length ops)) k (enough (bc s)) s' 0 RD I (le_n _) KB) as [js [r [W [AL [ND [IN D]]]]]].
  exists js, r. split; [exact W|]. split; [apply (sweeps_unique _ _ _ _ _ W)|]. split.
  { intros fuel' F. destruct (release_loop c (Z.of_nat (length ops)) k fuel' s' 0 RD I (le_n _) ltac:(lia)) as [js' [r' [W' [AL' _]]]].
    destruct (sweeps_unique _ _ _ _ _ W _ _ W') as [-> ->]. unfold release. rewrite AL'. unfold lift.
    destruct r; reflexivity. }
  split; [exact ND|]. split; [rewrite BC in IN; exact IN|].
  destruct D as [->|[s2 [-> [R2 [SP2 [B2 U2]]]]]]; [auto|]. right. exists s2. split; auto.
  split; [eapply same_place_trans; eauto|]. split; auto. split; auto. unfold destroy, abort_when. rewrite B2.
  destruct (Z.eqb_spec (busyc s' - Z.of_nat (length js)) 0) as [Z0|Z0]; cbn [negb].
  - split; [intros _; lia|auto].
  - split; [discriminate|]. intros E. exfalso. lia.
Qed.
