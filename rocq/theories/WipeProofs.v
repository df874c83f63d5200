(** Proofs about WipeModel.v. *)

Require Import ZArith List Bool Lia.
Require Import Verif.Outcome Verif.WipeSpec Verif.WipeModel.
Require Verif.MemSpec Verif.MemModel Verif.MemProofs.
Import ListNotations.
Open Scope Z_scope.

Lemma after_app (m : bytes) (p q : list access) : after m (p ++ q) = after (after m p) q.
Proof. revert m. induction p as [|[a v|a v|a] p IH]; intros m; cbn [app after]; auto. Qed.

Lemma observations_app (m : bytes) (p q : list access) :
  observations m (p ++ q) = observations m p ++ observations (after m p) q.
Proof. revert m. induction p as [|[a v|a v|a] p IH]; intros m; cbn [app after observations]; rewrite ?IH; auto. Qed.

(** ** The accesses of the loops *)

Lemma handmade_in (p i : Z) (n : nat) x : In x (handmade_loop p i n) <->
  exists k, 0 <= k < Z.of_nat n /\ x = Write (p + i + k) 0.
Proof.
  revert i. induction n as [|n IH]; intros i; cbn [handmade_loop In].
  - split; [intros []|intros (k & H & _); lia].
  - rewrite IH. split.
    + intros [<-|(k & H & ->)]; [exists 0|exists (k + 1)]; (split; [lia|f_equal; lia]).
    + intros (k & H & ->). destruct (Z.eq_dec k 0) as [->|N]; [left; f_equal; lia|right].
      exists (k - 1). split; [lia|f_equal; lia].
Qed.
Lemma promised_in (p c : Z) (n : nat) x : In x (promised_loop p c n) <->
  exists k, 0 <= k < Z.of_nat n /\ x = Promised (p + k) c.
Proof.
  revert p. induction n as [|n IH]; intros p; cbn [promised_loop In].
  - split; [intros []|intros (k & H & _); lia].
  - rewrite IH. split.
    + intros [<-|(k & H & ->)]; [exists 0|exists (k + 1)]; (split; [lia|f_equal; lia]).
    + intros (k & H & ->). destruct (Z.eq_dec k 0) as [->|N]; [left; f_equal; lia|right].
      exists (k - 1). split; [lia|f_equal; lia].
Qed.
Lemma volatile_promised (p : Z) (n : nat) : volatile_loop p n = promised_loop p 0 n.
Proof. revert p. induction n as [|n IH]; intros p; cbn; f_equal; auto. Qed.

(** a sequence of writes of zeros *)
Definition zeroing (x : access) : Prop := match x with Write _ v | Promised _ v => v = 0 | Show _ => False end.
Definition target (x : access) : Z := match x with Write a _ | Promised a _ | Show a => a end.

Lemma after_zeroing (l : list access) : forall m a, Forall zeroing l ->
  after m l a = if in_dec Z.eq_dec a (map target l) then 0 else m a.
Proof.
  induction l as [|x l IH]; intros m a F; [reflexivity|].
  apply Forall_cons_iff in F. destruct F as [Hx F].
  destruct x as [b v|b v|b]; cbn [zeroing] in Hx; try contradiction; subst v; cbn [after map target];
    rewrite (IH _ _ F); unfold set_byte;
    destruct (in_dec Z.eq_dec a (map target l)) as [I|I];
    destruct (in_dec Z.eq_dec a (b :: map target l)) as [J|J]; try reflexivity;
    destruct (Z.eqb_spec a b) as [E|E]; subst; auto; cbn in *; try tauto;
    exfalso; intuition congruence.
Qed.

Definition covers (l : list access) (p : Z) (n : nat) : Prop :=
  Forall zeroing l /\ forall a, In a (map target l) <-> p <= a < p + Z.of_nat n.

Lemma covers_handmade p n : covers (handmade_zero_mem p n) p n.
Proof.
  unfold covers, handmade_zero_mem. split.
  - apply Forall_forall. intros x I. apply handmade_in in I. destruct I as (k & _ & ->). reflexivity.
  - intros a. rewrite in_map_iff. split.
    + intros (x & <- & I). apply handmade_in in I. destruct I as (k & H & ->). cbn. lia.
    + intros H. exists (Write a 0). split; [reflexivity|]. apply handmade_in. exists (a - p).
      split; [lia|f_equal; lia].
Qed.
Lemma covers_promised p n : covers (promised_loop p 0 n) p n.
Proof.
  unfold covers. split.
  - apply Forall_forall. intros x I. apply promised_in in I. destruct I as (k & _ & ->). reflexivity.
  - intros a. rewrite in_map_iff. split.
    + intros (x & <- & I). apply promised_in in I. destruct I as (k & H & ->). cbn. lia.
    + intros H. exists (Promised a 0). split; [reflexivity|]. apply promised_in. exists (a - p).
      split; [lia|f_equal; lia].
Qed.

Lemma memset_s_legal (r p : Z) (n : nat) : p <> 0 -> Z.of_nat n <= r ->
  memset_s r p (Z.of_nat n) 0 (Z.of_nat n) = promised_loop p 0 n.
Proof.
  intros P N. unfold memset_s. rewrite (proj2 (Z.eqb_neq p 0) P).
  rewrite (proj2 (Z.ltb_ge r (Z.of_nat n)) N), (Z.ltb_irrefl (Z.of_nat n)). cbn [orb].
  now rewrite Nat2Z.id.
Qed.

Lemma promised_branch (pl : platform) (p : Z) (n : nat) : pl <> Neither -> legal pl p n ->
  secure_zero_memory pl p n = promised_loop p 0 n.
Proof.
  intros H L. destruct pl as [|r|]; cbn.
  - apply volatile_promised.
  - apply memset_s_legal; apply L.
  - now elim H.
Qed.

Lemma covers_secure (pl : platform) (p : Z) (n : nat) : legal pl p n -> covers (secure_zero_memory pl p n) p n.
Proof.
  intros L. assert (D : pl = Neither \/ pl <> Neither) by (destruct pl; auto; right; discriminate).
  destruct D as [->|D]; [apply covers_handmade|]. rewrite promised_branch by auto. apply covers_promised.
Qed.

Lemma secure_clears (pl : platform) (p : Z) (n : nat) (m : bytes) (a : Z) : legal pl p n ->
  after m (secure_zero_memory pl p n) a = if (p <=? a) && (a <? p + Z.of_nat n) then 0 else m a.
Proof.
  intros L. destruct (covers_secure pl p n L) as [F C]. rewrite (after_zeroing _ m a F).
  destruct (in_dec Z.eq_dec a _) as [I|I]; rewrite C in I;
    destruct (Z.leb_spec p a), (Z.ltb_spec a (p + Z.of_nat n)); cbn; auto; lia.
Qed.

(** ** Leaving out *)

Definition observable (x : access) : bool := match x with Write _ _ => false | _ => true end.
Definition weight (p : list access) : nat := length (filter observable p).

Lemma observations_length m p : length (observations m p) = weight p.
Proof.
  unfold weight. revert m. induction p as [|[a v|a v|a] p IH]; intros m; cbn; auto.
Qed.

Lemma thinned_weight q p : thinned q p -> (weight q <= weight p)%nat.
Proof.
  unfold weight. induction 1 as [|x q p H IH|x q p H IH]; [auto| |].
  - cbn. destruct (observable x); cbn; lia.
  - cbn. destruct (observable x); cbn; lia.
Qed.

Lemma thinned_length q p : thinned q p -> (length q <= length p)%nat.
Proof. induction 1; cbn; lia. Qed.
Lemma thinned_all q p : thinned q p -> length q = length p -> q = p.
Proof.
  induction 1 as [|x q p H IH|x q p H IH]; cbn; intros E; auto.
  - f_equal. apply IH. lia.
  - apply thinned_length in H. lia.
Qed.
Lemma thinned_refl p : thinned p p.
Proof. induction p; constructor; auto. Qed.

Lemma weight_app p q : weight (p ++ q) = (weight p + weight q)%nat.
Proof. unfold weight. rewrite filter_app, app_length. reflexivity. Qed.

Lemma may_become_weights p1 p2 p3 q1 q2 q3 : may_become p1 p2 p3 q1 q2 q3 ->
  weight q1 = weight p1 /\ weight q2 = weight p2 /\ weight q3 = weight p3.
Proof.
  intros (T1 & T2 & T3 & O). apply thinned_weight in T1, T2, T3.
  assert (E := f_equal (@length observed) (O (fun _ => 0))).
  rewrite !observations_length, !weight_app in E. lia.
Qed.

Lemma weight_promised p c n : weight (promised_loop p c n) = length (promised_loop p c n).
Proof. unfold weight. revert p. induction n as [|n IH]; intros p; cbn; auto. Qed.

Lemma weight_le q : (weight q <= length q)%nat.
Proof. unfold weight. induction q as [|x q IH]; cbn; [lia|]. destruct (observable x); cbn; lia. Qed.

Lemma promised_kept p c n q : thinned q (promised_loop p c n) -> weight q = weight (promised_loop p c n) ->
  q = promised_loop p c n.
Proof.
  intros T W. apply thinned_all; [exact T|]. apply thinned_length in T. rewrite weight_promised in W.
  pose proof (weight_le q). lia.
Qed.

Theorem promised_erased (pl : platform) (p : Z) (n : nat) (p1 p3 : list access) (a : Z) :
  pl <> Neither -> legal pl p n -> p <= a < p + Z.of_nat n ->
  erased p1 (secure_zero_memory pl p n) p3 a.
Proof.
  intros D L A q1 q2 q3 B m.
  assert (E : q2 = secure_zero_memory pl p n).
  { pose proof (may_become_weights _ _ _ _ _ _ B) as (_ & W & _). destruct B as (_ & T & _).
    rewrite (promised_branch pl p n D L) in *. now apply promised_kept. }
  subst q2. rewrite after_app, secure_clears by exact L.
  destruct (Z.leb_spec p a), (Z.ltb_spec a (p + Z.of_nat n)); cbn; auto; lia.
Qed.

(** ** The hand-made loop *)

(** what is observed agrees part by part *)
Lemma observations_split (m : bytes) p1 p2 q1 q2 : weight p1 = weight q1 ->
  observations m (p1 ++ p2) = observations m (q1 ++ q2) ->
  observations m p1 = observations m q1 /\ observations (after m p1) p2 = observations (after m q1) q2.
Proof.
  intros W E. rewrite !observations_app in E.
  assert (L : length (observations m p1) = length (observations m q1)) by now rewrite !observations_length.
  revert L E. generalize (observations m p1) (observations m q1).
  induction l as [|x l IH]; intros [|y l'] L E; cbn in *; try discriminate; auto.
  inversion E. subst. destruct (IH l') as [-> ->]; auto.
Qed.

(** a byte that is shown first is in [q3] what it is in [p3] *)
Lemma shown_same (a : Z) (p3 q3 : list access) : thinned q3 p3 -> shown_first a p3 -> weight q3 = weight p3 ->
  forall m m', observations m q3 = observations m' p3 -> m a = m' a.
Proof.
  induction 1 as [|x q p T IH|x q p T IH]; intros S W m m' O; [contradiction| |].
  - destruct x as [b v|b v|b]; cbn in S, O, W.
    + unfold weight in *. cbn in W. specialize (IH (proj2 S) W _ _ O). unfold set_byte in IH.
      destruct (Z.eqb_spec a b); [now elim (proj1 S)|exact IH].
    + inversion O as [O']. unfold weight in *. cbn in W. injection W as W.
      specialize (IH (proj2 S) W _ _ O'). unfold set_byte in IH.
      destruct (Z.eqb_spec a b); [now elim (proj1 S)|exact IH].
    + inversion O as [[V O']]. destruct S as [->|S]; [exact V|].
      unfold weight in *. cbn in W. injection W as W. exact (IH S W _ _ O').
  - destruct x as [b v|b v|b].
    + cbn in S, O. unfold weight in *. cbn in W. specialize (IH (proj2 S) W _ _ O). unfold set_byte in IH.
      destruct (Z.eqb_spec a b); [now elim (proj1 S)|exact IH].
    + exfalso. apply thinned_weight in T. unfold weight in *. cbn in W. lia.
    + exfalso. apply thinned_weight in T. unfold weight in *. cbn in W. lia.
Qed.

Lemma shown_erased (pl : platform) (p : Z) (n : nat) (p1 p3 : list access) (a : Z) :
  legal pl p n -> p <= a < p + Z.of_nat n -> shown_first a p3 ->
  erased p1 (secure_zero_memory pl p n) p3 a.
Proof.
  intros L A S q1 q2 q3 B m. pose proof (may_become_weights _ _ _ _ _ _ B) as (W1 & W2 & W3).
  destruct B as (T1 & T2 & T3 & O). specialize (O m). rewrite !(app_assoc _ _ q3), !(app_assoc _ _ p3) in O.
  apply observations_split in O as [_ O]; [|rewrite !weight_app; lia].
  rewrite (shown_same a p3 q3 T3 S W3 _ _ O), after_app, secure_clears by exact L.
  destruct (Z.leb_spec p a), (Z.ltb_spec a (p + Z.of_nat n)); cbn; auto; lia.
Qed.

(** leaving out the writes to one byte *)
Definition without (a : Z) (l : list access) : list access := filter (fun x => negb (target x =? a)) l.

Lemma thinned_filter f (l : list access) : thinned (filter f l) l.
Proof. induction l as [|x l IH]; cbn; [constructor|]. destruct (f x); constructor; auto. Qed.

Lemma handmade_quiet p i n m : observations m (handmade_loop p i n) = [].
Proof. revert i m. induction n as [|n IH]; intros i m; cbn; auto. Qed.

Lemma without_quiet a p i n m : observations m (without a (handmade_loop p i n)) = [].
Proof.
  revert i m. induction n as [|n IH]; intros i m; cbn; auto.
  destruct (negb _); cbn; apply IH.
Qed.

Definition all_but (a : Z) (m m' : bytes) : Prop := forall b, b <> a -> m b = m' b.

Lemma all_but_set a m m' b v : all_but a m m' -> all_but a (set_byte m b v) (set_byte m' b v).
Proof. intros H c N. unfold set_byte. destruct (c =? b); auto. Qed.
Lemma all_but_set_same a m m' v : all_but a m m' -> forall c, set_byte m a v c = set_byte m' a v c.
Proof. intros H c. unfold set_byte. destruct (Z.eqb_spec c a); auto. Qed.

Lemma without_after a p i n m : all_but a (after m (without a (handmade_loop p i n))) (after m (handmade_loop p i n)).
Proof.
  assert (G : forall l m m', all_but a m m' -> Forall zeroing l -> all_but a (after m (without a l)) (after m' l)).
  { clear. induction l as [|x l IH]; intros m m' H F; [exact H|].
    apply Forall_cons_iff in F as [Hx F]. destruct x as [b v|b v|b]; cbn in Hx; try contradiction; subst v;
      cbn [without filter target]; destruct (Z.eqb_spec b a) as [->|N]; cbn [negb after]; apply IH; auto;
      try (now apply all_but_set); intros c Nc; unfold set_byte; destruct (Z.eqb_spec c a); try contradiction; auto. }
  apply G; [intros b _; reflexivity|]. apply Forall_forall. intros x I. apply handmade_in in I as (k & _ & ->). reflexivity.
Qed.

Lemma without_at a p i n m : after m (without a (handmade_loop p i n)) a = m a.
Proof.
  revert i m. induction n as [|n IH]; intros i m; [reflexivity|].
  cbn [handmade_loop without filter target].
  destruct (Z.eqb_spec (p + i) a) as [E|N]; cbn [negb after]; fold (without a (handmade_loop p (i + 1) n)); rewrite IH; auto.
  unfold set_byte. destruct (Z.eqb_spec a (p + i)); auto. now elim N.
Qed.

Lemma observations_ext p : forall m m', (forall b, m b = m' b) -> observations m p = observations m' p.
Proof.
  induction p as [|[a v|a v|a] p IH]; intros m m' H; cbn; auto.
  - apply IH. intros b. unfold set_byte. destruct (b =? a); auto.
  - f_equal. apply IH. intros b. unfold set_byte. destruct (b =? a); auto.
  - rewrite H. f_equal. now apply IH.
Qed.

Lemma not_shown a p : forall m m', ~ shown_first a p -> all_but a m m' -> observations m p = observations m' p.
Proof.
  induction p as [|[b v|b v|b] p IH]; intros m m' S H; cbn in *; auto.
  - destruct (Z.eq_dec b a) as [->|N].
    + apply observations_ext. now apply all_but_set_same.
    + apply IH; [tauto|now apply all_but_set].
  - f_equal. destruct (Z.eq_dec b a) as [->|N].
    + apply observations_ext. now apply all_but_set_same.
    + apply IH; [tauto|now apply all_but_set].
  - destruct (Z.eq_dec b a) as [->|N]; [tauto|]. rewrite (H b N). f_equal. apply IH; tauto.
Qed.

Lemma left_out (p : Z) (n : nat) (p1 p3 : list access) (a : Z) : ~ shown_first a p3 ->
  may_become p1 (handmade_zero_mem p n) p3 p1 (without a (handmade_zero_mem p n)) p3.
Proof.
  intros S. repeat split; try apply thinned_refl; [apply thinned_filter|].
  intros m. unfold handmade_zero_mem. rewrite !observations_app, handmade_quiet, without_quiet.
  f_equal. cbn. apply not_shown with a; [exact S|apply without_after].
Qed.

Lemma shown_first_dec a p : shown_first a p \/ ~ shown_first a p.
Proof.
  induction p as [|[b v|b v|b] p IH]; cbn; [tauto| | |]; destruct (Z.eq_dec b a); tauto.
Qed.

Theorem handmade_exact (p : Z) (n : nat) (p1 p3 : list access) (a : Z) : p <= a < p + Z.of_nat n ->
  (exists m, after m p1 a <> 0) ->
  (erased p1 (secure_zero_memory Neither p n) p3 a <-> shown_first a p3).
Proof.
  intros A (m & H). split.
  - intros E. destruct (shown_first_dec a p3) as [S|S]; [exact S|exfalso]. apply H.
    specialize (E _ _ _ (left_out p n p1 p3 a S) m). unfold handmade_zero_mem in E.
    rewrite after_app in E. rewrite without_at in E. exact E.
  - intros S. apply shown_erased; auto. exact I.
Qed.

Theorem same_as_memory (pl : platform) (p : Z) (n : nat) (m : bytes) : legal pl p n ->
  exists m', MemModel.secure_zero_memory (fun a => Some (m a)) p n = Ok m' /\
    forall a, m' a = Some (after m (secure_zero_memory pl p n) a).
Proof.
  intros L. destruct (MemProofs.secure_zero_correct (fun a => Some (m a)) p n) as (m' & R & In & Out);
    [intros i _; discriminate|].
  exists m'. split; [exact R|]. intros a. rewrite secure_clears by exact L.
  destruct (Z.leb_spec p a), (Z.ltb_spec a (p + Z.of_nat n)); cbn [andb]; try (apply Out; lia).
  replace a with (p + (a - p)) at 1 by lia. apply In. lia.
Qed.

Theorem secret_left (p v : Z) (n : nat) (a : Z) : p <= a < p + Z.of_nat n ->
  exists q1 q2 q3,
    may_become [Write a v; Show a] (secure_zero_memory Neither p n) [] q1 q2 q3 /\
    forall m, after m (q1 ++ q2) a = v.
Proof.
  intros A. do 3 eexists. split; [apply (left_out p n _ _ a); intros []|].
  intros m. unfold handmade_zero_mem. rewrite after_app, without_at. cbn. unfold set_byte.
  now rewrite Z.eqb_refl.
Qed.

Theorem too_large (rsize_max p : Z) (n : nat) (m : bytes) : rsize_max < Z.of_nat n ->
  after m (secure_zero_memory (Ext1 rsize_max) p n) = m.
Proof.
  intros H. cbn. unfold memset_s. rewrite (proj2 (Z.ltb_lt _ _) H), orb_true_r. reflexivity.
Qed.
