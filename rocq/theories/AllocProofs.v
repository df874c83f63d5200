(** Lemmas about memory resources, allocators and the default resource. *)

Require Import ZArith List Bool Lia Permutation.
Require Import Verif.Outcome Verif.Machine Verif.BitsSpec Verif.BitsProofs Verif.SimpleSpec Verif.SimpleModel
  Verif.SimpleView Verif.SimpleHistProofs Verif.SimpleReleaseProofs Verif.SimpleMainProofs
  Verif.MonoSpec Verif.MonoModel Verif.MonoProofs Verif.AllocSpec Verif.AllocModel Verif.AllocView.
Import ListNotations.
Open Scope Z_scope.

(** * Lists of allocations *)

Lemma pd_cons : forall a l, pairwise_disjoint (a :: l) <-> (forall b, In b l -> disjoint a b) /\ pairwise_disjoint l.
Proof.
  intros a l. split.
  - intros H. split.
    + intros b I. apply in_split in I. destruct I as [l1 [l2 ->]]. apply (H [] a l1 b l2). reflexivity.
    + intros l1 x l2 y l3 E. apply (H (a :: l1) x l2 y l3). rewrite E. reflexivity.
  - intros [H1 H2] l1 x l2 y l3 E. destruct l1 as [|z l1]; cbn in E; injection E as -> E.
    + apply H1. rewrite E. apply in_elt.
    + apply (H2 l1 x l2 y l3 E).
Qed.
Lemma pd_nil : pairwise_disjoint [].
Proof. intros l1 a l2 b l3 E. destruct l1; discriminate E. Qed.
Lemma disjoint_sym : forall a b, disjoint a b -> disjoint b a.
Proof. unfold disjoint. intros. tauto. Qed.

Lemma pd_perm : forall l m, Permutation l m -> pairwise_disjoint l -> pairwise_disjoint m.
Proof.
  intros l m P. induction P as [|x l m P IH|x y l|l m n P IH P2 IH2]; intros H; auto.
  - apply pd_cons in H. destruct H as [H1 H2]. apply pd_cons. split; auto.
    intros b I. apply H1. apply (Permutation_in _ (Permutation_sym P) I).
  - apply pd_cons in H. destruct H as [H1 H2]. apply pd_cons in H2. destruct H2 as [H2 H3].
    apply pd_cons. split.
    + intros b [<-|I]; [apply disjoint_sym, H1; left; auto|apply H2; auto].
    + apply pd_cons. split; auto. intros b I. apply H1. right. auto.
Qed.

Lemma pd_app : forall l m, pairwise_disjoint (l ++ m) <->
  pairwise_disjoint l /\ pairwise_disjoint m /\ forall a b, In a l -> In b m -> disjoint a b.
Proof.
  induction l as [|x l IH]; intros m; cbn [app].
  - split; [intros H; split; [apply pd_nil|split; [exact H|intros a b []]]|tauto].
  - rewrite !pd_cons, IH. split.
    + intros [H1 [H2 [H3 H4]]]. repeat split; auto.
      * intros b I. apply H1. apply in_app_iff; auto.
      * intros a b [<-|I] J; [apply H1; apply in_app_iff; auto|apply H4; auto].
    + intros [[H1 H2] [H3 H4]]. repeat split; auto.
      * intros b I. apply in_app_iff in I. destruct I; auto. apply H4; [left|]; auto.
      * intros a b I J. apply H4; [right|]; auto.
Qed.

Definition positive (l : list alloc) : Prop := forall a, In a l -> 0 < snd a.

Lemma pd_nodup : forall l, pairwise_disjoint l -> positive l -> NoDup (map fst l).
Proof.
  induction l as [|a l IH]; intros D P; [constructor|]. apply pd_cons in D. destruct D as [D1 D2].
  cbn [map]. constructor; [|apply IH; auto; intros x X; apply P; right; auto].
  intros I. apply in_map_iff in I. destruct I as [b [E I]]. specialize (D1 b I). unfold disjoint in D1.
  assert (A := P a (or_introl eq_refl)). assert (B := P b (or_intror I)). lia.
Qed.

Lemma remove_split : forall p l, In p (map fst l) -> exists n, Permutation l ((p, n) :: remove_ptr p l).
Proof.
  intros p. induction l as [|[q m] l IH]; intros I; [destruct I|]. cbn [remove_ptr fst].
  destruct (Z.eqb_spec q p) as [->|N]; [exists m; reflexivity|].
  destruct I as [E|I]; [contradiction|]. destruct (IH I) as [n P]. exists n. rewrite P at 1. apply perm_swap.
Qed.

Lemma remove_perm : forall p l m, NoDup (map fst l) -> Permutation l m -> Permutation (remove_ptr p l) (remove_ptr p m).
Proof.
  intros p l m N P. destruct (in_dec Z.eq_dec p (map fst l)) as [I|I].
  - assert (J : In p (map fst m)) by (apply (Permutation_in _ (Permutation_map fst P) I)).
    destruct (remove_split p l I) as [n1 P1]. destruct (remove_split p m J) as [n2 P2].
    assert (Q : Permutation ((p, n1) :: remove_ptr p l) ((p, n2) :: remove_ptr p m)) by (rewrite <- P1, <- P2; exact P).
    assert (E : n1 = n2).
    { assert (K : In (p, n1) ((p, n2) :: remove_ptr p m)) by (apply (Permutation_in _ Q); left; auto).
      destruct K as [K|K]; [congruence|]. exfalso.
      assert (N2 : NoDup (map fst ((p, n2) :: remove_ptr p m))).
      { apply (Permutation_NoDup (l := map fst l)); auto. apply Permutation_map. rewrite <- P2. exact P. }
      cbn [map fst] in N2. inversion N2 as [|? ? A B]; subst. apply A. apply in_map_iff. exists (p, n1). auto. }
    subst n2. apply Permutation_cons_inv in Q. exact Q.
  - rewrite !remove_ptr_absent; auto. intros J. apply I. apply (Permutation_in _ (Permutation_map fst (Permutation_sym P)) J).
Qed.

Lemma remove_app_l : forall p l m, In p (map fst l) -> remove_ptr p (l ++ m) = remove_ptr p l ++ m.
Proof.
  intros p. induction l as [|a l IH]; intros m I; [destruct I|]. cbn [app remove_ptr].
  destruct (Z.eqb_spec (fst a) p) as [E|N]; auto. cbn [app]. f_equal. apply IH. destruct I; [contradiction|auto].
Qed.
Lemma remove_app_r : forall p l m, ~ In p (map fst l) -> remove_ptr p (l ++ m) = l ++ remove_ptr p m.
Proof.
  intros p. induction l as [|a l IH]; intros m I; [reflexivity|]. cbn [app remove_ptr].
  destruct (Z.eqb_spec (fst a) p) as [E|N]; [exfalso; apply I; left; auto|]. f_equal. apply IH.
  intros J. apply I. right. auto.
Qed.

Lemma remove_incl : forall p l, incl (remove_ptr p l) l.
Proof.
  intros p. induction l as [|a l IH]; intros x I; [destruct I|]. cbn [remove_ptr] in I.
  destruct (fst a =? p); [right; auto|]. destruct I as [<-|I]; [left|right]; auto.
Qed.

Lemma remove_pd : forall p l, pairwise_disjoint l -> pairwise_disjoint (remove_ptr p l).
Proof.
  intros p l D. destruct (in_dec Z.eq_dec p (map fst l)) as [I|I].
  - destruct (remove_split p l I) as [n P]. apply (pd_perm _ _ P) in D. apply pd_cons in D. apply D.
  - rewrite remove_ptr_absent; auto.
Qed.

(** storage in separate places is disjoint *)
Lemma apart : forall (A B : Z -> Prop) a b, 0 < snd a -> 0 < snd b ->
  (forall x, fst a <= x < fst a + snd a -> A x) -> (forall x, fst b <= x < fst b + snd b -> B x) ->
  (forall x, A x -> ~ B x) -> disjoint a b.
Proof.
  intros A B a b Pa Pb HA HB AB. unfold disjoint.
  destruct (Z_le_gt_dec (fst a + snd a) (fst b)) as [H|H]; auto.
  destruct (Z_le_gt_dec (fst b + snd b) (fst a)) as [H'|H']; auto.
  exfalso. apply (AB (Z.max (fst a) (fst b))); [apply HA|apply HB]; lia.
Qed.

(** * Traces *)

Lemma owned_app : forall tr r, owned (tr ++ [r]) = owned_after (owned tr) r.
Proof. intros. unfold owned. rewrite fold_left_app. reflexivity. Qed.

Definition asked (r : reply) : request := match r with Got size align p => Ask size align | Gave p => Give p end.

Lemma fair_app : forall ok tr l r, fair_trace ok l (tr ++ [r]) <->
  fair_trace ok l tr /\ allowed ok (fold_left owned_after tr l) (asked r).
Proof.
  intros ok. induction tr as [|x tr IH]; intros l r; cbn.
  - tauto.
  - rewrite IH. tauto.
Qed.

Lemma res_run_app : forall R a b s, res_run R s (a ++ b) =
  bind (res_run R s a) (fun r => let (s1, e1) := r in bind (res_run R s1 b) (fun r2 => let (s2, e2) := r2 in Ok (s2, e1 ++ e2))).
Proof.
  intros R a b. induction a as [|o a IH]; intros s.
  - cbn. destruct (res_run R s b) as [[s2 e2]| | |]; reflexivity.
  - cbn [app res_run]. destruct (res_step R s o) as [[s1 e]| | |]; cbn [bind]; auto.
    rewrite IH. destruct (res_run R s1 a) as [[s2 e2]| | |]; cbn [bind]; auto.
    destruct (res_run R s2 b) as [[s3 e3]| | |]; reflexivity.
Qed.

(** [u] is reached from [u0] by a fair client that saw [tr] *)
Definition reach (R : resource) (u0 : rstate R) (ok : Z -> Z -> Prop) (u : rstate R) (tr : list reply) : Prop :=
  exists qs, res_run R u0 qs = Ok (u, tr) /\ fair_trace ok [] tr.

Lemma reach_start : forall R u0 ok, reach R u0 ok u0 [].
Proof. intros. exists []. cbn. auto. Qed.

Lemma step_asked : forall R s q s' r, res_step R s q = Ok (s', r) -> asked r = q.
Proof.
  intros R s [size align|p] s' r H; cbn [res_step] in H.
  - apply bind_ok in H. destruct H as [[s1 p] [_ H]]. injection H as <- <-. reflexivity.
  - apply bind_ok in H. destruct H as [s1 [_ H]]. injection H as <- <-. reflexivity.
Qed.

Lemma reach_step : forall R u0 ok mem u tr q, safe R u0 ok mem -> reach R u0 ok u tr -> allowed ok (owned tr) q ->
  exists u' r, res_step R u q = Ok (u', r) /\ asked r = q /\ reach R u0 ok u' (tr ++ [r]).
Proof.
  intros R u0 ok mem u tr q S [qs [H1 H2]] A. destruct (S qs u tr H1 H2) as [_ N].
  destruct (N q A) as [u' [r E]]. exists u', r. assert (Q := step_asked _ _ _ _ _ E).
  split; [exact E|]. split; [exact Q|]. exists (qs ++ [q]). split.
  - rewrite res_run_app, H1. cbn [bind res_run]. rewrite E. reflexivity.
  - apply fair_app. split; [exact H2|]. rewrite Q. exact A.
Qed.

Lemma reach_good : forall R u0 ok mem u tr, safe R u0 ok mem -> reach R u0 ok u tr -> good_trace mem tr.
Proof. intros R u0 ok mem u tr S [qs [H1 H2]]. apply (S qs u tr H1 H2). Qed.

(** safety by an invariant over what the client holds *)
Lemma safe_by : forall R s0 (ok : Z -> Z -> Prop) (mem : Z -> Prop) (Inv : rstate R -> list alloc -> Prop),
  Inv s0 [] ->
  (forall s l, Inv s l -> pairwise_disjoint l /\ (forall a x, In a l -> fst a <= x < fst a + snd a -> mem x) /\
     (forall a, In a l -> 0 < fst a < 2 ^ 64)) ->
  (forall s l q, Inv s l -> allowed ok l q -> exists s' r, res_step R s q = Ok (s', r) /\ Inv s' (owned_after l r) /\
     (forall size align p, r = Got size align p -> p <> 0 -> (align | p))) ->
  safe R s0 ok mem.
Proof.
  intros R s0 ok mem Inv I0 IG IS.
  assert (G : forall qs s l s' tr, Inv s l -> res_run R s qs = Ok (s', tr) -> fair_trace ok l tr ->
    Inv s' (fold_left owned_after tr l) /\ forall size align p, In (Got size align p) tr -> p <> 0 -> (align | p)).
  { induction qs as [|q qs IH]; intros s l s' tr I H F; cbn [res_run] in H.
    - injection H as <- <-. cbn. split; [exact I|]. contradiction.
    - apply bind_ok in H. destruct H as [[s1 r] [H1 H2]]. apply bind_ok in H2. destruct H2 as [[s2 tr2] [H2 H3]].
      injection H3 as <- <-. cbn [fair_trace] in F. destruct F as [F1 F2]. fold (asked r) in F1.
      rewrite (step_asked _ _ _ _ _ H1) in F1. destruct (IS s l q I F1) as [s1' [r' [E [I1 A]]]].
      rewrite H1 in E. injection E as <- <-. destruct (IH s1 _ s2 tr2 I1 H2 F2) as [J K].
      split; [exact J|]. intros size align p [->|X] P; [apply (A size align p eq_refl P)|apply (K size align p X P)]. }
  intros qs s tr H F. destruct (G qs s0 [] s tr I0 H F) as [I A]. fold (owned tr) in I.
  destruct (IG s _ I) as [D [M P]]. split; [constructor; auto|].
  intros q Q. destruct (IS s _ q I Q) as [s' [r [E _]]]. eauto.
Qed.

(** * aligned_malloc *)

Definition raised (align : Z) : Z := if 8 <=? align then align else 8.

Lemma pow2_8 : pow2 8. Proof. exists 3. split; [lia|reflexivity]. Qed.

Lemma raised_legal : forall align, pow2 align -> align < 2 ^ 64 ->
  posix_legal (raised align) /\ (align | raised align) /\ align <= raised align.
Proof.
  intros align P B. unfold raised. destruct (Z.leb_spec 8 align) as [H|H].
  - split; [|split; [apply Z.divide_refl|lia]]. split; [exact P|]. split; [|exact B].
    apply pow2_le_divide; auto. exact pow2_8.
  - split; [|split; [apply pow2_le_divide; auto; [exact pow2_8|lia]|lia]].
    split; [exact pow2_8|]. split; [apply Z.divide_refl|lia].
Qed.

(** the call of posix_memalign, and its failure *)
Lemma aligned_malloc_call : forall L h size align, pow2 align -> align < 2 ^ 64 ->
  exists a, posix_legal a /\ align <= a /\ (align | a) /\
    (forall h' p, posix_memalign L h a size = (h', 0, p) -> aligned_malloc L h size align = (h', p)) /\
    (forall h' err p, posix_memalign L h a size = (h', err, p) -> err <> 0 -> aligned_malloc L h size align = (h', 0)).
Proof.
  intros L h size align P B. exists (raised align). destruct (raised_legal align P B) as [H1 [H2 H3]].
  split; auto. split; auto. split; auto. unfold aligned_malloc. fold (raised align). split.
  - intros h' p ->. reflexivity.
  - intros h' err p -> N. destruct (Z.eqb_spec err 0); [contradiction|]. reflexivity.
Qed.

Lemma system_safe : forall L h mem, libc_ok L h mem ->
  safe (system_resource L) h (fun size align => 0 < size /\ pow2 align /\ align < 2 ^ 64) mem.
Proof.
  intros L h mem S.
  apply (safe_by (system_resource L) h _ mem (fun u l => exists tr, owned tr = l /\
    reach (libc_resource L) h (fun size align => 0 < size /\ posix_legal align) u tr)).
  - exists []. split; [reflexivity|apply reach_start].
  - intros s l [tr [<- R]]. destruct (reach_good _ _ _ _ _ _ S R). auto.
  - intros s l q [tr [<- R]] A. destruct q as [size align|p].
    + destruct A as [A1 [A2 A3]]. destruct (raised_legal align A2 A3) as [H1 [H2 H3]].
      destruct (reach_step _ _ _ _ _ _ (Ask size (raised align)) S R) as [u' [r [E [Q R']]]]; [cbn; auto|].
      cbn [res_step libc_resource r_allocate] in E. cbn [res_step system_resource r_allocate].
      unfold aligned_malloc. fold (raised align).
      destruct (posix_memalign L s (raised align) size) as [[h' err] p] eqn:PM. cbn [bind] in *.
      injection E as <- <-. eexists _, _. split; [reflexivity|]. split.
      * eexists. split; [|exact R']. rewrite owned_app. reflexivity.
      * intros sz al p' Ep N. injection Ep as <- <- <-.
        destruct (reach_good _ _ _ _ _ _ S R') as [_ _ _ GA].
        apply Z.divide_trans with (raised align); auto. apply (GA size). { apply in_app_iff. right. left. reflexivity. } exact N.
    + destruct (reach_step _ _ _ _ _ _ (Give p) S R) as [u' [r [E [Q R']]]]; [exact A|].
      cbn [res_step libc_resource r_deallocate bind] in E. injection E as <- <-.
      eexists _, _. split; [reflexivity|]. split; [|discriminate].
      exists (tr ++ [Gave p]). split; [apply owned_app|exact R'].
Qed.

Lemma null_safe : forall ok, safe null_resource tt ok (fun _ => False).
Proof.
  intros ok. apply (safe_by null_resource tt ok _ (fun s l => l = [])); auto.
  - intros s l ->. split; [apply pd_nil|]. split; intros a; contradiction.
  - intros s l q -> A. destruct q as [size align|p]; cbn [res_step null_resource r_allocate r_deallocate bind];
      eexists _, _; (split; [reflexivity|]); (split; [reflexivity|]).
    + intros sz al p Ep N. injection Ep as <- <- <-. contradiction N. reflexivity.
    + discriminate.
Qed.
