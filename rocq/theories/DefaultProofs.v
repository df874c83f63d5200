(** Lemmas about DefaultModel.v. *)

Require Import ZArith List Bool Lia.
Require Import Verif.Outcome Verif.AllocSpec Verif.AllocModel Verif.DefaultSpec Verif.DefaultModel.
Import ListNotations.
Open Scope Z_scope.
Open Scope res_scope.

Definition agrees (init : Z) (past : list dop) (s : dstate) : Prop :=
  default_ s = default_after init past /\ forall x, pointer_of s x = resource_of init past x.

Lemma make_spec : forall k s x, make k s x = put_pointer s x (default_ s).
Proof. intros [] [d p] x; reflexivity. Qed.

Lemma default_step_ok : forall init past s o, agrees init past s ->
  match o with DAsk x | DCopy _ x => resource_of init past x <> None | _ => True end ->
  exists s', default_step s o = Ok (s', match o with
    | DSet _ => [DOld (default_after init past)]
    | DAsk x => match resource_of init past x with Some r => [DAsked x r] | None => [] end
    | _ => []
    end) /\ agrees init (o :: past) s'.
Proof.
  intros init past s o [Hd Hp] Ho. destruct o as [r|k x|k x r|x y|x]; cbn [default_step].
  - unfold set_default_resource, reg_step. rewrite Hd. eexists. split; [reflexivity|].
    split; [reflexivity|exact Hp].
  - rewrite make_spec. eexists. split; [reflexivity|]. split; [exact Hd|].
    intros y. cbn. rewrite (Nat.eqb_sym x y). destruct (Nat.eqb y x); [rewrite Hd; reflexivity|apply Hp].
  - eexists. split; [reflexivity|]. split; [exact Hd|].
    intros y. cbn. rewrite (Nat.eqb_sym x y). destruct (Nat.eqb y x); [reflexivity|apply Hp].
  - unfold copy. rewrite Hp. destruct (resource_of init past y) as [r|] eqn:E; [|congruence].
    eexists. split; [reflexivity|]. split; [exact Hd|].
    intros z. cbn. rewrite (Nat.eqb_sym x z). destruct (Nat.eqb z x); [symmetry; exact E|apply Hp].
  - rewrite Hp. destruct (resource_of init past x) as [r|] eqn:E; [|congruence].
    eexists. split; [reflexivity|]. split; [exact Hd|exact Hp].
Qed.

Lemma default_run_ok : forall init ops past s, agrees init past s -> proper init past ops ->
  exists s', default_run s ops = Ok (s', expected init past ops) /\ agrees init (rev ops ++ past) s'.
Proof.
  intros init. induction ops as [|o ops IH]; intros past s Ha Hp.
  - exists s. split; [reflexivity|exact Ha].
  - destruct Hp as [Ho Hp]. destruct (default_step_ok init past s o Ha Ho) as (s1 & E1 & A1).
    destruct (IH (o :: past) s1 A1 Hp) as (s2 & E2 & A2).
    exists s2. split.
    + cbn [default_run expected]. rewrite E1. cbn [bind]. rewrite E2. reflexivity.
    + cbn [rev]. rewrite <- app_assoc. exact A2.
Qed.

Lemma default_history : forall init ops, proper init [] ops ->
  exists s, default_run (at_start init) ops = Ok (s, expected init [] ops) /\
    forall x, pointer_of s x = resource_of init (rev ops) x.
Proof.
  intros init ops Hp. destruct (default_run_ok init ops [] (at_start init)) as (s & E & A & B).
  - split; reflexivity.
  - exact Hp.
  - rewrite app_nil_r in B. eauto.
Qed.

(** an object keeps its resource as long as it is not constructed anew *)
Lemma resource_of_later : forall init later past x,
  (forall o, In o later -> match o with DMake _ y | DMakeOn _ y _ | DCopy y _ => y <> x | _ => True end) ->
  resource_of init (rev later ++ past) x = resource_of init past x.
Proof.
  intros init later. induction later as [|o later IH] using rev_ind; intros past x H; [reflexivity|].
  rewrite rev_app_distr. cbn [rev app].
  assert (Ho : match o with DMake _ y | DMakeOn _ y _ | DCopy y _ => y <> x | _ => True end)
    by (apply H; apply in_or_app; right; left; reflexivity).
  assert (E : resource_of init (rev later ++ past) x = resource_of init past x)
    by (apply IH; intros o' H'; apply H; apply in_or_app; left; exact H').
  destruct o; cbn [resource_of]; try exact E; apply Nat.eqb_neq in Ho; rewrite Ho; exact E.
Qed.

Lemma made_without : forall init before k x later,
  proper init [] (before ++ DMake k x :: later) ->
  (forall o, In o later -> match o with DMake _ y | DMakeOn _ y _ | DCopy y _ => y <> x | _ => True end) ->
  exists s es, default_run (at_start init) (before ++ DMake k x :: later) = Ok (s, es) /\
    default_step s (DAsk x) = Ok (s, [DAsked x (default_after init (rev before))]).
Proof.
  intros init before k x later Hp Hl.
  destruct (default_history init _ Hp) as (s & E & B).
  exists s. eexists. split; [exact E|]. cbn [default_step]. rewrite B.
  rewrite rev_app_distr. cbn [rev]. rewrite <- app_assoc. cbn [app].
  rewrite resource_of_later by exact Hl. cbn [resource_of]. rewrite Nat.eqb_refl. reflexivity.
Qed.

(** ** Null default *)

Lemma default_after_nonnull : forall init past, init <> 0 -> (forall r, In (DSet r) past -> r <> 0) ->
  default_after init past <> 0.
Proof.
  intros init past Hi. induction past as [|o past IH]; intros H; cbn; [exact Hi|].
  destruct o; try (apply IH; intros q Hq; apply H; right; exact Hq).
  apply H. left. reflexivity.
Qed.

Lemma resource_of_nonnull : forall init past x r, init <> 0 ->
  (forall o, In o past -> match o with DSet q | DMakeOn _ _ q => q <> 0 | _ => True end) ->
  resource_of init past x = Some r -> r <> 0.
Proof.
  intros init past. induction past as [|o past IH]; intros x r Hi H E; [discriminate|].
  assert (H' : forall o, In o past -> match o with DSet q | DMakeOn _ _ q => q <> 0 | _ => True end)
    by (intros o' Ho'; apply H; right; exact Ho').
  destruct o as [q|k y|k y q|y z|y]; cbn [resource_of] in E.
  - eapply IH; eauto.
  - destruct (Nat.eqb y x); [|eapply IH; eauto]. injection E as <-.
    apply default_after_nonnull; [exact Hi|]. intros q Hq. exact (H' _ Hq).
  - destruct (Nat.eqb y x); [|eapply IH; eauto]. injection E as <-. exact (H _ (or_introl eq_refl)).
  - destruct (Nat.eqb y x); eapply IH; eauto.
  - eapply IH; eauto.
Qed.

Lemma allocator_usable : forall init ops x, proper init [] ops -> init <> 0 ->
  (forall o, In o ops -> match o with DSet q | DMakeOn _ _ q => q <> 0 | _ => True end) ->
  resource_of init (rev ops) x <> None ->
  exists s es r, default_run (at_start init) ops = Ok (s, es) /\ allocator_allocate s x = Ok r.
Proof.
  intros init ops x Hp Hi H Hx. destruct (default_history init ops Hp) as (s & E & B).
  destruct (resource_of init (rev ops) x) as [r|] eqn:R; [|congruence].
  exists s, (expected init [] ops), r. split; [exact E|].
  unfold allocator_allocate. rewrite B, R.
  assert (r <> 0).
  { eapply resource_of_nonnull; [exact Hi| |exact R]. intros o Ho. apply H. apply in_rev. exact Ho. }
  destruct (Z.eqb_spec r 0); [contradiction|reflexivity].
Qed.

Lemma allocator_usable_exact : forall init ops x r, proper init [] ops -> resource_of init (rev ops) x = Some r ->
  exists s es, default_run (at_start init) ops = Ok (s, es) /\
    (r <> 0 -> allocator_allocate s x = Ok r) /\ (r = 0 -> allocator_allocate s x = UB).
Proof.
  intros init ops x r Hp R. destruct (default_history init ops Hp) as (s & E & B).
  exists s, (expected init [] ops). split; [exact E|].
  unfold allocator_allocate. rewrite B, R. destruct (Z.eqb_spec r 0); split; intros; auto; contradiction.
Qed.

(** ** Start-up *)

Lemma startup_all_sys : forall sys l u z, In (u, z) (startup_run sys sys l) -> z = sys.
Proof.
  intros sys l. induction l as [|s l IH]; intros u z H; [contradiction|].
  destruct s as [|u' v']; cbn in H; [eapply IH; eauto|].
  destruct H as [H|H]; [injection H as _ <-; reflexivity|eapply IH; eauto].
Qed.

Lemma startup_split : forall sys l u z, In (u, z) (startup_run sys 0 l) ->
  z = sys \/ (z = 0 /\ exists before v after, l = before ++ Init u v :: after /\ ~ In InitDefault before).
Proof.
  intros sys l. induction l as [|s l IH]; intros u z H; [contradiction|].
  destruct s as [|u' v']; cbn in H.
  - left. eapply startup_all_sys; eauto.
  - destruct H as [H|H].
    + injection H as -> <-. right. split; [reflexivity|]. exists [], v', l. split; [reflexivity|intros []].
    + destruct (IH u z H) as [E|(E & before & v & after & El & Hn)]; [left; exact E|]. subst l.
      right. split; [exact E|]. exists (Init u' v' :: before), v, after.
      split; [reflexivity|]. intros [D|D]; [discriminate D|contradiction].
Qed.

Lemma startup_including : forall includes sys l u z, allowed includes l -> includes u = true ->
  In (u, z) (startup_run sys 0 l) -> z = sys.
Proof.
  intros includes sys l u z [Ha _] Hu H.
  destruct (startup_split sys l u z H) as [E|(_ & before & v & after & E & Hn)]; [exact E|].
  exfalso. apply Hn. eapply Ha; eauto.
Qed.

Lemma startup_exact : forall includes sys u, sys <> 0 ->
  ((forall l z, allowed includes l -> In (u, z) (startup_run sys 0 l) -> z = sys) <-> includes u = true).
Proof.
  intros includes sys u Hs. split.
  - intros H. destruct (includes u) eqn:E; [reflexivity|]. exfalso.
    assert (A : allowed includes [Init u 0; InitDefault]).
    { split.
      - intros [|a [|b [|c before]]] w v after Eq Hw; try discriminate Eq.
        injection Eq as <- <- <-. congruence.
      - intros [|a [|b [|c before]]] after Eq; try discriminate Eq.
        injection Eq as <- <-. cbn. split; [intros [D|D]; [discriminate D|contradiction]|tauto]. }
    specialize (H _ 0 A). apply Hs. symmetry. apply H. left. reflexivity.
  - intros H l z A I. eapply startup_including; eauto.
Qed.

Lemma startup_after : forall sys d before u v after,
  exists reads later, startup_run sys d (before ++ Init u v :: after) =
    reads ++ (u, if existsb is_init_default before then sys else d) :: later /\
    length reads = length (filter (fun x => negb (is_init_default x)) before).
Proof.
  intros sys d before u v after. revert d. induction before as [|[|w x] before IH]; intros d.
  - exists [], (startup_run sys d after). split; reflexivity.
  - destruct (IH sys) as (reads & later & E & L). exists reads, later. cbn. rewrite E. split; [|exact L].
    destruct (existsb is_init_default before); reflexivity.
  - destruct (IH d) as (reads & later & E & L). exists ((w, d) :: reads), later. cbn. rewrite E, L. split; reflexivity.
Qed.
Lemma startup_reads : forall sys before u v after,
  exists reads later, startup_run sys 0 (before ++ Init u v :: after) =
    reads ++ (u, if existsb is_init_default before then sys else 0) :: later /\
    length reads = length (filter (fun x => negb (is_init_default x)) before).
Proof. intros. apply startup_after. Qed.

(** ** Allocators of different types *)

Lemma from_same : forall T r, allocator_from T (AllocOf T r) = Some (AllocOf T r).
Proof. intros T r. unfold allocator_from. rewrite Nat.eqb_refl. reflexivity. Qed.

Lemma equal_same : forall T r q, allocators_equal (AllocOf T r) (AllocOf T q) = Some (r =? q) /\
  allocators_different (AllocOf T r) (AllocOf T q) = Some (negb (r =? q)).
Proof.
  intros T r q. unfold allocators_different, allocators_equal, resource_member, may_access.
  rewrite !Nat.eqb_refl. auto.
Qed.

Lemma no_conversion : forall T U r, T <> U -> allocator_from T (AllocOf U r) = None.
Proof.
  intros T U r H. unfold allocator_from, resource_member, may_access.
  rewrite (proj2 (Nat.eqb_neq U T)) by congruence.
  rewrite (proj2 (Nat.eqb_neq T U)) by congruence. reflexivity.
Qed.

Lemma no_comparison : forall T U r q, T <> U ->
  allocators_equal (AllocOf T r) (AllocOf U q) = None /\ allocators_different (AllocOf T r) (AllocOf U q) = None.
Proof.
  intros T U r q H. unfold allocators_different, allocators_equal, resource_member, may_access.
  rewrite (proj2 (Nat.eqb_neq T U)) by congruence. auto.
Qed.

Lemma allocators_exact : forall T U r q,
  (forall a, allocator_from T (AllocOf U r) = Some a <-> T = U /\ a = AllocOf T r) /\
  (forall b, allocators_equal (AllocOf T r) (AllocOf U q) = Some b <-> T = U /\ b = (r =? q)) /\
  (forall b, allocators_different (AllocOf T r) (AllocOf U q) = Some b <-> T = U /\ b = negb (r =? q)).
Proof.
  intros T U r q. destruct (Nat.eq_dec T U) as [<-|N].
  - rewrite from_same. destruct (equal_same T r q) as [-> ->].
    split; [|split]; intros x; (split; [intros [= <-]; auto|intros [_ ->]; reflexivity]).
  - rewrite (no_conversion T U r N). destruct (no_comparison T U r q N) as [-> ->].
    split; [|split]; intros x; (split; [discriminate|intros [E _]; contradiction]).
Qed.
