(** Lemmas about timers. *)

Require Import ZArith List Bool Lia Permutation.
Require Import Verif.Outcome Verif.Machine Verif.TimerSpec Verif.TimerModel.
Import ListNotations.
Open Scope Z_scope.

(** * Copying bytes *)

Lemma set_byte_length : forall l i v, length (set_byte l i v) = length l.
Proof. induction l as [|x l IH]; intros [|i] v; cbn; auto. Qed.
Lemma set_byte_nth : forall l i v j, (i < length l)%nat -> nth j (set_byte l i v) 0 = if Nat.eqb j i then v else nth j l 0.
Proof.
  induction l as [|x l IH]; intros [|i] v [|j] H; cbn in *; try lia; auto. apply IH. lia.
Qed.
Lemma copy_impl_length : forall is dst src, length (copy_impl is dst src) = length dst.
Proof. induction is as [|i is IH]; intros dst src; cbn [copy_impl]; [reflexivity|]. rewrite IH. apply set_byte_length. Qed.
Lemma copy_impl_nth : forall is dst src j, (forall i, In i is -> (i < length dst)%nat) ->
  nth j (copy_impl is dst src) 0 = if existsb (Nat.eqb j) is then nth j src 0 else nth j dst 0.
Proof.
  induction is as [|i is IH]; intros dst src j H; cbn [copy_impl existsb]; [reflexivity|].
  rewrite IH by (intros k K; rewrite set_byte_length; apply H; right; auto).
  destruct (existsb (Nat.eqb j) is); [rewrite orb_true_r; reflexivity|]. rewrite orb_false_r.
  rewrite set_byte_nth by (apply H; left; auto). destruct (Nat.eqb_spec j i) as [->|N]; reflexivity.
Qed.
Lemma copy_all : forall N dst src, length dst = N -> length src = N -> copy N dst src = src.
Proof.
  intros N dst src D S. unfold copy. apply nth_ext with 0 0; [rewrite copy_impl_length; congruence|].
  intros j J. rewrite copy_impl_length in J. rewrite copy_impl_nth.
  - assert (E : existsb (Nat.eqb j) (seq 0 N) = true).
    { apply existsb_exists. exists j. split; [apply in_seq; lia|apply Nat.eqb_refl]. }
    rewrite E. reflexivity.
  - intros i I. apply in_seq in I. lia.
Qed.

(** * Owners *)

Definition holds (t : timer) : list callable :=
  match callback_ t with Some (ty, n) => [(ty, firstn n (data_ t))] | None => [] end.

(** what the code makes of the owners *)
Definition really_after := keepers_after.

Record tinv (N : nat) (st : store) (l : list (nat * callable)) : Prop := {
  ti_len : forall s t, st s = Some t -> length (data_ t) = N;
  ti_own : forall s, owned_by l s = match st s with Some t => holds t | None => [] end
}.

Lemma holds_short : forall t, holds t = [] \/ exists c, holds t = [c].
Proof. intros t. unfold holds. destruct (callback_ t) as [[ty n]|]; eauto. Qed.

Lemma owned_cons : forall s c l u, owned_by ((s, c) :: l) u = if Nat.eqb s u then c :: owned_by l u else owned_by l u.
Proof. intros s c l u. unfold owned_by. cbn [filter fst]. destruct (Nat.eqb s u); reflexivity. Qed.

Lemma owned_filter : forall l d u, owned_by (filter (fun x => negb (Nat.eqb (fst x) d)) l) u =
  if Nat.eqb d u then [] else owned_by l u.
Proof.
  induction l as [|[s c] l IH]; intros d u; [destruct (Nat.eqb d u); reflexivity|].
  cbn [filter fst]. destruct (Nat.eqb_spec s d) as [->|N]; cbn [negb].
  - rewrite IH, owned_cons. destruct (Nat.eqb_spec d u); reflexivity.
  - rewrite !owned_cons, IH. destruct (Nat.eqb_spec d u) as [->|M]; [|reflexivity].
    destruct (Nat.eqb_spec s u); [contradiction|reflexivity].
Qed.

(** relabelling the owner [s] to [d], where nothing is owned by [d] *)
Lemma owned_relabel : forall l d s u, d <> s -> owned_by l d = [] ->
  owned_by (map (fun x => if Nat.eqb (fst x) s then (d, snd x) else x) l) u =
  if Nat.eqb d u then owned_by l s else if Nat.eqb s u then [] else owned_by l u.
Proof.
  induction l as [|[v c] l IH]; intros d s u N D.
  - destruct (Nat.eqb d u); [|destruct (Nat.eqb s u)]; reflexivity.
  - rewrite owned_cons in D. destruct (Nat.eqb_spec v d) as [->|V]; [discriminate D|].
    specialize (IH d s u N D). cbn [map fst snd]. rewrite (owned_cons v c l s).
    destruct (Nat.eqb_spec v s) as [->|W]; rewrite owned_cons, IH.
    + rewrite owned_cons. destruct (Nat.eqb_spec d u) as [->|X]; [reflexivity|]. destruct (Nat.eqb_spec s u) as [Y|Y]; reflexivity.
    + rewrite owned_cons. destruct (Nat.eqb_spec d u) as [->|X].
      * destruct (Nat.eqb_spec v u); [contradiction|]. reflexivity.
      * destruct (Nat.eqb_spec s u) as [->|Y]; [|reflexivity]. destruct (Nat.eqb_spec v u); [contradiction|reflexivity].
Qed.
Lemma relabel_same : forall (l : list (nat * callable)) s, map (fun x => if Nat.eqb (fst x) s then (s, snd x) else x) l = l.
Proof.
  induction l as [|[u c] l IH]; intros s; cbn [map fst snd]; [reflexivity|]. rewrite IH.
  destruct (Nat.eqb_spec u s) as [->|]; reflexivity.
Qed.

Lemma put_same : forall st s t, put st s t s = t.
Proof. intros. unfold put. rewrite Nat.eqb_refl. reflexivity. Qed.
Lemma put_other : forall st s t u, u <> s -> put st s t u = st u.
Proof. intros st s t u N. unfold put. apply Nat.eqb_neq in N. rewrite N. reflexivity. Qed.

Lemma firstn_app_all : forall (a b : list Z), firstn (length a) (a ++ b) = a.
Proof. intros. rewrite firstn_app, Nat.sub_diag, firstn_all. cbn. apply app_nil_r. Qed.

Lemma step_inv : forall N st l o st' a, tinv N st l -> timer_step N st o = Ok (st', a) ->
  tinv N st' (really_after l o) /\
  calls_seen a = match o with TDestroy s => map (fun c => (s, c)) (owned_by l s) | _ => [] end.
Proof.
  intros N st l o st' a [L O] H. destruct o as [s now c|d s|d s|s now|s|s tick now|s]; cbn [timer_step] in H.
  - destruct (st s) eqn:E; [discriminate H|]. destruct (timer_new N now c) as [t|] eqn:T; [|discriminate H].
    injection H as <- <-. split; [|reflexivity]. unfold timer_new in T. destruct c as [ty bytes].
    destruct (Nat.leb_spec (length bytes) N) as [B|B]; [|discriminate T]. injection T as <-. constructor.
    + intros u t U. destruct (Nat.eq_dec u s) as [->|Us].
      * rewrite put_same in U. injection U as <-. cbn [data_]. rewrite app_length, skipn_length. unfold zeros. rewrite repeat_length. lia.
      * rewrite put_other in U by auto. eauto.
    + intros u. unfold really_after; cbn [keepers_after owners_after]; unfold forget. rewrite owned_cons. destruct (Nat.eqb_spec s u) as [<-|Us].
      * rewrite put_same, O, E. unfold holds. cbn [callback_ data_]. rewrite firstn_app_all. reflexivity.
      * rewrite put_other by auto. apply O.
  - destruct (st d) eqn:Ed; [discriminate H|]. destruct (st s) as [other|] eqn:Es; [|discriminate H].
    cbn [timer_move] in H. injection H as <- <-. split; [|reflexivity].
    assert (N1 : d <> s) by congruence. assert (Lo := L s other Es).
    rewrite copy_all by (auto; unfold zeros; apply repeat_length). constructor.
    + intros u t U. destruct (Nat.eq_dec u d) as [->|Ud].
      * rewrite put_same in U. injection U as <-. exact Lo.
      * rewrite put_other in U by auto. destruct (Nat.eq_dec u s) as [->|Us].
        -- rewrite put_same in U. injection U as <-. exact Lo.
        -- rewrite put_other in U by auto. eauto.
    + intros u. unfold really_after; cbn [keepers_after owners_after]; unfold forget. rewrite owned_relabel by (auto; rewrite O, Ed; reflexivity).
      destruct (Nat.eqb_spec d u) as [<-|Ud]; [rewrite put_same, O, Es; reflexivity|]. rewrite put_other by auto.
      destruct (Nat.eqb_spec s u) as [<-|Us]; [rewrite put_same; reflexivity|]. rewrite put_other by auto. apply O.
  - destruct (st d) as [this|] eqn:Ed; [|discriminate H]. destruct (st s) as [other|] eqn:Es; [|discriminate H].
    assert (Lo := L s other Es). assert (Lt := L d this Ed).
    destruct (Nat.eqb_spec d s) as [->|N1].
    + injection H as <- <-. split; [|reflexivity]. unfold timer_assign_self. rewrite copy_all by auto. constructor.
      * intros u t U. destruct (Nat.eq_dec u s) as [->|Us].
        -- rewrite put_same in U. injection U as <-. exact Lt.
        -- rewrite put_other in U by auto. eauto.
      * intros u. unfold really_after; cbn [keepers_after owners_after]; unfold forget. rewrite relabel_same, owned_filter.
        destruct (Nat.eqb_spec s u) as [<-|Us]; [rewrite put_same; reflexivity|]. rewrite put_other by auto. apply O.
    + cbn [timer_assign] in H. injection H as <- <-. split; [|reflexivity]. rewrite copy_all by auto. constructor.
      * intros u t U. destruct (Nat.eq_dec u d) as [->|Ud].
        -- rewrite put_same in U. injection U as <-. exact Lo.
        -- rewrite put_other in U by auto. destruct (Nat.eq_dec u s) as [->|Us].
           ++ rewrite put_same in U. injection U as <-. exact Lo.
           ++ rewrite put_other in U by auto. eauto.
      * intros u. unfold really_after; cbn [keepers_after owners_after]; unfold forget. rewrite owned_relabel by (auto; rewrite owned_filter, Nat.eqb_refl; reflexivity).
        rewrite !owned_filter. destruct (Nat.eqb_spec d s); [contradiction|].
        destruct (Nat.eqb_spec d u) as [<-|Ud]; [rewrite put_same, O, Es; reflexivity|]. rewrite put_other by auto.
        destruct (Nat.eqb_spec s u) as [<-|Us]; [rewrite put_same; reflexivity|]. rewrite put_other by auto. apply O.
  - destruct (st s) as [t|] eqn:E; [|discriminate H]. injection H as <- <-. split; [|reflexivity]. constructor.
    + intros u t' U. destruct (Nat.eq_dec u s) as [->|Us].
      * rewrite put_same in U. injection U as <-. cbn. eauto.
      * rewrite put_other in U by auto. eauto.
    + intros u. unfold really_after; cbn [keepers_after owners_after]; unfold forget. rewrite O. destruct (Nat.eq_dec u s) as [->|Us].
      * rewrite put_same, E. reflexivity.
      * rewrite put_other by auto. reflexivity.
  - destruct (st s) as [t|] eqn:E; [|discriminate H]. injection H as <- <-. split; [constructor; auto|reflexivity].
  - destruct (st s) as [t|] eqn:E; [|discriminate H]. apply bind_ok in H. destruct H as [v [_ H]].
    injection H as <- <-. split; [constructor; auto|reflexivity].
  - destruct (st s) as [t|] eqn:E; [|discriminate H]. injection H as <- <-. split.
    + constructor.
      * intros u t' U. destruct (Nat.eq_dec u s) as [->|Us]; [rewrite put_same in U; discriminate U|].
        rewrite put_other in U by auto. eauto.
      * intros u. unfold really_after; cbn [keepers_after owners_after]; unfold forget. rewrite owned_filter. destruct (Nat.eqb_spec s u) as [<-|Us].
        -- rewrite put_same. reflexivity.
        -- rewrite put_other by auto. apply O.
    + rewrite O, E. unfold timer_destroy, holds. destruct (callback_ t) as [[ty n]|]; reflexivity.
Qed.

(** * Conservation *)

Lemma split_owner : forall (l : list (nat * callable)) d, Permutation (map snd l)
  (owned_by l d ++ map snd (filter (fun x => negb (Nat.eqb (fst x) d)) l)).
Proof.
  induction l as [|[s c] l IH]; intros d; [constructor|]. rewrite owned_cons. cbn [map snd filter fst].
  destruct (Nat.eqb_spec s d); cbn [negb map snd app].
  - apply perm_skip. apply IH.
  - rewrite (IH d) at 1. apply Permutation_middle.
Qed.
Lemma relabel_snd : forall (l : list (nat * callable)) d s,
  map snd (map (fun x => if Nat.eqb (fst x) s then (d, snd x) else x) l) = map snd l.
Proof.
  intros l d s. rewrite map_map. apply map_ext. intros [u c]. cbn. destruct (Nat.eqb u s); reflexivity.
Qed.

Definition lost_by (l : list (nat * callable)) (o : top) : list callable :=
  match o with TAssign d _ => owned_by l d | _ => [] end.
Lemma conserve : forall l o,
  Permutation (given [o] ++ map snd l)
    (match o with TDestroy s => owned_by l s | _ => [] end ++ lost_by l o ++ map snd (really_after l o)).
Proof.
  intros l o. unfold given, flat_map, lost_by, really_after, keepers_after, forget, owners_after.
  destruct o as [s now c|d s|d s|s now|s|s tick now|s]; cbn [app map snd]; rewrite ?relabel_snd; auto.
  - apply split_owner.
  - apply split_owner.
Qed.

Lemma called_seen : forall es, called es = map snd (calls_seen es).
Proof.
  induction es as [|e es IH]; [reflexivity|]. destruct e; cbn [called calls_seen flat_map app map snd] in *;
    try (f_equal); exact IH.
Qed.
Lemma calls_seen_app : forall a b, calls_seen (a ++ b) = calls_seen a ++ calls_seen b.
Proof. intros. unfold calls_seen. apply flat_map_app. Qed.
Lemma called_app : forall a b, called (a ++ b) = called a ++ called b.
Proof. intros. unfold called. apply flat_map_app. Qed.

Lemma given_cons : forall o ops, given (o :: ops) = given [o] ++ given ops.
Proof. intros. unfold given. rewrite <- flat_map_app. reflexivity. Qed.

Lemma run_conserves : forall N ops st l st' es, tinv N st l -> timer_run N st ops = Ok (st', es) ->
  exists l' lost, tinv N st' l' /\ Permutation (given ops ++ map snd l) (called es ++ lost ++ map snd l').
Proof.
  intros N. induction ops as [|o ops IH]; intros st l st' es I H; cbn [timer_run] in H.
  - injection H as <- <-. exists l, []. split; [exact I|]. cbn. auto.
  - apply bind_ok in H. destruct H as [[st1 a] [H1 H2]]. apply bind_ok in H2. destruct H2 as [[st2 b] [H2 H3]].
    injection H3 as <- <-. destruct (step_inv _ _ _ _ _ _ I H1) as [I1 C1].
    destruct (IH _ _ _ _ I1 H2) as [l' [lost [I2 P]]]. exists l', (lost_by l o ++ lost). split; [exact I2|].
    assert (K := conserve l o).
    assert (CA : called a = match o with TDestroy s => owned_by l s | _ => [] end).
    { rewrite called_seen, C1. destruct o; try reflexivity. rewrite map_map. cbn. apply map_id. }
    rewrite called_app, CA. rewrite given_cons.
    rewrite <- app_assoc, (Permutation_app_comm (given ops)), app_assoc, K. rewrite <- !app_assoc.
    apply Permutation_app_head.
    rewrite (Permutation_app_comm (map snd (really_after l o))), P.
    rewrite !app_assoc. apply Permutation_app_tail. apply Permutation_app_tail. apply Permutation_app_comm.
Qed.

Lemma tinv_start : forall N, tinv N no_timers [].
Proof. intros N. constructor; [discriminate|]. reflexivity. Qed.

Lemma at_most_once : forall N ops st es, timer_run N no_timers ops = Ok (st, es) ->
  exists rest, Permutation (given ops) (called es ++ rest).
Proof.
  intros N ops st es H. destruct (run_conserves _ _ _ _ _ _ (tinv_start N) H) as [l' [lost [_ P]]].
  cbn [map] in P. rewrite app_nil_r in P. eauto.
Qed.

(** without overwriting *)
Lemma filter_none : forall (l : list (nat * callable)) d, ~ In d (map fst l) ->
  filter (fun x => negb (Nat.eqb (fst x) d)) l = l.
Proof.
  induction l as [|[s c] l IH]; intros d H; [reflexivity|]. cbn [filter fst map In] in *.
  destruct (Nat.eqb_spec s d) as [->|]; [tauto|]. cbn. rewrite IH by tauto. reflexivity.
Qed.
Lemma owned_none : forall (l : list (nat * callable)) d, ~ In d (map fst l) -> owned_by l d = [].
Proof.
  induction l as [|[s c] l IH]; intros d H; [reflexivity|]. rewrite owned_cons. cbn [map fst In] in H.
  destruct (Nat.eqb_spec s d) as [->|]; [tauto|]. apply IH. tauto.
Qed.
Lemma really_owners : forall l o, match o with TAssign d _ => ~ In d (map fst l) | _ => True end ->
  really_after l o = owners_after l o /\ lost_by l o = [].
Proof.
  intros l o H. destruct o; try (split; reflexivity). unfold really_after, keepers_after, forget. cbn [lost_by]. rewrite filter_none by auto.
  split; [reflexivity|]. apply owned_none. auto.
Qed.

Lemma run_owners : forall N ops st l st' es, tinv N st l -> timer_run N st ops = Ok (st', es) -> no_overwrite l ops ->
  tinv N st' (fold_left owners_after ops l) /\ calls_seen es = expected_calls l ops /\
  Permutation (given ops ++ map snd l) (called es ++ map snd (fold_left owners_after ops l)).
Proof.
  intros N. induction ops as [|o ops IH]; intros st l st' es I H W; cbn [timer_run] in H.
  - injection H as <- <-. cbn. auto.
  - apply bind_ok in H. destruct H as [[st1 a] [H1 H2]]. apply bind_ok in H2. destruct H2 as [[st2 b] [H2 H3]].
    injection H3 as <- <-. cbn [no_overwrite] in W. destruct W as [W1 W2].
    destruct (step_inv _ _ _ _ _ _ I H1) as [I1 C1]. destruct (really_owners l o W1) as [RO LO]. rewrite RO in I1.
    destruct (IH _ _ _ _ I1 H2 W2) as [I2 [C2 P]]. cbn [fold_left expected_calls].
    split; [exact I2|]. split; [rewrite calls_seen_app, C1, C2; reflexivity|].
    assert (K := conserve l o). rewrite RO, LO in K. cbn [app] in K.
    assert (CA : called a = match o with TDestroy s => owned_by l s | _ => [] end).
    { rewrite called_seen, C1. destruct o; try reflexivity. rewrite map_map. cbn. apply map_id. }
    rewrite called_app, CA. rewrite given_cons.
    rewrite <- app_assoc, (Permutation_app_comm (given ops)), app_assoc, K. rewrite <- !app_assoc.
    apply Permutation_app_head. rewrite (Permutation_app_comm (map snd (owners_after l o))). exact P.
Qed.

Lemma owners_dead : forall l, (forall s, owned_by l s = []) -> l = [].
Proof.
  intros [|[s c] l] H; [reflexivity|]. specialize (H s). rewrite owned_cons, Nat.eqb_refl in H. discriminate H.
Qed.

Lemma callbacks_once : forall N ops st es, timer_run N no_timers ops = Ok (st, es) -> no_overwrite [] ops ->
  calls_seen es = expected_calls [] ops /\
  Permutation (given ops) (called es ++ map snd (owners ops)) /\
  (forall s, (length (owned_by (owners ops) s) <= 1)%nat) /\
  ((forall s, st s = None) -> Permutation (given ops) (called es)).
Proof.
  intros N ops st es H W. destruct (run_owners _ _ _ _ _ _ (tinv_start N) H W) as [[_ O] [C P]].
  fold (owners ops) in *. cbn [map] in P. rewrite app_nil_r in P. split; [exact C|]. split; [exact P|]. split.
  - intros s. rewrite O. destruct (st s) as [t|]; cbn; [|lia]. destruct (holds_short t) as [->|[c ->]]; cbn; lia.
  - intros D. rewrite (owners_dead (owners ops)) in P; [cbn in P; rewrite app_nil_r in P; exact P|].
    intros s. rewrite O, D. reflexivity.
Qed.

(** every history: calls, and what becomes of each callable *)
Lemma run_keepers : forall N ops st l st' es, tinv N st l -> timer_run N st ops = Ok (st', es) ->
  tinv N st' (fold_left keepers_after ops l) /\ calls_seen es = kept_calls l ops /\
  Permutation (given ops ++ map snd l) (called es ++ forgotten l ops ++ map snd (fold_left keepers_after ops l)).
Proof.
  intros N. induction ops as [|o ops IH]; intros st l st' es I H; cbn [timer_run] in H.
  - injection H as <- <-. cbn. auto.
  - apply bind_ok in H. destruct H as [[st1 a] [H1 H2]]. apply bind_ok in H2. destruct H2 as [[st2 b] [H2 H3]].
    injection H3 as <- <-. destruct (step_inv _ _ _ _ _ _ I H1) as [I1 C1].
    destruct (IH _ _ _ _ I1 H2) as [I2 [C2 P]]. cbn [fold_left kept_calls forgotten]. unfold really_after in *.
    split; [exact I2|]. split; [rewrite calls_seen_app, C1, C2; reflexivity|].
    assert (K := conserve l o). unfold really_after in K.
    assert (CA : called a = match o with TDestroy s => owned_by l s | _ => [] end).
    { rewrite called_seen, C1. destruct o; try reflexivity. rewrite map_map. cbn. apply map_id. }
    rewrite called_app, CA. rewrite given_cons. fold (lost_by l o).
    rewrite <- app_assoc, (Permutation_app_comm (given ops)), app_assoc, K. rewrite <- !app_assoc.
    apply Permutation_app_head.
    rewrite (Permutation_app_comm (map snd (keepers_after l o))), P.
    rewrite !app_assoc. apply Permutation_app_tail. apply Permutation_app_tail. apply Permutation_app_comm.
Qed.

Lemma keepers_exact : forall N ops st es, timer_run N no_timers ops = Ok (st, es) ->
  calls_seen es = kept_calls [] ops /\
  Permutation (given ops) (called es ++ forgotten [] ops ++ map snd (keepers ops)) /\
  ((forall s, st s = None) -> (Permutation (given ops) (called es) <-> forgotten [] ops = [])).
Proof.
  intros N ops st es H. destruct (run_keepers _ _ _ _ _ _ (tinv_start N) H) as [I [C P]].
  cbn [map] in P. rewrite app_nil_r in P. fold (keepers ops) in I, P.
  split; [exact C|]. split; [exact P|]. intros Q.
  assert (E : keepers ops = []).
  { apply owners_dead. intros s. rewrite (ti_own _ _ _ I s), Q. reflexivity. }
  rewrite E in P. cbn [map] in P. rewrite app_nil_r in P. split.
  - intros P2. rewrite P in P2. apply Permutation_length in P2. rewrite app_length in P2.
    destruct (forgotten [] ops); [reflexivity|cbn in P2; lia].
  - intros F. rewrite F, app_nil_r in P. exact P.
Qed.

Lemma overwritten_lost : forall c0 c1 : callable, length (snd c0) = 8%nat -> length (snd c1) = 8%nat ->
  exists st, timer_run 8 no_timers [TNew 0 1 c0; TNew 1 2 c1; TAssign 0 1; TDestroy 1; TDestroy 0] =
    Ok (st, [TCalled 0 c1 2]) /\ forall s, st s = None.
Proof.
  intros [t0 b0] [t1 b1] L0 L1. cbn [snd] in *.
  do 9 (destruct b0 as [|? b0]; try discriminate L0). do 9 (destruct b1 as [|? b1]; try discriminate L1).
  eexists. split; [vm_compute; reflexivity|]. intros [|[|s]]; reflexivity.
Qed.
Lemma self_lost : forall c : callable, length (snd c) = 8%nat ->
  exists st, timer_run 8 no_timers [TNew 0 1 c; TAssign 0 0; TDestroy 0] = Ok (st, []) /\ forall s, st s = None.
Proof.
  intros [t b] L. cbn [snd] in *. do 9 (destruct b as [|? b]; try discriminate L).
  eexists. split; [vm_compute; reflexivity|]. intros [|[|s]]; reflexivity.
Qed.

(** * Moving *)

Lemma destroy_shape : forall s t, timer_destroy s t = map (fun c => TCalled s c (start_ t)) (holds t).
Proof. intros s t. unfold timer_destroy, holds. destruct (callback_ t) as [[ty n]|]; reflexivity. Qed.

Lemma move_transfers : forall N ops st es d s o st' ev, timer_run N no_timers ops = Ok (st, es) ->
  (o = TMove d s \/ (o = TAssign d s /\ d <> s)) -> timer_step N st o = Ok (st', ev) ->
  ev = [] /\ exists z cs,
    timer_step N st (TStart s) = Ok (st, [TStarted s z]) /\
    timer_step N st' (TStart d) = Ok (st', [TStarted d z]) /\
    (exists st1, timer_step N st (TDestroy s) = Ok (st1, map (fun c => TCalled s c z) cs)) /\
    (exists st2, timer_step N st' (TDestroy d) = Ok (st2, map (fun c => TCalled d c z) cs)) /\
    (exists st3, timer_step N st' (TDestroy s) = Ok (st3, [])) /\
    forall u, u <> d -> u <> s -> st' u = st u.
Proof.
  intros N ops st es d s o st' ev H O E.
  destruct (run_conserves _ _ _ _ _ _ (tinv_start N) H) as [l' [_ [[L _] _]]].
  destruct O as [->|[-> N1]]; cbn [timer_step] in E.
  - destruct (st d) eqn:Ed; [discriminate E|]. destruct (st s) as [other|] eqn:Es; [|discriminate E].
    cbn [timer_move] in E. injection E as <- <-. assert (N1 : d <> s) by congruence.
    rewrite copy_all by (eauto; unfold zeros; apply repeat_length).
    split; [reflexivity|]. exists (start_ other), (holds other). cbn [timer_step]. rewrite Es, put_same.
    rewrite (put_other _ d _ s) by auto. rewrite put_same. split; [reflexivity|]. split; [reflexivity|].
    split; [eexists; rewrite destroy_shape; reflexivity|].
    split; [eexists; rewrite destroy_shape; reflexivity|]. split; [eexists; reflexivity|].
    intros u U1 U2. rewrite !put_other by auto. reflexivity.
  - destruct (st d) as [this|] eqn:Ed; [|discriminate E]. destruct (st s) as [other|] eqn:Es; [|discriminate E].
    destruct (Nat.eqb_spec d s); [contradiction|]. cbn [timer_assign] in E. injection E as <- <-.
    rewrite copy_all by eauto.
    split; [reflexivity|]. exists (start_ other), (holds other). cbn [timer_step]. rewrite Es, put_same.
    rewrite (put_other _ d _ s) by auto. rewrite put_same. split; [reflexivity|]. split; [reflexivity|].
    split; [eexists; rewrite destroy_shape; reflexivity|].
    split; [eexists; rewrite destroy_shape; reflexivity|]. split; [eexists; reflexivity|].
    intros u U1 U2. rewrite !put_other by auto. reflexivity.
Qed.

Lemma self_move_exact : forall N st s st' ev, timer_step N st (TAssign s s) = Ok (st', ev) ->
  ev = [] /\ exists z cs,
    timer_step N st (TStart s) = Ok (st, [TStarted s z]) /\
    timer_step N st' (TStart s) = Ok (st', [TStarted s z]) /\
    (exists st1, timer_step N st (TDestroy s) = Ok (st1, map (fun c => TCalled s c z) cs)) /\
    (exists st2, timer_step N st' (TDestroy s) = Ok (st2, [])) /\
    forall u, u <> s -> st' u = st u.
Proof.
  intros N st s st' ev E. cbn [timer_step] in E. destruct (st s) as [t|] eqn:Es; [|discriminate E].
  rewrite Nat.eqb_refl in E. injection E as <- <-. split; [reflexivity|]. exists (start_ t), (holds t).
  cbn [timer_step]. rewrite Es, put_same. split; [reflexivity|]. split; [reflexivity|].
  split; [eexists; rewrite destroy_shape; reflexivity|]. split; [eexists; reflexivity|].
  intros u U. apply put_other. auto.
Qed.

Lemma reset_only_start : forall N st s now st' ev, timer_step N st (TReset s now) = Ok (st', ev) ->
  ev = [] /\ timer_step N st' (TStart s) = Ok (st', [TStarted s now]) /\
  (exists z cs st1 st2, timer_step N st (TDestroy s) = Ok (st1, map (fun c => TCalled s c z) cs) /\
     timer_step N st' (TDestroy s) = Ok (st2, map (fun c => TCalled s c now) cs)) /\
  forall u, u <> s -> st' u = st u.
Proof.
  intros N st s now st' ev H. cbn [timer_step] in *. destruct (st s) as [t|] eqn:E; [|discriminate H].
  injection H as <- <-. rewrite put_same. split; [reflexivity|]. split; [reflexivity|]. split.
  - exists (start_ t), (holds t). eexists _, _. rewrite !destroy_shape. split; reflexivity.
  - intros u U. apply put_other. auto.
Qed.

(** * Time *)

Definition sinv (st : store) (ops : list top) : Prop :=
  forall s t, st s = Some t -> start_ t = started ops s /\ In (start_ t) (readings ops).

Lemma started_app : forall ops o s, started (ops ++ [o]) s =
  match o with
  | TNew u now _ | TReset u now => if Nat.eqb u s then now else started ops s
  | TMove d u | TAssign d u => if Nat.eqb d s then started ops u else started ops s
  | _ => started ops s
  end.
Proof.
  intros ops o s. unfold started. rewrite fold_left_app. cbn [fold_left]. destruct o; cbn [starts_after find_start]; reflexivity.
Qed.
Lemma readings_app : forall a b, readings (a ++ b) = readings a ++ readings b.
Proof. intros. unfold readings. apply flat_map_app. Qed.

Lemma sinv_step : forall N st ops o st' ev, sinv st ops -> timer_step N st o = Ok (st', ev) -> sinv st' (ops ++ [o]).
Proof.
  intros N st ops o st' ev I H s t E. rewrite readings_app.
  assert (OLD : forall s t, st s = Some t -> start_ t = started ops s /\ In (start_ t) (readings ops ++ readings [o])).
  { intros u v V. destruct (I u v V). split; auto. apply in_or_app. auto. }
  rewrite started_app. destruct o as [u now c|d u|d u|u now|u|u tick now|u]; cbn [timer_step] in H.
  - destruct (st u) eqn:Eu; [discriminate H|]. destruct (timer_new N now c) as [t'|] eqn:T; [|discriminate H].
    injection H as <- <-. destruct (Nat.eqb_spec u s) as [<-|Us].
    + rewrite put_same in E. injection E as <-. unfold timer_new in T. destruct c as [ty b].
      destruct (Nat.leb _ _); [|discriminate T]. injection T as <-. split; [reflexivity|]. apply in_or_app. right. left. reflexivity.
    + rewrite put_other in E by auto. auto.
  - destruct (st d) eqn:Ed; [discriminate H|]. destruct (st u) as [other|] eqn:Eu; [|discriminate H].
    cbn [timer_move] in H. injection H as <- <-. destruct (OLD u other Eu) as [O1 O2].
    destruct (Nat.eqb_spec d s) as [<-|Us]; [rewrite put_same in E; injection E as <-; auto|].
    rewrite put_other in E by auto. destruct (Nat.eq_dec s u) as [->|Su].
    + rewrite put_same in E. injection E as <-. auto.
    + rewrite put_other in E by auto. auto.
  - destruct (st d) as [this|] eqn:Ed; [|discriminate H]. destruct (st u) as [other|] eqn:Eu; [|discriminate H].
    destruct (OLD u other Eu) as [O1 O2]. destruct (Nat.eqb_spec d u) as [->|N1].
    + injection H as <- <-. rewrite Ed in Eu. injection Eu as ->. destruct (Nat.eqb_spec u s) as [<-|Us].
      * rewrite put_same in E. injection E as <-. auto.
      * rewrite put_other in E by auto. auto.
    + cbn [timer_assign] in H. injection H as <- <-.
      destruct (Nat.eqb_spec d s) as [<-|Us]; [rewrite put_same in E; injection E as <-; auto|].
      rewrite put_other in E by auto. destruct (Nat.eq_dec s u) as [->|Su].
      * rewrite put_same in E. injection E as <-. auto.
      * rewrite put_other in E by auto. auto.
  - destruct (st u) as [t'|] eqn:Eu; [|discriminate H]. injection H as <- <-. destruct (Nat.eqb_spec u s) as [<-|Us].
    + rewrite put_same in E. injection E as <-. split; [reflexivity|]. apply in_or_app. right. left. reflexivity.
    + rewrite put_other in E by auto. auto.
  - destruct (st u) as [t'|] eqn:Eu; [|discriminate H]. injection H as <- <-. auto.
  - destruct (st u) as [t'|] eqn:Eu; [|discriminate H]. apply bind_ok in H. destruct H as [v [_ H]]. injection H as <- <-. auto.
  - destruct (st u) as [t'|] eqn:Eu; [|discriminate H]. injection H as <- <-.
    destruct (Nat.eq_dec s u) as [->|Su]; [rewrite put_same in E; discriminate E|]. rewrite put_other in E by auto. auto.
Qed.

Lemma sinv_run : forall N ops st pre st' es, sinv st pre -> timer_run N st ops = Ok (st', es) -> sinv st' (pre ++ ops).
Proof.
  intros N. induction ops as [|o ops IH]; intros st pre st' es I H; cbn [timer_run] in H.
  - injection H as <- <-. rewrite app_nil_r. exact I.
  - apply bind_ok in H. destruct H as [[st1 a] [H1 H2]]. apply bind_ok in H2. destruct H2 as [[st2 b] [H2 H3]].
    injection H3 as <- <-. change (o :: ops) with ([o] ++ ops). rewrite app_assoc. eapply IH; [|exact H2].
    eapply sinv_step; eauto.
Qed.

Lemma steady_last : forall l now x, steady (l ++ [now]) -> In x l -> 0 <= x <= now /\ now < 2 ^ 63.
Proof.
  intros l now x [B A] I. assert (B1 := B x ltac:(apply in_or_app; auto)).
  assert (B2 := B now ltac:(apply in_or_app; right; left; reflexivity)).
  apply in_split in I. destruct I as [l1 [l2 ->]]. assert (A1 := A l1 x l2 now []).
  rewrite <- app_assoc in A1. specialize (A1 eq_refl). lia.
Qed.

Lemma quot_ticks : forall d tick, 0 <= d -> 0 < tick -> whole_ticks tick d (Z.quot d tick).
Proof.
  intros d tick D T. rewrite Z.quot_div_nonneg by lia. unfold whole_ticks.
  assert (H := Z.div_mod d tick ltac:(lia)). assert (M := Z.mod_pos_bound d tick T).
  assert (P := Z.div_pos d tick D T). lia.
Qed.

Lemma unit_pos : forall tick, unit_tick tick -> 0 < tick.
Proof. unfold unit_tick. lia. Qed.

Lemma leaked_exact : forall N ops st es s tick now, timer_run N no_timers ops = Ok (st, es) -> st s <> None ->
  steady (readings ops ++ [now]) -> unit_tick tick ->
  exists v, timer_step N st (TLeaked s tick now) = Ok (st, [TRead s tick now v]) /\
    whole_ticks tick (now - started ops s) v.
Proof.
  intros N ops st es s tick now H A S U.
  assert (I : sinv st ops) by (apply (sinv_run N ops no_timers [] st es); [intros u t; discriminate|exact H]).
  cbn [timer_step]. destruct (st s) as [t|] eqn:E; [|contradiction]. destruct (I s t E) as [I1 I2].
  destruct (steady_last _ _ _ S I2) as [B1 B2]. unfold leaked_in, leaked, arith. cbn [sgn].
  assert (Y : intyb i64 (now - start_ t) = true).
  { unfold intyb, minv, maxv. cbn [sgn bits i64]. apply andb_true_intro. split; apply Z.leb_le; lia. }
  rewrite Y. cbn [i64 sgn bind]. eexists. split; [reflexivity|]. rewrite <- I1. apply quot_ticks; [lia|apply unit_pos; auto].
Qed.

Lemma leaves_started : forall s mid ops, Forall (leaves s) mid -> started (ops ++ mid) s = started ops s.
Proof.
  intros s. induction mid as [|o mid IH]; intros ops F; [rewrite app_nil_r; reflexivity|].
  inversion F as [|? ? F1 F2]; subst. change (o :: mid) with ([o] ++ mid). rewrite app_assoc, IH by auto.
  rewrite started_app. destruct o; cbn [leaves] in F1; try reflexivity;
    match goal with N : ?a <> s |- context[Nat.eqb ?a s] => apply Nat.eqb_neq in N; rewrite N; reflexivity end.
Qed.

Lemma ticks_mono : forall tick a b v w, 0 < tick -> a <= b -> whole_ticks tick a v -> whole_ticks tick b w -> v <= w.
Proof. unfold whole_ticks. intros. nia. Qed.

Lemma run_app : forall N a b st, timer_run N st (a ++ b) =
  bind (timer_run N st a) (fun r => let (s1, e1) := r in bind (timer_run N s1 b) (fun r2 => let (s2, e2) := r2 in Ok (s2, e1 ++ e2))).
Proof.
  intros N a b. induction a as [|o a IH]; intros st.
  - cbn. destruct (timer_run N st b) as [[s2 e2]| | |]; reflexivity.
  - cbn [app timer_run]. destruct (timer_step N st o) as [[s1 e]| | |]; cbn [bind]; auto.
    rewrite IH. destruct (timer_run N s1 a) as [[s2 e2]| | |]; cbn [bind]; auto.
    destruct (timer_run N s2 b) as [[s3 e3]| | |]; cbn [bind]; auto. rewrite app_assoc. reflexivity.
Qed.

Lemma steady_sub : forall a b c, steady (a ++ b ++ c) -> steady (a ++ c).
Proof.
  intros a b c [B A]. split.
  - intros x I. apply B. apply in_app_iff in I. rewrite !in_app_iff. tauto.
  - assert (P : forall x y, (exists l1 l2 l3, a ++ c = l1 ++ x :: l2 ++ y :: l3) -> exists l1 l2 l3, a ++ b ++ c = l1 ++ x :: l2 ++ y :: l3).
    { clear A B. induction a as [|z a IH]; intros x y [l1 [l2 [l3 E]]]; cbn [app] in *.
      - exists (b ++ l1), l2, l3. rewrite E. rewrite app_assoc. reflexivity.
      - destruct l1 as [|w l1]; cbn [app] in E; injection E as -> E.
        + assert (I : In y (a ++ c)) by (rewrite E; apply in_or_app; right; left; reflexivity).
          assert (I2 : In y (a ++ b ++ c)) by (rewrite !in_app_iff in *; tauto).
          apply in_split in I2. destruct I2 as [m1 [m2 E2]]. exists [], m1, m2. cbn. rewrite E2. reflexivity.
        + destruct (IH x y) as [m1 [m2 [m3 E2]]]; [eauto|]. exists (w :: m1), m2, m3. cbn. rewrite E2. reflexivity. }
    intros l1 x l2 y l3 E. destruct (P x y) as [m1 [m2 [m3 E2]]]; [eauto|]. apply (A m1 x m2 y m3 E2).
Qed.

Lemma leaked_monotone : forall N pre st es s tick n1 v1 mid st2 es2 n2 v2,
  timer_run N no_timers pre = Ok (st, es) ->
  timer_step N st (TLeaked s tick n1) = Ok (st, [TRead s tick n1 v1]) ->
  timer_run N st mid = Ok (st2, es2) -> Forall (leaves s) mid ->
  timer_step N st2 (TLeaked s tick n2) = Ok (st2, [TRead s tick n2 v2]) ->
  steady (readings pre ++ [n1] ++ readings mid ++ [n2]) -> unit_tick tick -> 0 <= v1 <= v2.
Proof.
  intros N pre st es s tick n1 v1 mid st2 es2 n2 v2 H1 L1 H2 F L2 S U.
  assert (A1 : st s <> None) by (cbn [timer_step] in L1; destruct (st s); [discriminate|discriminate L1]).
  assert (A2 : st2 s <> None) by (cbn [timer_step] in L2; destruct (st2 s); [discriminate|discriminate L2]).
  assert (H12 : timer_run N no_timers (pre ++ mid) = Ok (st2, es ++ es2)).
  { rewrite run_app, H1. cbn [bind]. rewrite H2. reflexivity. }
  assert (S1 : steady (readings pre ++ [n1])).
  { rewrite app_assoc in S. rewrite <- (app_nil_r (readings pre ++ [n1])).
    apply (steady_sub _ (readings mid ++ [n2]) []). rewrite app_nil_r. exact S. }
  assert (S2 : steady (readings (pre ++ mid) ++ [n2])).
  { rewrite readings_app, <- app_assoc. apply (steady_sub _ [n1]). exact S. }
  destruct (leaked_exact _ _ _ _ _ tick n1 H1 A1 S1 U) as [w1 [E1 W1]].
  destruct (leaked_exact _ _ _ _ _ tick n2 H12 A2 S2 U) as [w2 [E2 W2]].
  rewrite L1 in E1. rewrite L2 in E2. injection E1 as <-. injection E2 as <-.
  rewrite leaves_started in W2 by auto. split; [apply W1|].
  apply (ticks_mono tick (n1 - started pre s) (n2 - started pre s)); auto; [apply unit_pos; auto|].
  assert (n1 <= n2); [|lia]. apply (proj2 S (readings pre) n1 (readings mid) n2 []). rewrite <- app_comm_cons. reflexivity.
Qed.

Lemma leaked_units : forall d t1 k v1 v2, 0 < t1 -> 0 < k -> whole_ticks t1 d v1 -> whole_ticks (k * t1) d v2 -> v2 = v1 / k.
Proof.
  unfold whole_ticks. intros d t1 k v1 v2 T K [A1 A2] [B1 B2].
  assert (H := Z.div_mod v1 k ltac:(lia)). assert (M := Z.mod_pos_bound v1 k K). nia.
Qed.

Lemma never_dies : forall N ops st st' es c, timer_run N st ops = Ok (st', es) -> ~ In (TDied c) es.
Proof.
  intros N. induction ops as [|o ops IH]; intros st st' es c H; cbn [timer_run] in H.
  - injection H as <- <-. auto.
  - apply bind_ok in H. destruct H as [[st1 a] [H1 H2]]. apply bind_ok in H2. destruct H2 as [[st2 b] [H2 H3]].
    injection H3 as <- <-. intros I. apply in_app_iff in I. destruct I as [I|I]; [|apply (IH _ _ _ c H2 I)].
    destruct o as [u now x|d u|d u|u now|u|u tick now|u]; cbn [timer_step] in H1.
    + destruct (st u), (timer_new N now x); try discriminate H1; injection H1 as <- <-; destruct I.
    + destruct (st d), (st u); try discriminate H1; injection H1 as <- <-; destruct I.
    + destruct (st d), (st u); try discriminate H1. destruct (Nat.eqb d u); injection H1 as <- <-; destruct I.
    + destruct (st u); try discriminate H1; injection H1 as <- <-; destruct I.
    + destruct (st u); try discriminate H1; injection H1 as <- <-. destruct I as [I|[]]. discriminate I.
    + destruct (st u); try discriminate H1. apply bind_ok in H1. destruct H1 as [v [_ H1]]. injection H1 as <- <-.
      destruct I as [I|[]]. discriminate I.
    + destruct (st u) as [t|]; try discriminate H1; injection H1 as <- <-. unfold timer_destroy in I.
      destruct (callback_ t) as [[ty n]|]; [|destruct I]. destruct I as [I|[]]. discriminate I.
Qed.

(** * Programs that use timers well run *)

Definition linv (st : store) (l : list nat) : Prop := forall s, st s <> None <-> In s l.

Lemma linv_step : forall N st l o st' ev, linv st l -> timer_step N st o = Ok (st', ev) -> linv st' (living_after l o).
Proof.
  intros N st l o st' ev I H s.
  destruct o as [u now c|d u|d u|u now|u|u tick now|u]; cbn [timer_step living_after] in *.
  - destruct (st u) eqn:Eu; [discriminate H|]. destruct (timer_new N now c) as [t|]; [|discriminate H]. injection H as <- <-.
    cbn [In]. unfold put. destruct (Nat.eqb_spec s u) as [->|Ns].
    + split; [auto|discriminate].
    + rewrite (I s). intuition congruence.
  - destruct (st d) eqn:Ed; [discriminate H|]. destruct (st u) as [t|] eqn:Eu; [|discriminate H]. injection H as <- <-.
    cbn [In]. unfold put. destruct (Nat.eqb_spec s d) as [->|Ns]; [split; [auto|discriminate]|].
    destruct (Nat.eqb_spec s u) as [->|Nu].
    + rewrite <- (I u), Eu. intuition discriminate.
    + rewrite (I s). intuition congruence.
  - destruct (st d) as [t1|] eqn:Ed; [|discriminate H]. destruct (st u) as [t|] eqn:Eu; [|discriminate H].
    rewrite <- (I s). destruct (Nat.eqb_spec d u) as [->|Nd]; injection H as <- <-; unfold put.
    + destruct (Nat.eqb_spec s u) as [->|Ns]; [rewrite Eu; intuition discriminate|tauto].
    + destruct (Nat.eqb_spec s d) as [->|Ns]; [rewrite Ed; intuition discriminate|].
      destruct (Nat.eqb_spec s u) as [->|Nu]; [rewrite Eu; intuition discriminate|tauto].
  - destruct (st u) as [t|] eqn:Eu; [|discriminate H]. injection H as <- <-. unfold put. rewrite <- (I s).
    destruct (Nat.eqb_spec s u) as [->|Ns]; [rewrite Eu; intuition discriminate|tauto].
  - destruct (st u) as [t|] eqn:Eu; [|discriminate H]. injection H as <- <-. apply I.
  - destruct (st u) as [t|] eqn:Eu; [|discriminate H]. apply bind_ok in H. destruct H as [v [_ H]]. injection H as <- <-. apply I.
  - destruct (st u) as [t|] eqn:Eu; [|discriminate H]. injection H as <- <-. unfold put. rewrite filter_In, <- (I s).
    destruct (Nat.eqb_spec s u) as [->|Ns]; cbn [negb]; intuition (try discriminate; auto).
Qed.

Lemma steady_prefix : forall a b, steady (a ++ b) -> steady a.
Proof.
  intros a b S. rewrite <- (app_nil_r a). apply (steady_sub a b []). rewrite app_nil_r. exact S.
Qed.

Lemma some_of : forall st l s, linv st l -> In s l -> exists t, st s = Some t.
Proof. intros st l s I H. apply I in H. destruct (st s); [eauto|contradiction]. Qed.
Lemma none_of : forall st l s, linv st l -> ~ In s l -> st s = None.
Proof. intros st l s I H. rewrite <- (I s) in H. destruct (st s); [|reflexivity]. contradiction H. discriminate. Qed.

Lemma runs : forall N ops st l pre, sinv st pre -> linv st l -> well_used N l ops -> steady (readings pre ++ readings ops) ->
  exists st' es, timer_run N st ops = Ok (st', es) /\ linv st' (fold_left living_after ops l).
Proof.
  intros N. induction ops as [|o ops IH]; intros st l pre I L W S; [exists st, []; cbn; auto|].
  cbn [well_used] in W. destruct W as [W1 W2].
  assert (X : exists st1 a, timer_step N st o = Ok (st1, a)).
  { destruct o as [u now c|d u|d u|u now|u|u tick now|u]; cbn [timer_step].
    - destruct W1 as [W1 W3]. rewrite (none_of st l u L W1). unfold timer_new. destruct c as [ty b]. cbn [snd] in W3.
      apply Nat.leb_le in W3. rewrite W3. eauto.
    - destruct W1 as [W1 W3]. rewrite (none_of st l d L W1). destruct (some_of st l u L W3) as [t ->]. cbn. eauto.
    - destruct W1 as [W1 W3]. destruct (some_of st l d L W1) as [t ->]. destruct (some_of st l u L W3) as [t' ->].
      destruct (Nat.eqb d u); cbn; eauto.
    - destruct (some_of st l u L W1) as [t ->]. eauto.
    - destruct (some_of st l u L W1) as [t ->]. eauto.
    - destruct W1 as [W1 W3]. destruct (some_of st l u L W1) as [t E]. rewrite E. destruct (I u t E) as [_ I2].
      assert (S1 : steady (readings pre ++ [now])).
      { change (readings (TLeaked u tick now :: ops)) with ([now] ++ readings ops) in S. rewrite app_assoc in S.
        apply steady_prefix in S. exact S. }
      destruct (steady_last _ _ _ S1 I2) as [B1 B2]. unfold leaked_in, leaked, arith.
      assert (Y : intyb i64 (now - start_ t) = true).
      { unfold intyb, minv, maxv. cbn [sgn bits i64]. apply andb_true_intro. split; apply Z.leb_le; lia. }
      rewrite Y. cbn [i64 sgn bind]. eauto.
    - destruct (some_of st l u L W1) as [t ->]. eauto. }
  destruct X as [st1 [a E]].
  destruct (IH st1 (living_after l o) (pre ++ [o])) as [st2 [b [E2 L2]]]; auto.
  - eapply sinv_step; eauto.
  - eapply linv_step; eauto.
  - rewrite readings_app, <- app_assoc. replace (readings [o] ++ readings ops) with (readings (o :: ops)); [exact S|].
    change (o :: ops) with ([o] ++ ops). apply readings_app.
  - exists st2, (a ++ b). cbn [timer_run fold_left]. rewrite E. cbn [bind]. rewrite E2. split; [reflexivity|exact L2].
Qed.

Lemma timers_run : forall N ops, well_used N [] ops -> steady (readings ops) ->
  exists st es, timer_run N no_timers ops = Ok (st, es) /\ forall s, st s <> None <-> In s (fold_left living_after ops []).
Proof.
  intros N ops W S. apply (runs N ops no_timers [] []); auto.
  - intros s t; discriminate.
  - intros s. cbn. intuition.
Qed.

Lemma leaked_ratio : forall N ops st es s t1 t2 now v1 v2, timer_run N no_timers ops = Ok (st, es) ->
  steady (readings ops ++ [now]) -> unit_tick t1 -> unit_tick t2 -> t1 <= t2 ->
  timer_step N st (TLeaked s t1 now) = Ok (st, [TRead s t1 now v1]) ->
  timer_step N st (TLeaked s t2 now) = Ok (st, [TRead s t2 now v2]) -> v2 = v1 / (t2 / t1).
Proof.
  intros N ops st es s t1 t2 now v1 v2 H S U1 U2 T E1 E2.
  assert (A : st s <> None) by (cbn [timer_step] in E1; destruct (st s); [discriminate|discriminate E1]).
  destruct (leaked_exact _ _ _ _ _ t1 now H A S U1) as [w1 [F1 W1]].
  destruct (leaked_exact _ _ _ _ _ t2 now H A S U2) as [w2 [F2 W2]].
  rewrite E1 in F1. rewrite E2 in F2. injection F1 as <-. injection F2 as <-.
  assert (K : exists k, 0 < k /\ t2 = k * t1).
  { unfold unit_tick in *. destruct U1 as [->|[->|[->| ->]]], U2 as [->|[->|[->| ->]]]; try lia.
    all: first [exists 1; lia|exists 1000; lia|exists 1000000; lia|exists 1000000000; lia]. }
  destruct K as [k [K1 ->]]. assert (0 < t1) by (apply unit_pos; auto). rewrite Z.div_mul by lia.
  eapply leaked_units; eauto.
Qed.
