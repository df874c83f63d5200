(** Lemmas about the depth of instantiations. *)

Require Import List Arith Bool Lia String.
Require Import Verif.ListSpec Verif.TypeListModel Verif.TypeListProofs Verif.DepthSpec Verif.DepthModel.
Import ListNotations.

(** * Lists of instantiations *)

Definition deepest (l : list tree) : nat := fold_right max 0 (map depth l).

Lemma depth_inst : forall s l, depth (Inst s l) = S (deepest l).
Proof. reflexivity. Qed.

Lemma deepest_cons : forall t l, deepest (t :: l) = max (depth t) (deepest l).
Proof. reflexivity. Qed.

Lemma deepest_nil : deepest [] = 0.
Proof. reflexivity. Qed.

Lemma deepest_app : forall a b, deepest (a ++ b) = max (deepest a) (deepest b).
Proof.
  induction a as [|t a IH]; intros b; [reflexivity|]. cbn [app]. rewrite !deepest_cons, IH. lia.
Qed.

Lemma deepest_le : forall l n, (forall t, In t l -> depth t <= n) -> deepest l <= n.
Proof.
  induction l as [|t l IH]; intros n H; [apply Nat.le_0_l|]. rewrite deepest_cons.
  pose proof (H t (or_introl eq_refl)). pose proof (IH n (fun t' I => H t' (or_intror I))). lia.
Qed.

Lemma deepest_ge : forall l t, In t l -> depth t <= deepest l.
Proof.
  induction l as [|u l IH]; intros t I; [destruct I|]. rewrite deepest_cons.
  destruct I as [->|I]; [lia|]. specialize (IH t I). lia.
Qed.

Lemma deepest_repeat : forall t n, 0 < n -> deepest (repeat t n) = depth t.
Proof.
  intros t n H. apply Nat.le_antisymm.
  - apply deepest_le. intros u I. apply repeat_spec in I. subst. lia.
  - apply deepest_ge. destruct n; [lia|]. left. reflexivity.
Qed.

(** * at *)

Lemma at_impl_depth : forall i, depth (at_impl_tree i) = i + 1.
Proof. induction i as [|i IH]; [reflexivity|]. cbn [at_impl_tree]. rewrite depth_inst, deepest_cons, IH, deepest_nil. lia. Qed.

Lemma at_depth : forall i, depth (at_tree i) = i + 2.
Proof. intros. unfold at_tree. rewrite depth_inst, deepest_cons, at_impl_depth, deepest_nil. lia. Qed.

Lemma at_with_predicate_depth : forall {A} (cost : A -> tree) p a u b, plain cost -> p u = true ->
  depth (at_with_predicate_tree cost p (List.length (filter p a)) (a ++ u :: b)) = 2 * List.length a + 2.
Proof.
  intros A cost p a u b C P. induction a as [|x a IH].
  - cbn [app filter List.length at_with_predicate_tree]. rewrite P.
    rewrite depth_inst, !deepest_cons, C, depth_inst, deepest_nil. reflexivity.
  - cbn [app filter]. destruct (p x) eqn:X; cbn [List.length at_with_predicate_tree]; rewrite X;
    rewrite depth_inst, !deepest_cons, C, depth_inst, deepest_cons, deepest_nil, IH; lia.
Qed.

Lemma at_predicate_depth : forall {A} (cost : A -> tree) p a u b, plain cost -> p u = true ->
  depth (at_predicate_tree cost p (List.length (filter p a)) (a ++ u :: b)) = 2 * List.length a + 3.
Proof.
  intros A cost p a u b C P. unfold at_predicate_tree.
  rewrite depth_inst, deepest_cons, deepest_nil, at_with_predicate_depth by auto. lia.
Qed.

(** * index_of *)

Lemma index_of_depth : forall {A} (cost : A -> tree) p a u b, plain cost -> existsb p a = false -> p u = true ->
  depth (index_of_tree cost p (a ++ u :: b)) = List.length a + 2.
Proof.
  intros A cost p a u b C N P. induction a as [|x a IH].
  - cbn [app index_of_tree]. rewrite P, depth_inst, deepest_cons, C, deepest_nil. reflexivity.
  - cbn [existsb] in N. apply orb_false_iff in N. destruct N as [X N]. cbn [app index_of_tree List.length].
    rewrite X, depth_inst, !deepest_cons, C, IH, deepest_nil by auto. lia.
Qed.

Lemma index_of_depth_none : forall {A} (cost : A -> tree) p l, plain cost -> existsb p l = false ->
  depth (index_of_tree cost p l) = List.length l + 1.
Proof.
  intros A cost p l C N. induction l as [|x l IH]; [reflexivity|].
  cbn [existsb] in N. apply orb_false_iff in N. destruct N as [X N]. cbn [index_of_tree List.length].
  rewrite X, depth_inst, !deepest_cons, C, IH, deepest_nil by auto. lia.
Qed.

Lemma index_of_depth_le : forall {A} (cost : A -> tree) p l, plain cost ->
  depth (index_of_tree cost p l) <= List.length l + 1.
Proof.
  intros A cost p l C. induction l as [|x l IH]; [cbn; lia|].
  cbn [index_of_tree List.length]. rewrite depth_inst, deepest_cons, C.
  destruct (p x); [rewrite deepest_nil|rewrite deepest_cons, deepest_nil]; lia.
Qed.

(** * concatenate and the filters *)

Lemma concatenate_depth : forall k, 0 < k -> depth (concatenate_tree k) = k.
Proof.
  induction k as [|k IH]; intros H; [lia|]. destruct k as [|k]; [reflexivity|].
  cbn [concatenate_tree] in *. rewrite depth_inst, deepest_cons, deepest_nil, IH by lia. lia.
Qed.

Lemma deepest_map_plain : forall {A} (cost : A -> tree) l, plain cost -> l <> [] -> deepest (map cost l) = 1.
Proof.
  intros A cost l C N. destruct l as [|x l]; [contradiction|]. apply Nat.le_antisymm.
  - apply deepest_le. intros t I. apply in_map_iff in I. destruct I as [u [<- _]]. rewrite C. lia.
  - rewrite <- (C x). apply deepest_ge. left. reflexivity.
Qed.

Lemma filter_depth : forall {A} (cost : A -> tree) l, plain cost -> l <> [] ->
  depth (filter_tree cost l) = List.length l + 2.
Proof.
  intros A cost l C N. unfold filter_tree. destruct l as [|x l]; [contradiction|].
  rewrite depth_inst, deepest_cons, depth_inst, deepest_app, deepest_cons, deepest_nil, deepest_map_plain by auto.
  rewrite concatenate_depth by (cbn [List.length]; lia). cbn [List.length]. lia.
Qed.

Lemma all_of_depth : forall n, depth (all_of_tree n) = n + 1.
Proof.
  intros [|n]; [reflexivity|]. unfold all_of_tree.
  rewrite depth_inst, deepest_app, deepest_cons, deepest_nil, deepest_repeat, concatenate_depth by lia. cbn [depth map fold_right]. lia.
Qed.

Lemma values_depth : forall n, depth (list_all_of_tree n) = n + 2 /\ depth (min_tree n) = n + 2 /\ depth (max_tree n) = n + 2.
Proof.
  intros n. unfold list_all_of_tree, min_tree, max_tree. rewrite !depth_inst, !deepest_cons, all_of_depth, deepest_nil. lia.
Qed.

(** * sublist, exclude_at, sort *)

Lemma sublist_depth : forall first count, 0 < count -> depth (sublist_tree first count) = first + count + 3.
Proof.
  intros f c H. unfold sublist_tree. destruct c as [|c]; [lia|].
  rewrite depth_inst, deepest_cons, deepest_nil, depth_inst.
  assert (E : deepest (map (fun i => at_tree (f + i)) (seq 0 (S c))) = f + c + 2).
  { apply Nat.le_antisymm.
    - apply deepest_le. intros t I. apply in_map_iff in I. destruct I as [i [<- I]]. apply in_seq in I.
      rewrite at_depth. lia.
    - replace (f + c + 2) with (depth (at_tree (f + c))) by (rewrite at_depth; lia).
      apply deepest_ge. apply in_map_iff. exists c. split; [reflexivity|]. apply in_seq. lia. }
  rewrite E. lia.
Qed.

Lemma sublist_depth_0 : forall first, depth (sublist_tree first 0) = 1.
Proof. reflexivity. Qed.

Lemma exclude_at_depth : forall n i, i < n ->
  depth (exclude_at_tree n i) = if i =? 0 then 3 else if i =? n - 1 then n + 5 else n + 6.
Proof.
  intros n i H. unfold exclude_at_tree, exclude_at_impl_tree.
  rewrite depth_inst, deepest_cons, deepest_nil, depth_inst, deepest_cons, deepest_nil, depth_inst.
  destruct i as [|i]; [reflexivity|]. change (S i =? 0) with false. cbv beta iota.
  destruct (S i =? n - 1) eqn:E.
  - apply Nat.eqb_eq in E. rewrite deepest_cons, deepest_nil, sublist_depth by lia. lia.
  - apply Nat.eqb_neq in E. rewrite !deepest_cons, deepest_nil, !sublist_depth, concatenate_depth by lia. lia.
Qed.

Definition picks (index : list ty -> option nat) : Prop :=
  (forall l k, index l = Some k -> k < List.length l) /\ (forall l, l <> [] -> exists k, index l = Some k).

Lemma min_picks : picks min_sizeof_index.
Proof.
  split.
  - intros l k H. apply min_sizeof_index_spec in H. destruct H as [t [E _]]. apply nth_error_Some. congruence.
  - intros [|t l] N; [contradiction|]. eexists. reflexivity.
Qed.

Lemma max_picks : picks max_sizeof_index.
Proof.
  split.
  - intros l k H. apply max_sizeof_index_spec in H. destruct H as [t [E _]]. apply nth_error_Some. congruence.
  - intros [|t l] N; [contradiction|]. eexists. reflexivity.
Qed.

Lemma excluded_length : forall (l : list ty) k, k < List.length l ->
  List.length (firstn k l ++ skipn (S k) l) = List.length l - 1.
Proof. intros l k H. rewrite app_length, firstn_length, skipn_length. lia. Qed.

Lemma sort_depth : forall index sz fuel l, picks index -> List.length l < sz -> List.length l <= fuel ->
  List.length l <= depth (sort_tree index sz fuel l) <= List.length l + 7.
Proof.
  intros index sz fuel l [P1 P2]. revert l. induction fuel as [|fuel IH]; intros l S F.
  - destruct l; [cbn; lia|cbn in F; lia].
  - destruct l as [|x [|y l]]; [cbn; lia|cbn; lia|]. set (L := x :: y :: l) in *.
    destruct (P2 L ltac:(discriminate)) as [k Ek]. pose proof (P1 L k Ek) as Lk.
    assert (E : sort_tree index sz (Datatypes.S fuel) L =
      Inst "sort_sizeof"%string [Inst "sizeof_index"%string []; at_tree k; exclude_at_tree (List.length L) k;
        sort_tree index sz fuel (firstn k L ++ skipn (Datatypes.S k) L); concatenate_tree 2]).
    { unfold L at 1. cbn [sort_tree]. fold L. rewrite Ek. rewrite exclude_at_spec by lia. reflexivity. }
    rewrite E. clear E. assert (LL : 2 <= List.length L) by (unfold L; cbn [List.length]; lia).
    specialize (IH (firstn k L ++ skipn (Datatypes.S k) L)). rewrite (excluded_length L k Lk) in IH.
    specialize (IH ltac:(lia) ltac:(lia)).
    rewrite depth_inst, !deepest_cons, deepest_nil, at_depth, exclude_at_depth, concatenate_depth, depth_inst, deepest_nil by lia.
    destruct (k =? 0); [lia|]. destruct (k =? List.length L - 1); lia.
Qed.

(** * cartesian_product *)

Definition longest (l : list nat) : nat := fold_right max 3 l.

Lemma cartesian_impl_depth : forall rest n1 n2, 0 < n1 -> 0 < n2 -> Forall (fun n => 0 < n) rest ->
  depth (cartesian_impl_tree n1 n2 rest) <= longest (n1 :: n2 :: rest) + List.length rest + 1 /\
  List.length rest + 2 <= depth (cartesian_impl_tree n1 n2 rest) /\
  n1 < depth (cartesian_impl_tree n1 n2 rest).
Proof.
  induction rest as [|n3 rest IH]; intros n1 n2 H1 H2 F.
  - cbn [cartesian_impl_tree]. unfold cartesian_pair_tree.
    rewrite depth_inst, deepest_app, deepest_cons, deepest_nil, deepest_repeat, concatenate_depth by lia.
    cbn [one_element_mult_tree depth map fold_right longest List.length]. lia.
  - inversion F as [|? ? P3 F']; subst. destruct (IH n2 n3 H2 P3 F') as [U [L1 L2]].
    cbn [cartesian_impl_tree]. unfold cartesian_pair_tree at 1 2 3.
    set (m := fold_right Nat.mul 1 (n2 :: n3 :: rest)).
    assert (M : 0 < m).
    { unfold m. cbn [fold_right]. assert (0 < fold_right Nat.mul 1 rest).
      { clear - F'. induction F' as [|x r X _ IH]; cbn [fold_right]; nia. } nia. }
    assert (O : depth (one_element_mult_tree false m) = 3).
    { unfold one_element_mult_tree. rewrite depth_inst, deepest_repeat, concatenate_depth by lia. reflexivity. }
    rewrite depth_inst, !deepest_cons, deepest_nil, depth_inst, deepest_app, deepest_cons, deepest_nil, deepest_repeat, concatenate_depth, O by lia.
    assert (T : 3 <= fold_right max 3 rest) by (clear; induction rest as [|x r I]; cbn [fold_right]; lia).
    clearbody m. unfold longest in *. cbn [fold_right List.length] in *. lia.
Qed.

Lemma cartesian_depth : forall n1 n2 rest, 0 < n1 -> 0 < n2 -> Forall (fun n => 0 < n) rest ->
  depth (cartesian_tree n1 n2 rest) <= longest (n1 :: n2 :: rest) + List.length rest + 2.
Proof.
  intros n1 n2 rest H1 H2 F. unfold cartesian_tree. rewrite depth_inst, deepest_cons, deepest_nil.
  pose proof (cartesian_impl_depth rest n1 n2 H1 H2 F). lia.
Qed.

(** * The limit *)

Lemma longest_le : forall l n, 3 <= n -> Forall (fun m => m <= n) l -> longest l <= n.
Proof. intros l n N F. induction F as [|m l M _ IH]; cbn; [lia|]. unfold longest in IH. lia. Qed.

Lemma within_limit : forall {A} (cost : A -> tree) p (l : list A) (ts : list ty) index sz i first count,
  plain cost -> picks index -> List.length l <= 1000 -> List.length ts <= 1000 -> List.length ts < sz ->
  i < 1000 -> first + count <= 1000 ->
  accepted (at_tree i) /\ accepted (index_of_tree cost p l) /\ accepted (concatenate_tree (List.length l)) /\
  accepted (filter_tree cost l) /\ accepted (list_all_of_tree (List.length l)) /\ accepted (min_tree (List.length l)) /\
  accepted (max_tree (List.length l)) /\ accepted (sublist_tree first count) /\
  (i < List.length l -> accepted (exclude_at_tree (List.length l) i)) /\
  accepted (sort_tree index sz (List.length ts) ts).
Proof.
  intros A cost p l ts index sz i f c C P L T S I FC. unfold accepted.
  pose proof (index_of_depth_le cost p l C). destruct (values_depth (List.length l)) as [V1 [V2 V3]].
  pose proof (sort_depth index sz (List.length ts) ts P S (Nat.le_refl _)) as Q.
  assert (D : depth (exclude_at_tree (List.length l) i) <= 1024 \/ ~ i < List.length l).
  { destruct (lt_dec i (List.length l)); [left|right; lia]. rewrite exclude_at_depth by lia.
    destruct (i =? 0); [lia|]. destruct (i =? List.length l - 1); lia. }
  assert (K : depth (concatenate_tree (List.length l)) <= 1024).
  { destruct l; [cbn; lia|]. rewrite concatenate_depth by (cbn [List.length]; lia). lia. }
  assert (F : depth (filter_tree cost l) <= 1024).
  { destruct l as [|x l']; [cbn; lia|]. rewrite filter_depth by (auto; discriminate). lia. }
  assert (U : depth (sublist_tree f c) <= 1024).
  { destruct c; [cbn; lia|]. rewrite sublist_depth by lia. lia. }
  rewrite at_depth, V1, V2, V3. repeat split; try lia.
Qed.

Lemma products_within_limit : forall n1 n2 rest, 0 < n1 -> 0 < n2 -> Forall (fun n => 0 < n) rest ->
  Forall (fun n => n <= 1000) (n1 :: n2 :: rest) -> List.length rest <= 20 -> accepted (cartesian_tree n1 n2 rest).
Proof.
  intros n1 n2 rest H1 H2 F B R. unfold accepted.
  pose proof (cartesian_depth n1 n2 rest H1 H2 F). pose proof (longest_le _ 1000 ltac:(lia) B). lia.
Qed.

Lemma at_predicate_limit : forall {A} (cost : A -> tree) p a u b, plain cost -> p u = true ->
  (accepted (at_predicate_tree cost p (List.length (filter p a)) (a ++ u :: b)) <-> List.length a <= 510).
Proof.
  intros A cost p a u b C P. unfold accepted. rewrite at_predicate_depth by auto. lia.
Qed.

Lemma at_predicate_too_deep : forall (t : ty), exists i l, List.length l = 512 /\
  at_with_predicate (ty_eqb t) i l = Some t /\
  ~ accepted (at_predicate_tree (fun _ => Inst "predicate"%string []) (ty_eqb t) i l).
Proof.
  intros t. exists (List.length (filter (ty_eqb t) (repeat t 511))), (repeat t 511 ++ [t]).
  assert (R : ty_eqb t t = true) by (apply ty_eqb_refl).
  assert (F : forall n, filter (ty_eqb t) (repeat t n) = repeat t n).
  { induction n as [|n IH]; [reflexivity|]. cbn [repeat filter]. rewrite R, IH. reflexivity. }
  split; [rewrite app_length, repeat_length; reflexivity|]. split.
  - rewrite F, repeat_length. assert (G : forall n, at_with_predicate (ty_eqb t) n (repeat t n ++ [t]) = Some t).
    { induction n as [|n IH]; cbn [repeat app at_with_predicate]; rewrite R; [reflexivity|exact IH]. }
    apply G.
  - intros H. apply (at_predicate_limit (fun _ : ty => Inst "predicate"%string [])) in H; [|intros ?; reflexivity|exact R].
    rewrite repeat_length in H. lia.
Qed.

(** * For the statements of the properties *)

Lemma either_picks : forall index, index = min_sizeof_index \/ index = max_sizeof_index -> picks index.
Proof. intros index [->| ->]; [apply min_picks|apply max_picks]. Qed.

Lemma operations_within_limit : forall {A} (cost : A -> tree) p (l : list A) (ts : list ty) index sz i first count,
  plain cost -> index = min_sizeof_index \/ index = max_sizeof_index ->
  List.length l <= 1000 -> List.length ts <= 1000 -> List.length ts < sz ->
  i < 1000 -> first + count <= 1000 ->
  accepted (at_tree i) /\ accepted (index_of_tree cost p l) /\ accepted (concatenate_tree (List.length l)) /\
  accepted (filter_tree cost l) /\ accepted (list_all_of_tree (List.length l)) /\ accepted (min_tree (List.length l)) /\
  accepted (max_tree (List.length l)) /\ accepted (sublist_tree first count) /\
  (i < List.length l -> accepted (exclude_at_tree (List.length l) i)) /\
  accepted (sort_tree index sz (List.length ts) ts).
Proof. intros A cost p l ts index sz i first count C P. apply within_limit; [exact C|apply either_picks, P]. Qed.

Lemma all_depths : forall {A} (cost : A -> tree) (p : A -> bool) a u b first count n i,
  plain cost -> p u = true -> 0 < count -> i < n ->
  depth (at_tree i) = i + 2 /\
  depth (at_predicate_tree cost p (List.length (filter p a)) (a ++ u :: b)) = 2 * List.length a + 3 /\
  (existsb p a = false -> depth (index_of_tree cost p (a ++ u :: b)) = List.length a + 2) /\
  (existsb p a = false -> depth (index_of_tree cost p a) = List.length a + 1) /\
  depth (concatenate_tree n) = n /\
  depth (filter_tree cost (a ++ u :: b)) = List.length (a ++ u :: b) + 2 /\
  depth (list_all_of_tree n) = n + 2 /\ depth (min_tree n) = n + 2 /\ depth (max_tree n) = n + 2 /\
  depth (sublist_tree first count) = first + count + 3 /\
  depth (exclude_at_tree n i) = (if i =? 0 then 3 else if i =? n - 1 then n + 5 else n + 6).
Proof.
  intros A cost p a u b f c n i C P H I. destruct (values_depth n) as [V1 [V2 V3]].
  split; [apply at_depth|]. split; [apply at_predicate_depth; auto|].
  split; [intros; apply index_of_depth; auto|]. split; [intros; apply index_of_depth_none; auto|].
  split; [apply concatenate_depth; lia|].
  split; [apply filter_depth; [exact C|destruct a; discriminate]|].
  split; [exact V1|]. split; [exact V2|]. split; [exact V3|].
  split; [apply sublist_depth, H|apply exclude_at_depth, I].
Qed.

Lemma sort_depths : forall index sz l, index = min_sizeof_index \/ index = max_sizeof_index ->
  List.length l < sz ->
  List.length l <= depth (sort_tree index sz (List.length l) l) <= List.length l + 7.
Proof. intros index sz l P S. apply sort_depth; [apply either_picks, P|exact S|apply Nat.le_refl]. Qed.

Lemma product_depths : forall n1 n2 rest, 0 < n1 -> 0 < n2 -> Forall (fun n => 0 < n) rest ->
  depth (cartesian_tree n1 n2 rest) <= fold_right max 3 (n1 :: n2 :: rest) + List.length (n1 :: n2 :: rest).
Proof.
  intros n1 n2 rest H1 H2 F. pose proof (cartesian_depth n1 n2 rest H1 H2 F) as H. unfold longest in H.
  cbn [List.length]. lia.
Qed.
