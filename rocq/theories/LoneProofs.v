(** Proofs for C156: a resource with an upstream and one without. *)

Require Import ZArith Lia List Bool.
Require Import Verif.Outcome Verif.Machine Verif.BitsModel Verif.BitsSpec Verif.BitsProofs.
Require Import Verif.SimpleModel Verif.SimpleSpec Verif.SimpleView Verif.SimpleProofs Verif.SimpleOpProofs Verif.SimpleAnyProofs
  Verif.SimpleMainProofs Verif.SimpleRefuted Verif.MonoModel Verif.LoneSpec.
Require Verif.ShiftProofs.
Import ListNotations.
Open Scope Z_scope.
Open Scope res_scope.

Notation map_res := ShiftProofs.map_res.
Definition bind_map := @ShiftProofs.bind_map.
Definition map_bind := @ShiftProofs.map_bind.
Definition bind_same := @ShiftProofs.bind_same.
Definition map_cassert := @ShiftProofs.map_cassert.
Definition map_abort := @ShiftProofs.map_abort.
Definition cassert_same := @ShiftProofs.cassert_same.
Definition abort_same := @ShiftProofs.abort_same.
Definition if_map := @ShiftProofs.if_map.

(** the same resource without its upstream *)
Definition lone (s : state) : state := St (data s) (bc s) false (prv s) (nxt s) (inuse s) (freec s) (busyc s).

(** * What the books say about themselves does not mention the upstream *)
Section Books.
  Variable c : cfg.
  Notation mv := lone.

  Definition mv1 {A : Type} (x : state * A) : state * A := (mv (fst x), snd x).

  Ltac plain := unfold set_prev, set_next, set_prev_next, set_in_use, reset_in_use, at_, in_array, cassert, lone;
    cbn [data bc has_up prv nxt inuse freec busyc];
    repeat match goal with |- context [if ?b then _ else _] => destruct b eqn:? end; reflexivity.

  Lemma v_set_prev : forall s i p, set_prev c (mv s) i p = map_res mv (set_prev c s i p).
  Proof. intros. plain. Qed.
  Lemma v_set_next : forall s i p, set_next c (mv s) i p = map_res mv (set_next c s i p).
  Proof. intros. plain. Qed.
  Lemma v_set_prev_next : forall s i p n, set_prev_next c (mv s) i p n = map_res mv (set_prev_next c s i p n).
  Proof. intros. plain. Qed.
  Lemma v_set_in_use : forall s i, set_in_use c (mv s) i = map_res mv (set_in_use c s i).
  Proof. intros. plain. Qed.
  Lemma v_reset_in_use : forall s i, reset_in_use c (mv s) i = map_res mv (reset_in_use c s i).
  Proof. intros. plain. Qed.
  Lemma v_next : forall s i, next_index c (mv s) i = next_index c s i.
  Proof. reflexivity. Qed.
  Lemma v_prev : forall s i, prev_index c (mv s) i = prev_index c s i.
  Proof. reflexivity. Qed.
  Lemma v_in_use : forall s i, in_use c (mv s) i = in_use c s i.
  Proof. reflexivity. Qed.
  Lemma v_bc : forall s, bc (mv s) = bc s.
  Proof. reflexivity. Qed.
  Lemma v_freec : forall s, freec (mv s) = freec s.
  Proof. reflexivity. Qed.
  Lemma v_busyc : forall s, busyc (mv s) = busyc s.
  Proof. reflexivity. Qed.

  Ltac go := repeat first
    [ rewrite v_set_prev | rewrite v_set_next | rewrite v_set_prev_next | rewrite v_set_in_use | rewrite v_reset_in_use
    | rewrite v_next | rewrite v_prev | rewrite v_in_use | rewrite v_bc | rewrite v_freec | rewrite v_busyc
    | rewrite bind_map | rewrite map_bind | rewrite map_cassert | rewrite map_abort | rewrite if_map
    | apply cassert_same | apply abort_same | apply bind_same; intros ? _; cbv beta zeta | reflexivity
    | match goal with |- (if ?b then _ else _) = (if ?b then _ else _) => destruct b end ].

  Lemma v_not_matched : forall s a b e f, allocate_not_matched c (mv s) a b e f = map_res mv (allocate_not_matched c s a b e f).
  Proof. intros. unfold allocate_not_matched. cbv zeta. go. Qed.
  Lemma v_begin_matched : forall s a b e, allocate_begin_matched c (mv s) a b e = map_res mv (allocate_begin_matched c s a b e).
  Proof. intros. unfold allocate_begin_matched. cbv zeta. go. Qed.
  Lemma v_end_matched : forall s a b e, allocate_end_matched c (mv s) a b e = map_res mv (allocate_end_matched c s a b e).
  Proof. intros. unfold allocate_end_matched. cbv zeta. go. Qed.
  Lemma v_matched : forall s a, allocate_matched c (mv s) a = map_res mv (allocate_matched c s a).
  Proof. intros. unfold allocate_matched. go. Qed.

  Lemma v_merge : forall s l r, merge_if_both_not_in_use c (mv s) l r = map_res mv1 (merge_if_both_not_in_use c s l r).
  Proof. intros. unfold merge_if_both_not_in_use. go. Qed.

  Lemma v_adjacent : forall s i, merge_adjacent_blocks c (mv s) i = map_res mv1 (merge_adjacent_blocks c s i).
  Proof.
    intros. unfold merge_adjacent_blocks. go. rewrite v_merge, bind_map. apply bind_same. intros [s' m] _.
    unfold mv1 at 1. cbn [fst snd]. rewrite v_next, map_bind. apply bind_same. intros n _. apply v_merge.
  Qed.

  Lemma v_deallocate_blocks : forall s i, deallocate_blocks c (mv s) i = map_res mv1 (deallocate_blocks c s i).
  Proof.
    intros. unfold deallocate_blocks. go.
    match goal with |- merge_adjacent_blocks c ?x i = _ => match goal with |- _ = map_res mv1 (merge_adjacent_blocks c ?y i) =>
      change x with (mv y) end end. apply v_adjacent.
  Qed.
  Lemma v_in_use_fun : forall s i, in_use c (mv s) i = in_use c s i.
  Proof. reflexivity. Qed.

  Definition mv2 {A : Type} (x : state * A * bool) : state * A * bool := (mv (fst (fst x)), snd (fst x), snd x).

  Lemma v_release_act : forall s a i, release_act c (mv s) a i = map_res mv2 (release_act c s a i).
  Proof.
    intros. unfold release_act. rewrite v_deallocate_blocks, bind_map, map_bind. apply bind_same. intros [s' m] _.
    unfold mv1. cbn [fst snd]. rewrite v_next, map_bind. reflexivity.
  Qed.

  Lemma v_release_loop : forall fuel s a i,
    apply_loop fuel c (in_use c) (release_act c) (mv s) a i = map_res mv1 (apply_loop fuel c (in_use c) (release_act c) s a i).
  Proof.
    induction fuel as [|fuel IH]; intros s a i; [reflexivity|]. cbn [apply_loop].
    rewrite v_next, map_bind. apply bind_same. intros _ _. rewrite v_in_use, map_bind. apply bind_same. intros b _.
    destruct b.
    - rewrite v_release_act, bind_map. destruct (release_act c s a i) as [[[s' a'] r]| | |]; cbn [bind map_res]; auto.
      unfold mv2. cbn [fst snd bind]. destruct (of_bool r =? 0); [reflexivity|apply IH].
    - destruct (next_index c s i) as [n| | |]; cbn [bind map_res]; auto.
      destruct (n =? 0); [reflexivity|apply IH].
  Qed.

  Lemma v_release : forall fuel s, release c fuel (mv s) = map_res mv (release c fuel s).
  Proof.
    intros. unfold release. rewrite v_release_loop, bind_map, map_bind. apply bind_same. intros [s' a] _. reflexivity.
  Qed.
End Books.


Section Two.
  Variable c : cfg.
  Hypothesis HC : cfg_ok c.
  Notation mv := lone.

  Lemma v_index : forall s p, pointer_to_block_index c (mv s) p = pointer_to_block_index c s p.
  Proof. reflexivity. Qed.
  Lemma v_allocate_blocks : forall s i p size, allocate_blocks c (mv s) i p size = map_res mv (allocate_blocks c s i p size).
  Proof.
    intros s i p size. unfold allocate_blocks. rewrite !v_index, map_bind.
    apply bind_same. intros first _. rewrite map_bind. apply bind_same. intros last _. rewrite v_next, map_bind.
    apply bind_same. intros n _. rewrite v_bc. cbv zeta.
    destruct (i =? first); destruct (negb _);
      [apply v_begin_matched|apply v_matched|apply v_not_matched|apply v_end_matched].
  Qed.
  Lemma v_alloc_act : forall size align s p i, alloc_act c size align (mv s) p i = map_res mv2 (alloc_act c size align s p i).
  Proof.
    intros size align s p i. unfold alloc_act. change (block_size_in_bytes c (mv s) i) with (block_size_in_bytes c s i).
    change (block_index_to_pointer c (mv s) i) with (block_index_to_pointer c s i).
    rewrite !map_bind. apply bind_same. intros n _. rewrite map_bind. apply bind_same. intros bp _.
    rewrite map_bind. apply bind_same. intros k _. destruct (wrap 64 (k + size) <=? n).
    - cbv zeta. rewrite v_allocate_blocks, bind_map, map_bind. reflexivity.
    - rewrite v_next, map_bind. reflexivity.
  Qed.
  Lemma v_alloc_loop : forall size align fuel s p i,
    apply_loop fuel c (alloc_pred c) (alloc_act c size align) (mv s) p i =
    map_res mv1 (apply_loop fuel c (alloc_pred c) (alloc_act c size align) s p i).
  Proof.
    intros size align. induction fuel as [|fuel IH]; intros s p i; [reflexivity|]. cbn [apply_loop].
    rewrite v_next, map_bind. apply bind_same. intros n N.
    change (alloc_pred c (mv s) i) with (alloc_pred c s i). rewrite map_bind. apply bind_same. intros u _.
    destruct u.
    - rewrite v_alloc_act, bind_map. destruct (alloc_act c size align s p i) as [[[s' p'] r]| | |]; cbn [bind map_res]; auto.
      unfold mv2. cbn [fst snd bind]. destruct (of_bool r =? 0); [reflexivity|apply IH].
    - rewrite N. cbn [bind]. destruct (n =? 0); [reflexivity|apply IH].
  Qed.
  Lemma v_search : forall size align fuel s, search_buffer c fuel (mv s) size align = map_res mv1 (search_buffer c fuel s size align).
  Proof.
    intros size align fuel s. unfold search_buffer. cbn [lone data bc]. destruct (data s =? 0); [reflexivity|].
    rewrite map_bind. apply bind_same. intros z _. rewrite map_bind. apply bind_same. intros a _. rewrite map_bind. apply bind_same. intros m _.
    destruct (align <=? m); [apply v_alloc_loop|reflexivity].
  Qed.

  Definition mv5 (x : state * Z * list upcall) : state * Z * list upcall :=
    (mv (fst (fst x)), match snd x with [] => snd (fst x) | _ => 0 end, []).

  Lemma aligned_zero : is_aligned true 0 (BS c) = Ok true.
  Proof. rewrite aligned_bs by (auto; lia). rewrite Z.mod_0_l; [reflexivity|]. assert (P := bs_pos c HC). lia. Qed.

  Lemma v_allocate : forall fuel s size align ans, (DBG c = true -> answer_fits (BS c) (ans size align)) ->
    allocate_impl c fuel (mv s) size align (fun _ _ => 0) = map_res mv5 (allocate_impl c fuel s size align ans).
  Proof.
    intros fuel s size align ans A. unfold allocate_impl. destruct (size =? 0); [reflexivity|].
    rewrite map_cassert. apply cassert_same. rewrite v_search, bind_map, map_bind. apply bind_same.
    intros [s' p] _. unfold mv1. cbn [fst snd]. change (has_up (mv s')) with false. rewrite andb_false_r.
    destruct (p =? 0) eqn:P0; cbn [andb].
    - apply Z.eqb_eq in P0. subst p. rewrite aligned_zero.
      replace (if DBG c then Ok true else Ok true) with (Ok true) by (destruct (DBG c); reflexivity). cbn [bind].
      replace (cassert (DBG c) true (Ok (mv s', 0, []))) with (Ok (mv s', 0, [] : list upcall)) by (destruct (DBG c); reflexivity).
      destruct (has_up s').
      + replace (if DBG c then is_aligned true (ans size align) (BS c) else Ok true) with (Ok true).
        * cbn [bind]. destruct (DBG c); reflexivity.
        * destruct (DBG c); [|reflexivity]. destruct (A eq_refl) as [A1 A2]. rewrite aligned_bs by auto.
          rewrite (proj2 (Z.mod_divide (ans size align) (BS c) ltac:(assert (P := bs_pos c HC); lia)) A2). reflexivity.
      + rewrite aligned_zero. replace (if DBG c then Ok true else Ok true) with (Ok true) by (destruct (DBG c); reflexivity).
        cbn [bind]. destruct (DBG c); reflexivity.
    - rewrite map_bind. apply bind_same. intros al _. rewrite map_cassert. reflexivity.
  Qed.

  Definition mv6 (x : state * list upcall) : state * list upcall := (mv (fst x), []).

  Lemma v_deallocate : forall s p, geometry c s -> has_up s = true -> 0 <= p < 2 ^ 64 -> (own (data s) (bc s * BS c) p = false -> (BS c | p)) ->
    deallocate_impl c (mv s) (if own (data s) (bc s * BS c) p then p else 0) = map_res mv6 (deallocate_impl c s p).
  Proof.
    intros s p G U P F. assert (PB := bs_pos c HC). destruct G as [G1 G2 G3 G4 G5].
    assert (0 <= bc s * BS c) by (apply Z.mul_nonneg_nonneg; lia).
    assert (SZ : wrap 64 (data s + size_ c s) = data s + bc s * BS c).
    { unfold size_. rewrite (Z.mul_comm (BS c)). rewrite (wrap_id _ (bc s * BS c)) by lia. apply wrap_id. lia. }
    unfold own in *. unfold deallocate_impl. change (wrap 64 (data (mv s) + size_ c (mv s))) with (wrap 64 (data s + size_ c s)). cbn [lone data has_up].
    rewrite SZ, U. destruct ((data s <=? p) && (p <? data s + bc s * BS c)) eqn:R.
    - rewrite R. destruct (p =? 0); [reflexivity|]. rewrite map_bind. apply bind_same. intros al _. rewrite map_abort. apply abort_same.
      change (pointer_to_block_index c (lone s) p) with (pointer_to_block_index c s p). rewrite map_bind. apply bind_same. intros i _.
      rewrite v_deallocate_blocks, bind_map, map_bind. apply bind_same. intros [s' m] _. reflexivity.
    - change (0 =? 0) with true. cbv iota. destruct (p =? 0); [reflexivity|]. rewrite aligned_bs by auto.
      rewrite (proj2 (Z.mod_divide p (BS c) ltac:(lia)) (F eq_refl)). reflexivity.
  Qed.

  Definition mv7 (d n : Z) (x : state * event) : state * event := (mv (fst x), lone_event d n (snd x)).

  Lemma v_step : forall fuel s o, geometry c s -> has_up s = true -> block_aligned (DBG c) (BS c) (data s) (bc s * BS c) o ->
    step c fuel (mv s) (lone_op (data s) (bc s * BS c) o) = map_res (mv7 (data s) (bc s * BS c)) (step c fuel s o).
  Proof.
    intros fuel s o G U M. destruct o as [size align ans|p|]; cbn [lone_op step block_aligned] in *.
    - rewrite (v_allocate fuel s size align ans M), bind_map, map_bind. apply bind_same. intros [[s' p] calls] _. unfold mv5. cbn [fst snd map_res bind].
      unfold mv7. cbn [fst snd lone_event]. destruct calls; reflexivity.
    - destruct M as [M1 M2]. rewrite v_deallocate by auto. rewrite bind_map, map_bind. apply bind_same. intros [s' calls] _. reflexivity.
    - rewrite v_release, bind_map, map_bind. reflexivity.
  Qed.

  Lemma v_run : forall fuel ops s, geometry c s -> has_up s = true -> Forall sane_op ops ->
    Forall (block_aligned (DBG c) (BS c) (data s) (bc s * BS c)) ops ->
    run c fuel (mv s) (map (lone_op (data s) (bc s * BS c)) ops) = lone_outcome mv (data s) (bc s * BS c) (run c fuel s ops).
  Proof.
    intros fuel. induction ops as [|o ops IH]; intros s G U S M; [reflexivity|]. inversion M as [|? ? M1 M2]; subst. inversion S as [|? ? S1 S2]; subst.
    cbn [map run]. rewrite v_step, bind_map by auto.
    destruct (step c fuel s o) as [[s1 e]| | |] eqn:E; cbn [bind lone_outcome]; auto.
    unfold mv7 at 1. cbn [fst snd]. destruct (step_any c fuel s o s1 e HC (g_aligned _ _ G) S1 E) as [[[Q1 [Q2 Q3]] _] _].
    specialize (IH s1). rewrite Q1, Q2 in IH. rewrite IH; auto.
    - destruct (run c fuel s1 ops) as [[s2 es]| | |]; reflexivity.
    - destruct G as [G1 G2 G3 G4 G5]. constructor; rewrite ?Q1, ?Q2; auto.
    - congruence.
  Qed.
End Two.

Lemma simple_lone : forall c b n s s0 fuel ops, made c b n true s -> made c b n false s0 -> Forall sane_op ops ->
  Forall (block_aligned (DBG c) (BS c) (data s) (bc s * BS c)) ops ->
  run c fuel s0 (map (lone_op (data s) (bc s * BS c)) ops) = lone_outcome lone (data s) (bc s * BS c) (run c fuel s ops).
Proof.
  intros c b n s s0 fuel ops M M0 S F.
  assert (E : s0 = lone s).
  { destruct (ShiftProofs.made_values _ _ _ _ _ M) as [_ [_ [_ [k [K1 [_ [_ [_ X1]]]]]]]].
    destruct (ShiftProofs.made_values _ _ _ _ _ M0) as [_ [_ [_ [k0 [K2 [_ [_ [_ X2]]]]]]]].
    rewrite K1 in K2. injection K2 as <-. rewrite X1, X2. reflexivity. }
  subst s0. destruct (made_wf _ _ _ _ _ M) as [HC [W [U _]]]. apply v_run; auto. apply (wf_geom _ _ _ W).
Qed.

(** two upstreams, whatever they answer *)
Lemma simple_two : forall c b n s fuel ops ops', made c b n true s -> Forall sane_op ops -> Forall sane_op ops' ->
  Forall (block_aligned (DBG c) (BS c) (data s) (bc s * BS c)) ops -> Forall (block_aligned (DBG c) (BS c) (data s) (bc s * BS c)) ops' ->
  map (lone_op (data s) (bc s * BS c)) ops = map (lone_op (data s) (bc s * BS c)) ops' ->
  lone_outcome lone (data s) (bc s * BS c) (run c fuel s ops) = lone_outcome lone (data s) (bc s * BS c) (run c fuel s ops').
Proof.
  intros c b n s fuel ops ops' M S S' F F' E. destruct (made_wf _ _ _ _ _ M) as [HC [W [U _]]]. assert (G := wf_geom _ _ _ W).
  rewrite <- !(v_run c HC) by auto. rewrite E. reflexivity.
Qed.

(** * monotonic_buffer_resource *)
Definition lone_mono (s : mono) : mono := Mono (mdata s) (msize s) false (mnext s).

Lemma mono_step_lone : forall dbg d n s o,
  mono_step dbg (lone_mono s) (lone_op d n o) = map_res (fun x => (lone_mono (fst x), lone_event d n (snd x))) (mono_step dbg s o).
Proof.
  intros dbg d n s o. destruct o as [size align ans|p|]; [|reflexivity|reflexivity].
  cbn [lone_op mono_step]. unfold mono_allocate. cbn [lone_mono mdata msize mup mnext].
  destruct (size =? 0); [reflexivity|]. destruct dbg; cbn [cassert]; [destruct (is_power_of_2 align); [|reflexivity]|].
  all: destruct (mdata s =? 0); [cbn [bind mup lone_mono]; destruct (mup s); reflexivity|].
  all: destruct (skip_to_align _ (mnext s) align) as [k| | |]; cbn [bind]; auto.
  all: destruct (wrap 64 (wrap 64 (mnext s + k) + size) <=? wrap 64 (mdata s + msize s)); cbn [bind mup lone_mono].
  all: try (destruct (wrap 64 (mnext s + k) =? 0) eqn:Q; [apply Z.eqb_eq in Q|]; rewrite ?andb_false_r; destruct (mup s); cbn [andb bind map_res fst snd lone_event]; rewrite ?Q; reflexivity).
  all: destruct (mup s); reflexivity.
Qed.

Lemma mono_lone : forall dbg b n ops,
  mono_run dbg (mono_construct b n false) (map (lone_op b n) ops) = lone_outcome lone_mono b n (mono_run dbg (mono_construct b n true) ops).
Proof.
  intros dbg b n ops. change (mono_construct b n false) with (lone_mono (mono_construct b n true)).
  generalize (mono_construct b n true) as s. induction ops as [|o ops IH]; intros s; [reflexivity|].
  cbn [map mono_run]. rewrite mono_step_lone. destruct (mono_step dbg s o) as [[s1 e]| | |]; cbn [bind lone_outcome map_res fst snd]; auto.
  rewrite IH. destruct (mono_run dbg s1 ops) as [[s2 es]| | |]; reflexivity.
Qed.

(** * Witnesses *)
Lemma made_up : forall dbg up, made (conf 8 dbg) 4096 32 up (fresh 4096 8 up).
Proof.
  intros dbg up. destruct (ShiftProofs.made_at dbg 4096 (or_introl eq_refl)) as [A B C D].
  constructor; auto. destruct dbg; reflexivity.
Qed.

Lemma odd_answers : forall fuel,
  run (conf 8 true) (S fuel) (fresh 4096 8 true) [OAllocate 100 1 (fun _ _ => 9001)] = Abort /\
  run (conf 8 true) (S fuel) (fresh 4096 8 false) [OAllocate 100 1 (fun _ _ => 0)] = Ok (fresh 4096 8 false, [EAllocate 100 1 0 []]).
Proof. intros fuel. split; vm_compute; reflexivity. Qed.

Lemma odd_returns : forall dbg fuel,
  run (conf 8 dbg) fuel (fresh 4096 8 true) [ODeallocate 9001] = Abort /\
  run (conf 8 dbg) fuel (fresh 4096 8 false) [ODeallocate 0] = Ok (fresh 4096 8 false, [EDeallocate 0 []]).
Proof. intros dbg fuel. destruct dbg; split; vm_compute; reflexivity. Qed.
