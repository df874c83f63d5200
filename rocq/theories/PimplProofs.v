(** Lemmas about fast_pimpl. *)

Require Import List Bool Lia Permutation Arith.
Require Import Verif.Outcome Verif.PimplSpec Verif.PimplModel.
Import ListNotations.

Section P.
  Variable T : cls.

  (** every fast_pimpl holds exactly one T, and no other T exists *)
  Definition inv (m : pmem T) (w : world (value T)) : Prop :=
    (forall u, cells m u = w u) /\ forall u, pimpls m u = match w u with Some _ => true | None => false end.

  (** the result of a program with fast_pimpl is that of the plain one *)
  Definition agree (p : world_events (value T)) (r : res (pmem T * list (pevent (value T)))) : Prop :=
    match p with
    | Runs (w, es) => exists m, r = Ok (m, es) /\ inv m w
    | Terminates => r = Abort
    | Undefined => r = UB
    end.

  Ltac places := repeat match goal with
    | |- context [Nat.eqb ?a ?b] => destruct (Nat.eqb_spec a b); subst
    end.
  Ltac fin C P := eexists; split; [reflexivity|]; split; intros u; cbn [cells pimpls]; unfold set_at; rewrite ?C, ?P;
    places; auto; repeat match goal with H : ?w _ = _ |- _ => rewrite H end; auto; try congruence.

  Lemma begin_same : forall m w d v nx thr, inv m w ->
    agree (begin_plain w d v nx thr)
      (constructing T m d (is_nothrow_constructible T nx) (fun c => placement_new T c c (get d) v nx thr)).
  Proof.
    intros m w d v nx thr [C P]. unfold agree, begin_plain, constructing, placement_new, get. rewrite C, P.
    destruct (w d) eqn:E; [reflexivity|]. unfold calling, leaving, specified, is_nothrow_constructible.
    destruct thr, nx; cbn [bind negb andb]; try reflexivity; fin C P.
  Qed.

  Lemma other_same : forall m w t body p, inv m w ->
    (fetch w t = None -> p = Undefined) ->
    (fetch w t <> None -> agree p (body t)) ->
    agree p (argument T m t body).
  Proof.
    intros m w t body p [C P] H1 H2. destruct t as [v|s]; cbn [argument fetch] in *.
    - apply H2. discriminate.
    - unfold other, member, get. rewrite P. destruct (w s) eqn:E.
      + apply H2. discriminate.
      + rewrite H1; reflexivity.
  Qed.

  Lemma copy_same : forall m w d t thr, inv m w ->
    agree (plain_copy (sealed T) w d t thr)
      (argument T m t (fun t => constructing T m d (is_nothrow_constructible T (n_copy T)) (fun w => new_copy T w (get d) t thr))).
  Proof.
    intros m w d t thr I. assert (B := fun v => begin_same m w d v (n_copy T) thr I).
    apply (other_same m w); [exact I| |]; unfold plain_copy; change (value (sealed T)) with (value T).
    - intros ->. reflexivity.
    - intros _. destruct I as [C P]. unfold fetch.
      unfold new_copy, read_arg. destruct t as [v|s].
      + exact (B (v_copy T v)).
      + unfold constructing, read in *. rewrite C. destruct (w s) as [v|] eqn:E.
        * exact (B (v_copy T v)).
        * unfold agree. destruct (pimpls m d); reflexivity.
  Qed.

  Lemma move_same : forall m w d t thr, inv m w ->
    agree (plain_move (sealed T) w d t thr)
      (argument T m t (fun t => constructing T m d (is_nothrow_constructible T (n_move T)) (fun w => new_move T w (get d) t thr))).
  Proof.
    intros m w d t thr I. apply (other_same m w); [exact I| |]; unfold plain_move; change (value (sealed T)) with (value T).
    - intros ->. reflexivity.
    - destruct I as [C P]. destruct t as [v|s]; cbn [fetch leave]; intros N; unfold agree, constructing, new_move, read_arg, read, get;
        rewrite P; [|rewrite C; destruct (w s) as [v|] eqn:E; [|contradiction]];
        (destruct (w d) eqn:Ed; [reflexivity|]); cbn [bind]; unfold placement_new; rewrite C, Ed;
        unfold calling, leaving, specified, is_nothrow_constructible; cbn [sealed n_move v_move n_dtor];
        destruct thr, (n_move T) eqn:En; cbn [bind negb andb]; try reflexivity; fin C P.
  Qed.

  Lemma assign_same : forall m w d t thr, inv m w ->
    agree (plain_assign (sealed T) w d t thr)
      (argument T m t (fun t => assigning T m d (is_nothrow_copy_assignable T) (fun w => assign_copy T w (get d) t thr))).
  Proof.
    intros m w d t thr I. apply (other_same m w); [exact I| |]; unfold plain_assign; change (value (sealed T)) with (value T).
    - intros ->. destruct (w d); reflexivity.
    - destruct I as [C P]. destruct t as [v|s]; cbn [fetch is_place]; intros N; unfold agree, assigning, member, assign_copy, read_arg, read, get;
        rewrite !P, !C; (destruct (w d) as [x|] eqn:Ed; [|reflexivity]);
        [|destruct (w s) as [v|] eqn:E; [|contradiction]];
        cbn [bind]; unfold calling, leaving, specified, is_nothrow_copy_assignable; cbn [sealed n_assign v_assign v_self_assign];
        destruct thr, (n_assign T) eqn:En; cbn [bind negb andb thrown]; try reflexivity; fin C P.
  Qed.

  Lemma take_same : forall m w d t thr, inv m w ->
    agree (plain_take (sealed T) w d t thr)
      (argument T m t (fun t => assigning T m d (is_nothrow_move_assignable T) (fun w => assign_move T w (get d) t thr))).
  Proof.
    intros m w d t thr I. apply (other_same m w); [exact I| |]; unfold plain_take; change (value (sealed T)) with (value T).
    - intros ->. destruct (w d); reflexivity.
    - destruct I as [C P]. destruct t as [v|s]; cbn [fetch is_place leave]; intros N; unfold agree, assigning, member, assign_move, read_arg, read, get;
        rewrite !P, !C; (destruct (w d) as [x|] eqn:Ed; [|reflexivity]);
        [|destruct (w s) as [v|] eqn:E; [|contradiction]];
        cbn [bind]; unfold calling, leaving, specified, is_nothrow_move_assignable; cbn [sealed n_take v_take v_self_take];
        [|destruct (Nat.eqb_spec d s) as [->|Nd]];
        destruct thr, (n_take T) eqn:En; cbn [bind negb andb thrown]; try reflexivity; fin C P.
  Qed.

  Lemma step_same : forall m w o, inv m w -> agree (plain_step (sealed T) w o) (pimpl_step T m o).
  Proof.
    intros m w o I.
    destruct o as [d thr|d v nx thr|d s thr|d s thr|d t thr|d t thr|d s thr|d s thr|d t thr|d t thr|s|s thr]; cbn [plain_step pimpl_step].
    - apply begin_same; auto.
    - apply begin_same; auto.
    - apply (copy_same m w d (Inside s) thr I).
    - apply (move_same m w d (Inside s) thr I).
    - apply (copy_same m w d t thr I).
    - apply (move_same m w d t thr I).
    - apply (assign_same m w d (Inside s) thr I).
    - apply (take_same m w d (Inside s) thr I).
    - apply (assign_same m w d t thr I).
    - apply (take_same m w d t thr I).
    - destruct I as [C P]. unfold agree, pimpl_read, member, read, get. rewrite !P, !C.
      destruct (w s) as [x|] eqn:Ed; try reflexivity. cbn [bind]. exists m. split; [reflexivity|]. split; auto.
    - destruct I as [C P]. unfold agree, pimpl_destroy, member, read, get. rewrite !P, !C.
      destruct (w s) as [x|] eqn:Ed; try reflexivity. cbn [bind]. unfold calling, leaving, specified. cbn [sealed n_dtor].
      destruct thr, (n_dtor T); cbn [bind negb andb thrown]; try reflexivity; fin C P.
  Qed.

  Lemma run_same : forall ops m w, inv m w -> agree (plain_run (sealed T) w ops) (pimpl_run T m ops).
  Proof.
    induction ops as [|o ops IH]; intros m w I; cbn [plain_run pimpl_run]; [exists m; auto|].
    assert (S := step_same m w o I). unfold agree in S. destruct (plain_step (sealed T) w o) as [[w1 a]| |]; [|rewrite S; reflexivity|rewrite S; reflexivity].
    destruct S as [m1 [-> I1]]. cbn [bind]. specialize (IH m1 w1 I1). unfold agree in *. cbn [sealed value] in *.
    destruct (plain_run (sealed T) w1 ops) as [[w2 b]| |]; [|rewrite IH; reflexivity|rewrite IH; reflexivity].
    destruct IH as [m2 [-> I2]]. cbn [bind]. eauto.
  Qed.

  Lemma agree_like : forall p r, agree p r ->
    match p with
    | Runs (w, es) => exists m, r = Ok (m, es) /\
        forall u, cells m u = w u /\ (pimpls m u = true <-> w u <> None)
    | Terminates => r = Abort
    | Undefined => r = UB
    end.
  Proof.
    intros p r R. destruct p as [[w es]| |]; [|exact R|exact R]. destruct R as [m [E [C P]]].
    exists m. split; [exact E|]. intros u. split; [apply C|]. rewrite P. destruct (w u); intuition congruence.
  Qed.

  Lemma agree_ok : forall p r m es, agree p r -> r = Ok (m, es) -> exists w, p = Runs (w, es) /\ inv m w.
  Proof.
    intros p r m es R E. destruct p as [[w es']| |]; cbn [agree] in R; [|congruence|congruence].
    destruct R as [m' [R I]]. rewrite E in R. injection R as <- <-. eauto.
  Qed.

  Lemma like_plain : forall ops : list (pop (value T)),
    match plain_run (sealed T) (fun _ => None) ops with
    | Runs (w, es) => exists m, pimpl_run T (no_pimpls T) ops = Ok (m, es) /\
        forall u, cells m u = w u /\ (pimpls m u = true <-> w u <> None)
    | Terminates => pimpl_run T (no_pimpls T) ops = Abort
    | Undefined => pimpl_run T (no_pimpls T) ops = UB
    end.
  Proof.
    intros ops. exact (agree_like _ _ (run_same ops (no_pimpls T) (fun _ => None) (conj (fun _ => eq_refl) (fun _ => eq_refl)))).
  Qed.

  (** * Quiet histories, and destructors that are noexcept *)

  Lemma quiet_step : forall w o, quiet o -> plain_step (sealed T) w o = plain_step T w o.
  Proof.
    intros w o Q. destruct o; try reflexivity. cbn [quiet] in Q. cbn [plain_step]. destruct (w s); [|reflexivity].
    destruct throws; [contradiction|]. reflexivity.
  Qed.
  Lemma quiet_run : forall ops w, Forall quiet ops -> plain_run (sealed T) w ops = plain_run T w ops.
  Proof.
    induction ops as [|o ops IH]; intros w F; [reflexivity|]. inversion F as [|x y Q F' E]; subst. cbn [plain_run].
    rewrite (quiet_step w o Q). destruct (plain_step T w o) as [[w1 a]| |]; [|reflexivity|reflexivity].
    rewrite (IH w1 F'). reflexivity.
  Qed.
  Lemma sealed_step : forall w o, n_dtor T = true -> plain_step (sealed T) w o = plain_step T w o.
  Proof. intros w o N. destruct o; try reflexivity. cbn [plain_step sealed n_dtor]. rewrite N. reflexivity. Qed.
  Lemma sealed_run : forall ops w, n_dtor T = true -> plain_run (sealed T) w ops = plain_run T w ops.
  Proof.
    induction ops as [|o ops IH]; intros w N; [reflexivity|]. cbn [plain_run]. rewrite (sealed_step w o N).
    destruct (plain_step T w o) as [[w1 a]| |]; [|reflexivity|reflexivity]. rewrite (IH w1 N). reflexivity.
  Qed.

  (** * Balance *)

  Definition count (p : nat) (l : list nat) : nat := length (filter (Nat.eqb p) l).
  Lemma count_app : forall p a b, count p (a ++ b) = count p a + count p b.
  Proof. intros. unfold count. rewrite filter_app, app_length. reflexivity. Qed.
  Definition alive_at {V} (w : world V) (p : nat) : nat := match w p with Some _ => 1 | None => 0 end.
  Definition balanced (p : nat) (w w' : world (value T)) (es : list (pevent (value T))) : Prop :=
    alive_at w p + count p (begins es) = alive_at w' p + count p (ends es).

  Lemma calling_inv : forall A nx thr (a b r : A), calling nx thr a b = Runs r -> r = if thr then b else a.
  Proof. intros A nx thr a b r H. unfold calling in H. destruct thr; [destruct nx; [discriminate H|]|]; injection H as <-; reflexivity. Qed.

  Lemma begin_balance : forall (w : world (value T)) d v nx thr w' es p, begin_plain w d v nx thr = Runs (w', es) -> balanced p w w' es.
  Proof.
    intros w d v nx thr w' es p H. unfold begin_plain in H. destruct (w d) eqn:E; [discriminate H|]. apply calling_inv in H. unfold balanced.
    destruct thr; injection H as -> ->; cbn [begins ends flat_map app]; unfold count; cbn [filter length]; [lia|].
    unfold alive_at, set_at. destruct (Nat.eqb_spec p d) as [->|N]; [rewrite E; reflexivity|]. cbn. lia.
  Qed.

  Lemma thrown_begins : forall V thr, @begins V (thrown thr) = [] /\ @ends V (thrown thr) = [].
  Proof. intros V []; split; reflexivity. Qed.

  Lemma set_alive : forall (w : world (value T)) d v p, w d <> None -> alive_at (set_at w d (Some v)) p = alive_at w p.
  Proof.
    intros w d v p N. unfold alive_at, set_at. destruct (Nat.eqb_spec p d) as [->|]; [|reflexivity].
    destruct (w d); [reflexivity|contradiction].
  Qed.
  Lemma leave_alive : forall (w : world (value T)) t v p, fetch w t <> None -> alive_at (leave w t v) p = alive_at w p.
  Proof. intros w t v p N. destruct t; cbn [leave fetch] in *; [reflexivity|apply set_alive; exact N]. Qed.
  Lemma leave_none : forall (w : world (value T)) t v d, fetch w t <> None -> w d = None -> leave w t v d = None.
  Proof.
    intros w t v d N E. destruct t; cbn [leave fetch] in *; [exact E|]. unfold set_at.
    destruct (Nat.eqb_spec d s) as [->|]; [contradiction|exact E].
  Qed.
  Lemma leave_some : forall (w : world (value T)) t v d, w d <> None -> leave w t v d <> None.
  Proof.
    intros w t v d N. destruct t; cbn [leave] in *; [exact N|]. unfold set_at.
    destruct (Nat.eqb_spec d s) as [->|]; [discriminate|exact N].
  Qed.

  Lemma step_balance : forall w o w' es p, plain_step T w o = Runs (w', es) -> balanced p w w' es.
  Proof.
    intros w o w' es p H.
    assert (Cp : forall d t thr, plain_copy T w d t thr = Runs (w', es) -> balanced p w w' es).
    { intros d t thr E. unfold plain_copy in E. destruct (fetch w t); [|discriminate E]. eapply begin_balance; eassumption. }
    assert (Mv : forall d t thr, plain_move T w d t thr = Runs (w', es) -> balanced p w w' es).
    { intros d t thr E. unfold plain_move in E. destruct (fetch w t) as [v|] eqn:F; [|discriminate E].
      destruct (w d) eqn:Ed; [discriminate E|]. apply calling_inv in E. unfold balanced.
      assert (N : fetch w t <> None) by congruence.
      destruct thr; injection E as -> ->; cbn [begins ends flat_map app]; unfold count; cbn [filter length].
      - rewrite leave_alive; [lia|exact N].
      - assert (A := leave_alive w t (snd (v_move T false v)) p N).
        assert (B := leave_none w t (snd (v_move T false v)) d N Ed).
        unfold alive_at in *. unfold set_at at 1. destruct (Nat.eqb_spec p d) as [->|Nd].
        + rewrite Ed. reflexivity.
        + cbn [length]. rewrite A. lia. }
    assert (As : forall d t thr, plain_assign T w d t thr = Runs (w', es) -> balanced p w w' es).
    { intros d t thr E. unfold plain_assign in E. destruct (w d) as [x|] eqn:Ed; [|discriminate E].
      destruct (fetch w t) as [v|] eqn:F; [|discriminate E]. apply calling_inv in E. unfold balanced.
      destruct (thrown_begins (value T) thr) as [B1 B2].
      assert (E' : w' = set_at w d (Some (if is_place t d then v_self_assign T thr x else v_assign T thr x v)) /\ es = thrown thr)
        by (destruct thr; injection E as -> ->; split; reflexivity).
      destruct E' as [-> ->]. rewrite B1, B2, set_alive; [lia|congruence]. }
    assert (Tk : forall d t thr, plain_take T w d t thr = Runs (w', es) -> balanced p w w' es).
    { intros d t thr E. unfold plain_take in E. destruct (w d) as [x|] eqn:Ed; [|discriminate E].
      destruct (fetch w t) as [v|] eqn:F; [|discriminate E]. apply calling_inv in E. unfold balanced.
      destruct (thrown_begins (value T) thr) as [B1 B2].
      assert (E' : w' = (if is_place t d then set_at w d (Some (v_self_take T thr x))
                else set_at (leave w t (snd (v_take T thr x v))) d (Some (fst (v_take T thr x v)))) /\ es = thrown thr)
        by (destruct thr; injection E as -> ->; split; reflexivity).
      destruct E' as [-> ->]. rewrite B1, B2. destruct (is_place t d).
      - rewrite set_alive; [lia|congruence].
      - rewrite set_alive; [rewrite leave_alive; [lia|congruence]|]. apply leave_some. congruence. }
    destruct o as [d thr|d v nx thr|d s thr|d s thr|d t thr|d t thr|d s thr|d s thr|d t thr|d t thr|s|s thr]; cbn [plain_step] in H;
      try (eapply begin_balance; eassumption); eauto.
    - destruct (w s) eqn:Ed; [|discriminate H]. injection H as <- <-. reflexivity.
    - destruct (w s) as [x|] eqn:Ed; [|discriminate H]. apply calling_inv in H.
      assert (E' : w' = set_at w s None /\ es = EEnd s x :: thrown thr) by (destruct thr; injection H as -> ->; split; reflexivity).
      destruct E' as [-> ->]. unfold balanced. destruct (thrown_begins (value T) thr) as [B1 B2].
      change (begins (EEnd s x :: thrown thr)) with (begins (@thrown (value T) thr)).
      change (ends (EEnd s x :: thrown thr)) with ([s] ++ ends (@thrown (value T) thr)). rewrite B1, B2.
      unfold count, alive_at, set_at. cbn [filter app].
      destruct (Nat.eqb_spec p s) as [->|N]; [rewrite Ed; reflexivity|]. reflexivity.
  Qed.

  Lemma begins_app : forall (a b : list (pevent (value T))), begins (a ++ b) = begins a ++ begins b.
  Proof. intros. unfold begins. apply flat_map_app. Qed.
  Lemma ends_app : forall (a b : list (pevent (value T))), ends (a ++ b) = ends a ++ ends b.
  Proof. intros. unfold ends. apply flat_map_app. Qed.

  Lemma run_balance : forall ops w w' es p, plain_run T w ops = Runs (w', es) -> balanced p w w' es.
  Proof.
    unfold balanced. induction ops as [|o ops IH]; intros w w' es p H; cbn [plain_run] in H; [injection H as <- <-; reflexivity|].
    destruct (plain_step T w o) as [[w1 a]| |] eqn:E; [|discriminate H|discriminate H].
    destruct (plain_run T w1 ops) as [[w2 b]| |] eqn:R; [|discriminate H|discriminate H]. injection H as <- <-.
    assert (H1 := step_balance _ _ _ _ p E). assert (H2 := IH _ _ _ p R). unfold balanced in H1.
    rewrite begins_app, ends_app, !count_app. lia.
  Qed.
End P.

Lemma balance : forall T ops m es, pimpl_run T (no_pimpls T) ops = Ok (m, es) ->
  forall p, length (filter (Nat.eqb p) (begins es)) = length (filter (Nat.eqb p) (ends es)) + (if pimpls m p then 1 else 0).
Proof.
  intros T ops m es H p.
  destruct (agree_ok T _ _ m es (run_same T ops (no_pimpls T) (fun _ => None) (conj (fun _ => eq_refl) (fun _ => eq_refl))) H) as [w [R [C P]]].
  assert (B := run_balance (sealed T) _ _ _ _ p R). unfold balanced, count, alive_at in B. rewrite P.
  change (value (sealed T)) with (value T) in *. destruct (w p); lia.
Qed.

Lemma quiet_like : forall T ops, Forall quiet ops ->
  match plain_run T (fun _ => None) ops with
  | Runs (w, es) => exists m, pimpl_run T (no_pimpls T) ops = Ok (m, es) /\
      forall u, cells m u = w u /\ (pimpls m u = true <-> w u <> None)
  | Terminates => pimpl_run T (no_pimpls T) ops = Abort
  | Undefined => pimpl_run T (no_pimpls T) ops = UB
  end.
Proof.
  intros T ops Q. refine (agree_like T _ _ _).
  exact (eq_rect _ (fun p => agree T p (pimpl_run T (no_pimpls T) ops)) (run_same T ops (no_pimpls T) (fun _ => None) (conj (fun _ => eq_refl) (fun _ => eq_refl))) _ (quiet_run T ops (fun _ => None) Q)).
Qed.

Lemma sealed_like : forall T ops, n_dtor T = true ->
  match plain_run T (fun _ => None) ops with
  | Runs (w, es) => exists m, pimpl_run T (no_pimpls T) ops = Ok (m, es) /\
      forall u, cells m u = w u /\ (pimpls m u = true <-> w u <> None)
  | Terminates => pimpl_run T (no_pimpls T) ops = Abort
  | Undefined => pimpl_run T (no_pimpls T) ops = UB
  end.
Proof.
  intros T ops N. refine (agree_like T _ _ _).
  exact (eq_rect _ (fun p => agree T p (pimpl_run T (no_pimpls T) ops)) (run_same T ops (no_pimpls T) (fun _ => None) (conj (fun _ => eq_refl) (fun _ => eq_refl))) _ (sealed_run T ops (fun _ => None) N)).
Qed.

(** for no class whose destructor may throw do fast_pimpl and T always agree *)
Lemma throwing_destructor : forall T, n_dtor T = false -> forall v,
  plain_run T (fun _ => None) [PForward 0 v true false; PDestroy 0 true] = Runs (set_at (set_at (fun _ => None) 0 (Some v)) 0 None, [EBegin 0 v; EEnd 0 v; EThrow]) /\
  pimpl_run T (no_pimpls T) [PForward 0 v true false; PDestroy 0 true] = Abort.
Proof.
  intros T N v. split.
  - cbn. unfold calling. cbn. rewrite N. reflexivity.
  - assert (L := like_plain T [PForward 0 v true false; PDestroy 0 true]). cbn in L. exact L.
Qed.

Lemma nothrow_same : forall T q, pimpl_nothrow T q = nothrow_T T q.
Proof.
  intros T q. destruct q; cbn [pimpl_nothrow nothrow_T]; unfold is_nothrow_constructible, pimpl_destructor_noexcept; rewrite ?andb_true_r; reflexivity.
Qed.

Lemma compiles : forall size align n a, pimpl_compiles size align n a = true <-> size = n /\ align = a.
Proof. intros. unfold pimpl_compiles. rewrite andb_true_iff, !Nat.eqb_eq. tauto. Qed.

Lemma agree_iff : forall T,
  (forall ops, match plain_run T (fun _ => None) ops with
     | Runs (w, es) => exists m, pimpl_run T (no_pimpls T) ops = Ok (m, es) /\
         forall u, cells m u = w u /\ (pimpls m u = true <-> w u <> None)
     | Terminates => pimpl_run T (no_pimpls T) ops = Abort
     | Undefined => pimpl_run T (no_pimpls T) ops = UB
     end) <-> n_dtor T = true.
Proof.
  intros T. split; [|intros N ops; apply sealed_like; exact N].
  intros H. destruct (n_dtor T) eqn:N; [reflexivity|]. exfalso.
  destruct (throwing_destructor T N (v_default T)) as [A B].
  specialize (H [PForward 0 (v_default T) true false; PDestroy 0 true]). rewrite A, B in H.
  destruct H as [m [H _]]. discriminate H.
Qed.
