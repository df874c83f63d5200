(** Lemmas about callables that throw. *)

Require Import ZArith List Bool Lia.
Require Import Verif.Outcome Verif.TimerSpec Verif.TimerModel Verif.TimerProofs Verif.ThrowSpec Verif.ThrowModel.
Import ListNotations.
Open Scope Z_scope.
Open Scope res_scope.

Lemma meets_dec : forall l x, meets_exception l x \/ ~ meets_exception l x.
Proof.
  intros l [o k c]. unfold meets_exception. cbn.
  destruct o; destruct k, c; auto; try (right; intuition discriminate).
  - destruct (owned_by l s); [right; intuition congruence|left; split; [reflexivity|discriminate]].
  - destruct (owned_by l s); [right; intuition congruence|left; split; [reflexivity|discriminate]].
Qed.

Lemma throw_met : forall N st l x st1 a, tinv N st l -> timer_step N st (op x) = Ok (st1, a) ->
  (meets_exception l x -> throw_step N st x = Abort) /\
  (~ meets_exception l x -> throw_step N st x = Ok (Returns (st1, a))).
Proof.
  intros N st l [o k c] st1 a [_ O] H. unfold meets_exception, throw_step. cbn [op clock_throws callable_throws] in *.
  destruct o as [s now f|d s|d s|s now|s|s tick now|s]; cbn [timer_step] in H.
  - destruct (st s); [discriminate H|]. destruct (timer_new N now f); [|discriminate H]. injection H as <- <-.
    destruct k, c; cbn; split; intros X; try reflexivity; exfalso; intuition discriminate.
  - cbn [timer_step]. rewrite H. split; [intros []|reflexivity].
  - cbn [timer_step]. rewrite H. split; [intros []|reflexivity].
  - destruct (st s); [|discriminate H]. injection H as <- <-.
    destruct k; cbn; split; intros X; try reflexivity; exfalso; intuition discriminate.
  - cbn [timer_step]. rewrite H. split; [intros []|reflexivity].
  - destruct (st s); [|discriminate H]. apply bind_ok in H. destruct H as [v [Hv H]]. injection H as <- <-.
    destruct k; cbn [user]; split; intros X; try reflexivity; try (exfalso; intuition discriminate).
    rewrite Hv. reflexivity.
  - assert (Os := O s). destruct (st s) as [t|]; [|discriminate H]. injection H as <- <-. rewrite Os. unfold holds.
    destruct (callback_ t) as [[ty n]|].
    + destruct c; cbn; split; intros X; try reflexivity; exfalso.
      * apply X. split; [reflexivity|discriminate].
      * destruct X; discriminate.
    + split; [intros [_ X]; contradiction X; reflexivity|intros _; reflexivity].
Qed.

Lemma exception_head : forall l x ops,
  (exists pre y post, x :: ops = pre ++ y :: post /\ meets_exception (fold_left keepers_after (map op pre) l) y) <->
  meets_exception l x \/
  exists pre y post, ops = pre ++ y :: post /\ meets_exception (fold_left keepers_after (map op pre) (keepers_after l (op x))) y.
Proof.
  intros l x ops. split.
  - intros [pre [y [post [E M]]]]. destruct pre as [|z pre]; cbn in *; injection E as -> ->; [left; auto|right; eauto 6].
  - intros [M|[pre [y [post [-> M]]]]]; [exists [], x, ops; auto|]. exists (x :: pre), y, post. auto.
Qed.

Lemma throw_outcome : forall N ops st l st' es, tinv N st l -> timer_run N st (map op ops) = Ok (st', es) ->
  ((exists pre x post, ops = pre ++ x :: post /\ meets_exception (fold_left keepers_after (map op pre) l) x) ->
   throw_run N st ops = Abort) /\
  (~ (exists pre x post, ops = pre ++ x :: post /\ meets_exception (fold_left keepers_after (map op pre) l) x) ->
   throw_run N st ops = Ok (st', map XSeen es)).
Proof.
  intros N. induction ops as [|x ops IH]; intros st l st' es I H.
  - cbn in H. injection H as <- <-. split; [|reflexivity]. intros [[|y pre] [x [post [E _]]]]; discriminate E.
  - cbn [map timer_run] in H. apply bind_ok in H. destruct H as [[st1 a] [H1 H2]].
    apply bind_ok in H2. destruct H2 as [[st2 b] [H2 H3]]. injection H3 as <- <-.
    destruct (throw_met _ _ _ _ _ _ I H1) as [T1 T2]. destruct (step_inv _ _ _ _ _ _ I H1) as [I1 _].
    unfold really_after in I1. destruct (IH _ _ _ _ I1 H2) as [R1 R2].
    rewrite exception_head. cbn [throw_run]. destruct (meets_dec l x) as [M|M].
    + rewrite (T1 M). split; [reflexivity|]. intros X. contradiction X. left. exact M.
    + rewrite (T2 M). cbn [bind]. split.
      * intros [X|X]; [contradiction|]. rewrite (R1 X). reflexivity.
      * intros X. rewrite R2 by tauto. cbn [bind]. rewrite map_app. reflexivity.
Qed.

Lemma throw_exact : forall N ops, well_used N [] (map op ops) -> steady (readings (map op ops)) ->
  exists st es, timer_run N no_timers (map op ops) = Ok (st, es) /\
    (exception_in ops -> throw_run N no_timers ops = Abort) /\
    (~ exception_in ops -> throw_run N no_timers ops = Ok (st, map XSeen es)).
Proof.
  intros N ops W S. destruct (timers_run N _ W S) as [st [es [E _]]]. exists st, es. split; [exact E|].
  apply (throw_outcome N ops no_timers []); auto. apply tinv_start.
Qed.

Lemma throw_never : forall N ops st st' es s, throw_run N st ops = Ok (st', es) -> ~ In (XCaught s) es.
Proof.
  assert (P : forall N st x, throw_step N st x <> Ok Throws).
  { intros N st [o k c]. unfold throw_step. cbn [op clock_throws callable_throws].
    assert (Q : forall A (m : res (ends A)), noexcept_ m <> Ok Throws).
    { intros A m. unfold noexcept_. destruct m as [[a|]| | |]; discriminate. }
    destruct o.
    - destruct (st s); [discriminate|]. destruct (timer_new N now c0); [apply Q|discriminate].
    - destruct (timer_step N st (TMove d s)); discriminate.
    - destruct (timer_step N st (TAssign d s)); discriminate.
    - destruct (st s); [apply Q|discriminate].
    - destruct (timer_step N st (TStart s)); discriminate.
    - destruct (st s); [apply Q|discriminate].
    - destruct (st s) as [t|]; [|discriminate]. destruct (callback_ t); apply Q. }
  intros N. induction ops as [|x ops IH]; intros st st' es s H; cbn [throw_run] in H.
  - injection H as <- <-. intros [].
  - apply bind_ok in H. destruct H as [r [H1 H]]. destruct r as [[st1 a]|]; [|exfalso; exact (P N st x H1)].
    apply bind_ok in H. destruct H as [[st2 b] [H2 H3]]. injection H3 as <- <-.
    rewrite in_app_iff. intros [X|X]; [|exact (IH _ _ _ _ H2 X)].
    apply in_map_iff in X. destruct X as [e [X _]]. discriminate X.
Qed.

Lemma throw_construct : forall N s now ty bytes, (length bytes <= N)%nat ->
  throw_run N no_timers [XOp (TNew s now (ty, bytes)) false true] = Abort.
Proof.
  intros N s now ty bytes L. cbn. apply Nat.leb_le in L. rewrite L. reflexivity.
Qed.

Lemma throw_quiet : forall N ops, well_used N [] (map op ops) -> steady (readings (map op ops)) ->
  ~ exception_in ops ->
  exists st es, timer_run N no_timers (map op ops) = Ok (st, es) /\ throw_run N no_timers ops = Ok (st, map XSeen es).
Proof. intros N ops W S Q. destruct (throw_exact N ops W S) as [st [es [E [_ X]]]]. exists st, es. auto. Qed.

Lemma throw_instance :
  let quiet o := XOp o false false in
  let c := (5%nat, [1; 2; 3]) in
  let ops := [quiet (TNew 0 1 c); XOp (TMove 1 0) true true; XOp (TDestroy 0) true true] in
  well_used 8 [] (map op (ops ++ [XOp (TDestroy 1) false true])) /\
  ~ exception_in ops /\ exception_in (ops ++ [XOp (TDestroy 1) false true]) /\
  (exists st, throw_run 8 no_timers (ops ++ [quiet (TDestroy 1)]) = Ok (st, [XSeen (TCalled 1 c 1)])) /\
  throw_run 8 no_timers (ops ++ [XOp (TDestroy 1) false true]) = Abort.
Proof.
  intros quiet c ops. split; [cbn; intuition (lia || discriminate)|]. split.
  - intros [pre [x [post [E M]]]].
    do 3 (destruct pre as [|? pre]; [injection E as <- <-; cbn in M; intuition (discriminate || congruence)|injection E as <- E]).
    destruct pre; discriminate E.
  - split; [|split; [eexists; vm_compute; reflexivity|vm_compute; reflexivity]].
    exists ops, (XOp (TDestroy 1) false true), []. split; [reflexivity|]. cbn. split; [reflexivity|discriminate].
Qed.
