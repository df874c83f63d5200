(** Lemmas about several resources in one program. *)

Require Import ZArith List Bool Arith Lia.
Require Import Verif.Outcome Verif.BitsSpec Verif.SimpleSpec Verif.MonoSpec Verif.WorldSpec.
Require Import Verif.MonoModel Verif.SimpleModel Verif.SimpleView Verif.WorldModel Verif.WorldView.
Require Import Verif.MonoProofs Verif.SimpleMainProofs Verif.SimpleScanProofs.
Import ListNotations.
Open Scope Z_scope.
Open Scope res_scope.

Lemma class_eqb_eq : forall a b, class_eqb a b = true <-> a = b.
Proof.
  intros [|m b|] [|n c|]; cbn; split; intros H; try discriminate; try reflexivity.
  - apply andb_prop in H. destruct H as [A B]. apply Z.eqb_eq in A. apply Z.eqb_eq in B. congruence.
  - injection H as -> ->. rewrite !Z.eqb_refl. reflexivity.
Qed.

Lemma kind_class : forall a b, same_kind a b <-> class_of a = class_of b.
Proof.
  intros [s|m n s|] [t|m' n' t|]; cbn; split; intros H; try discriminate; try contradiction; auto.
  - destruct H. congruence.
  - injection H as -> ->. auto.
Qed.

Lemma class_eqb_refl : forall a, class_eqb a a = true.
Proof. intros. apply class_eqb_eq. reflexivity. Qed.

Lemma body_step_class : forall dbg fuel b o b' e, body_step dbg fuel b o = Ok (b', e) -> class_of b' = class_of b.
Proof.
  intros dbg fuel [s|m n s|] o b' e; cbn [body_step].
  - destruct (mono_step dbg s o) as [[s' e']| | |]; cbn [bind]; intros H; try discriminate.
    injection H as <- <-. reflexivity.
  - destruct (step (Cfg m n dbg) fuel s o) as [[s' e']| | |]; cbn [bind]; intros H; try discriminate.
    injection H as <- <-. reflexivity.
  - intros H. injection H as <- <-. reflexivity.
Qed.

Lemma own_step : forall dbg fuel o c, own_code o ->
  object_step dbg fuel o c =
    ' (b, e) <- body_step dbg fuel (members o) c;; Ok (Obj (allocate_ o) (deallocate_ o) b, e).
Proof.
  intros dbg fuel o c [A D]. unfold object_step, through.
  destruct c; rewrite ?A, ?D, class_eqb_refl; reflexivity.
Qed.

Lemma put_same : forall W x o, put W x o x = Some o.
Proof. intros. unfold put. rewrite Nat.eqb_refl. reflexivity. Qed.
Lemma put_other : forall W x o y, y <> x -> put W x o y = W y.
Proof. intros W x o y H. unfold put. destruct (Nat.eqb_spec y x); [contradiction|reflexivity]. Qed.

Lemma body_run_mono : forall dbg fuel ops s,
  body_run dbg fuel (BMono s) ops = ' (s', es) <- mono_run dbg s ops;; Ok (BMono s', es).
Proof.
  induction ops as [|o ops IH]; intros s; [reflexivity|]. cbn [body_run mono_run body_step].
  destruct (mono_step dbg s o) as [[s1 e]| | |]; cbn [bind]; try reflexivity.
  rewrite IH. destruct (mono_run dbg s1 ops) as [[s2 es]| | |]; reflexivity.
Qed.

Lemma body_run_simple : forall dbg fuel ops m n s,
  body_run dbg fuel (BSimple m n s) ops = ' (s', es) <- run (Cfg m n dbg) fuel s ops;; Ok (BSimple m n s', es).
Proof.
  induction ops as [|o ops IH]; intros m n s; [reflexivity|]. cbn [body_run run body_step].
  destruct (step (Cfg m n dbg) fuel s o) as [[s1 e]| | |]; cbn [bind]; try reflexivity.
  rewrite IH. destruct (run (Cfg m n dbg) fuel s1 ops) as [[s2 es]| | |]; reflexivity.
Qed.

(** * Resources are independent as long as they are not assigned *)

Definition alive (W : world) (o : wop) : Prop := exists x c a, o = WCall x c /\ W x = Some a.

Lemma calls_to_cons : forall x y c ops,
  calls_to x (WCall y c :: ops) = if Nat.eqb y x then c :: calls_to x ops else calls_to x ops.
Proof. intros. unfold calls_to. cbn [flat_map]. destruct (Nat.eqb y x); reflexivity. Qed.

Lemma events_of_cons : forall x y e es,
  events_of x ((y, e) :: es) = if Nat.eqb y x then e :: events_of x es else events_of x es.
Proof. intros. unfold events_of. cbn [filter fst map]. destruct (Nat.eqb y x); reflexivity. Qed.

(** every object of the world behaves as if it were alone *)
Lemma alone : forall dbg fuel ops W W' es, (forall x a, W x = Some a -> own_code a) ->
  Forall is_call ops -> world_run dbg fuel W ops = Ok (W', es) ->
  forall x a, W x = Some a ->
  exists b, body_run dbg fuel (members a) (calls_to x ops) = Ok (b, events_of x es) /\ W' x = Some (made_of b).
Proof.
  induction ops as [|o ops IH]; intros W W' es OW FC R x a Hx.
  - injection R as <- <-. exists (members a). split; [reflexivity|].
    rewrite Hx. destruct (OW x a Hx) as [A D]. destruct a as [p q b]. cbn in *. subst. reflexivity.
  - destruct o as [y c|y z|y z]; [|inversion FC as [|? ? F ?]; contradiction F..].
    cbn [world_run world_step] in R.
    destruct (W y) as [ay|] eqn:Hy; [|discriminate].
    pose proof (OW y ay Hy) as OY. rewrite (own_step dbg fuel ay c OY) in R.
    destruct (body_step dbg fuel (members ay) c) as [[b e]| | |] eqn:B; cbn [bind] in R; try discriminate.
    set (ay' := Obj (allocate_ ay) (deallocate_ ay) b) in *.
    destruct (world_run dbg fuel (put W y ay') ops) as [[W2 es2]| | |] eqn:R2; cbn [bind] in R; try discriminate.
    injection R as <- <-. cbn [app].
    assert (OY' : own_code ay').
    { destruct OY as [A D]. pose proof (body_step_class _ _ _ _ _ _ B) as C.
      split; cbn; congruence. }
    assert (OW' : forall x a, put W y ay' x = Some a -> own_code a).
    { intros x0 a0 H. destruct (Nat.eq_dec x0 y) as [->|N].
      - rewrite put_same in H. injection H as <-. exact OY'.
      - rewrite put_other in H by exact N. eauto. }
    assert (FC' : Forall is_call ops) by (inversion FC; assumption).
    rewrite calls_to_cons, events_of_cons.
    destruct (Nat.eqb_spec y x) as [->|N].
    + assert (a = ay) by congruence. subst a.
      destruct (IH _ _ _ OW' FC' R2 x ay' (put_same W x ay')) as (b' & RB & E).
      exists b'. split; [|exact E]. cbn [body_run]. rewrite B. cbn [bind]. cbn [members ay'] in RB.
      rewrite RB. reflexivity.
    + destruct (IH _ _ _ OW' FC' R2 x a) as (b' & RB & E); [rewrite put_other; auto|].
      exists b'. auto.
Qed.

(** and a program comes to an end when every resource by itself does *)
Lemma together : forall dbg fuel ops W, (forall x a, W x = Some a -> own_code a) ->
  Forall (alive W) ops ->
  (forall x a, W x = Some a -> exists b es, body_run dbg fuel (members a) (calls_to x ops) = Ok (b, es)) ->
  exists W' es, world_run dbg fuel W ops = Ok (W', es).
Proof.
  induction ops as [|o ops IH]; intros W OW FA H; [exists W, []; reflexivity|].
  inversion FA as [|? ? (x & c & a & -> & Hx) FA']. subst.
  pose proof (OW x a Hx) as OA.
  destruct (H x a Hx) as (b & es & R). rewrite calls_to_cons, Nat.eqb_refl in R. cbn [body_run] in R.
  destruct (body_step dbg fuel (members a) c) as [[b1 e]| | |] eqn:B; cbn [bind] in R; try discriminate.
  set (a' := Obj (allocate_ a) (deallocate_ a) b1).
  destruct (IH (put W x a')) as (W2 & es2 & R2).
  - intros y ay Hy. destruct (Nat.eq_dec y x) as [->|N].
    + rewrite put_same in Hy. injection Hy as <-. destruct OA as [A D].
      pose proof (body_step_class _ _ _ _ _ _ B) as C. split; cbn; congruence.
    + rewrite put_other in Hy by exact N. eauto.
  - apply Forall_forall. intros o Ho. rewrite Forall_forall in FA'.
    destruct (FA' o Ho) as (y & cy & ay & -> & Hy).
    destruct (Nat.eq_dec y x) as [->|N].
    + exists x, cy, a'. split; [reflexivity|apply put_same].
    + exists y, cy, ay. split; [reflexivity|]. rewrite put_other; auto.
  - intros y ay Hy. destruct (Nat.eq_dec y x) as [->|N].
    + rewrite put_same in Hy. injection Hy as <-. cbn [members a'].
      destruct (body_run dbg fuel b1 (calls_to x ops)) as [[b2 es2]| | |] eqn:R2; cbn [bind] in R; try discriminate.
      eauto.
    + rewrite put_other in Hy by exact N. destruct (H y ay Hy) as (b2 & es2 & R2).
      rewrite calls_to_cons in R2. destruct (Nat.eqb_spec x y); [congruence|]. eauto.
  - exists W2. eexists. cbn [world_run world_step]. rewrite Hx, (own_step dbg fuel a c OA), B. cbn [bind].
    fold a'. rewrite R2. reflexivity.
Qed.

(** * The memory of different resources *)

Lemma null_run : forall dbg fuel ops, exists es, body_run dbg fuel BNull ops = Ok (BNull, es).
Proof.
  induction ops as [|o ops (es & IH)]; [exists []; reflexivity|].
  cbn [body_run body_step bind]. rewrite IH. cbn [bind]. eauto.
Qed.

Lemma held_class : forall dbg fuel ops b b' es, body_run dbg fuel b ops = Ok (b', es) -> class_of b' = class_of b.
Proof.
  induction ops as [|o ops IH]; intros b b' es R; [injection R as <- <-; reflexivity|].
  cbn [body_run] in R. destruct (body_step dbg fuel b o) as [[b1 e]| | |] eqn:B; cbn [bind] in R; try discriminate.
  destruct (body_run dbg fuel b1 ops) as [[b2 es2]| | |] eqn:R2; cbn [bind] in R; try discriminate.
  injection R as <- <-. rewrite (IH _ _ _ R2). eapply body_step_class; eauto.
Qed.

Lemma alone_sound : forall dbg fuel place b ops, just_made dbg fuel place b ops ->
  exists b' es, body_run dbg fuel b ops = Ok (b', es) /\ pairwise_disjoint (held b es) /\
    forall a, In a (held b es) -> in_bounds (fst place) (fst place + snd place) a.
Proof.
  intros dbg fuel [d n] [s|m k s|] ops; cbn [just_made fst snd held].
  - intros (M & (up & ->) & F).
    destruct (mono_contract dbg d n up ops M F) as (s' & es & R & _ & P & I & _).
    exists (BMono s'), es. rewrite body_run_mono, R. auto.
  - intros (up & M & Fu & V).
    destruct (no_overlap (Cfg m k dbg) d n up s fuel ops M Fu V) as (s' & es & R & P & _ & I).
    exists (BSimple m k s'), es. rewrite body_run_simple, R. split; [reflexivity|split; [exact P|]].
    intros a Ha. specialize (I a Ha). destruct M as [C B _ E N _].
    destruct (construction (Cfg m k dbg) d n up C B) as (s1 & E1 & _ & _ & _ & _ & G & _).
    assert (s1 = s) by congruence. subst s1.
    destruct G as [[_ G]|(_ & _ & _ & G1 & G2)]; [contradiction|].
    unfold in_bounds in *. lia.
  - intros _. destruct (null_run dbg fuel ops) as (es & R). exists BNull, es. split; [exact R|].
    split; [|intros a []]. intros l1 a l2 b l3 H. destruct l1; discriminate.
Qed.

Lemma separate : forall dbg fuel (W : world) place ops,
  (forall x a, W x = Some a -> a = made_of (members a) /\ just_made dbg fuel (place x) (members a) (calls_to x ops)) ->
  (forall x y, W x <> None -> W y <> None -> x <> y -> disjoint (place x) (place y)) ->
  (forall o, In o ops -> exists x c, o = WCall x c /\ W x <> None) ->
  exists W' es, world_run dbg fuel W ops = Ok (W', es) /\
    (forall x a, W x = Some a -> pairwise_disjoint (held (members a) (events_of x es))) /\
    (forall x y a b p q, x <> y -> W x = Some a -> W y = Some b ->
       In p (held (members a) (events_of x es)) -> In q (held (members b) (events_of y es)) -> disjoint p q).
Proof.
  intros dbg fuel W place ops HM HD HA.
  assert (OW : forall x a, W x = Some a -> own_code a).
  { intros x a Hx. destruct (HM x a Hx) as (-> & _). split; reflexivity. }
  assert (FA : Forall (alive W) ops).
  { apply Forall_forall. intros o Ho. destruct (HA o Ho) as (x & c & -> & N).
    destruct (W x) as [a|] eqn:E; [|contradiction]. exists x, c, a. auto. }
  assert (FC : Forall is_call ops).
  { eapply Forall_impl; [|exact FA]. intros o (x & c & a & -> & _). exact I. }
  destruct (together dbg fuel ops W OW FA) as (W' & es & R).
  { intros x a Hx. destruct (HM x a Hx) as (_ & J).
    destruct (alone_sound _ _ _ _ _ J) as (b & es & R & _). eauto. }
  exists W', es. split; [exact R|].
  assert (S : forall x a, W x = Some a -> pairwise_disjoint (held (members a) (events_of x es)) /\
    forall p, In p (held (members a) (events_of x es)) -> in_bounds (fst (place x)) (fst (place x) + snd (place x)) p).
  { intros x a Hx. destruct (HM x a Hx) as (_ & J).
    destruct (alone_sound _ _ _ _ _ J) as (b & es' & R' & P & Q).
    destruct (alone dbg fuel ops W W' es OW FC R x a Hx) as (b2 & R2 & _).
    assert (es' = events_of x es) by congruence. subst es'. auto. }
  split; [intros; apply S; auto|].
  intros x y a b p q N Hx Hy Hp Hq.
  destruct (S x a Hx) as (_ & Sx). destruct (S y b Hy) as (_ & Sy).
  specialize (Sx p Hp). specialize (Sy q Hq).
  assert (D : disjoint (place x) (place y)) by (apply HD; congruence).
  unfold disjoint, in_bounds in *. lia.
Qed.

(** * Assignment *)

Lemma world_run_app : forall dbg fuel ops1 W ops2, world_run dbg fuel W (ops1 ++ ops2) =
  (' (W1, e1) <- world_run dbg fuel W ops1;; ' (W2, e2) <- world_run dbg fuel W1 ops2;; Ok (W2, e1 ++ e2)).
Proof.
  induction ops1 as [|o ops1 IH]; intros W ops2.
  - cbn [app world_run bind]. destruct (world_run dbg fuel W ops2) as [[W2 e2]| | |]; reflexivity.
  - cbn [app world_run]. destruct (world_step dbg fuel W o) as [[W1 e]| | |]; cbn [bind]; try reflexivity.
    rewrite IH. destruct (world_run dbg fuel W1 ops1) as [[W2 e2]| | |]; cbn [bind]; try reflexivity.
    destruct (world_run dbg fuel W2 ops2) as [[W3 e3]| | |]; cbn [bind]; try reflexivity.
    rewrite app_assoc. reflexivity.
Qed.

(** the calls [cs] on resource [x] *)
Definition on (x : nat) (cs : list op) : list wop := map (WCall x) cs.

Lemma run_on : forall dbg fuel cs W x a b es, W x = Some a -> own_code a ->
  body_run dbg fuel (members a) cs = Ok (b, es) ->
  exists W', world_run dbg fuel W (on x cs) = Ok (W', map (pair x) es) /\ W' x = Some (made_of b) /\
    forall y, y <> x -> W' y = W y.
Proof.
  induction cs as [|c cs IH]; intros W x a b es Hx OA R.
  - injection R as <- <-. exists W. split; [reflexivity|split; [|auto]].
    rewrite Hx. destruct OA as [A D]. destruct a as [p q b]. cbn in *. subst. reflexivity.
  - cbn [body_run] in R. destruct (body_step dbg fuel (members a) c) as [[b1 e]| | |] eqn:B; cbn [bind] in R; try discriminate.
    destruct (body_run dbg fuel b1 cs) as [[b2 es2]| | |] eqn:R2; cbn [bind] in R; try discriminate.
    injection R as <- <-. set (a' := Obj (allocate_ a) (deallocate_ a) b1).
    assert (OA' : own_code a').
    { destruct OA as [A D]. pose proof (body_step_class _ _ _ _ _ _ B) as C. split; cbn; congruence. }
    destruct (IH (put W x a') x a' b2 es2 (put_same W x a') OA' R2) as (W' & RW & E & F).
    exists W'. split; [|split; [exact E|]].
    + cbn [on map world_run world_step]. rewrite Hx, (own_step dbg fuel a c OA), B. cbn [bind].
      fold a'. unfold on in RW. rewrite RW. reflexivity.
    + intros y N. rewrite F by exact N. apply put_other. exact N.
Qed.

(** after x = y the two resources answer the same calls with the same pointers *)
Lemma assigned_twins : forall dbg fuel (W : world) x y a b cs b' es, x <> y ->
  W x = Some a -> W y = Some b -> own_code b -> class_of (members a) = class_of (members b) ->
  body_run dbg fuel (members b) cs = Ok (b', es) ->
  exists W', world_run dbg fuel W (WAssign x y :: on x cs ++ on y cs) =
    Ok (W', map (pair x) es ++ map (pair y) es).
Proof.
  intros dbg fuel W x y a b cs b' es N Hx Hy OB C R.
  cbn [world_run world_step]. rewrite Hx, Hy, C, class_eqb_refl. cbn [bind app].
  destruct (run_on dbg fuel cs (put W x b) x b b' es (put_same W x b) OB R) as (W1 & R1 & _ & F).
  destruct (run_on dbg fuel cs W1 y b b' es) as (W2 & R2 & _ & _); auto.
  { rewrite F by auto. rewrite put_other; auto. }
  rewrite world_run_app, R1. cbn [bind]. rewrite R2. cbn [bind]. eexists. reflexivity.
Qed.

Lemma served_twice : forall dbg fuel (W : world) x y a b sz al ans b' p, x <> y ->
  W x = Some a -> W y = Some b -> own_code b -> class_of (members a) = class_of (members b) ->
  body_step dbg fuel (members b) (OAllocate sz al ans) = Ok (b', EAllocate sz al p []) ->
  p <> 0 -> 0 < sz ->
  exists W', world_run dbg fuel W [WAssign x y; WCall x (OAllocate sz al ans); WCall y (OAllocate sz al ans)] =
      Ok (W', [(x, EAllocate sz al p []); (y, EAllocate sz al p [])]) /\
    ~ disjoint (p, sz) (p, sz).
Proof.
  intros dbg fuel W x y a b sz al ans b' p N Hx Hy OB C R P S.
  destruct (assigned_twins dbg fuel W x y a b [OAllocate sz al ans] b' [EAllocate sz al p []] N Hx Hy OB C) as (W' & E).
  { cbn [body_run]. rewrite R. reflexivity. }
  exists W'. split; [exact E|]. unfold disjoint. cbn. lia.
Qed.

(** * The pointers of the base class *)

Definition same_class (W : world) (o : wop) : Prop :=
  match o with
  | WAssignBase x y => forall a b, W x = Some a -> W y = Some b -> class_of (members a) = class_of (members b)
  | _ => True
  end.

Lemma classes_stay : forall dbg fuel W o W' es, world_step dbg fuel W o = Ok (W', es) ->
  forall x, option_map (fun a => class_of (members a)) (W' x) = option_map (fun a => class_of (members a)) (W x).
Proof.
  intros dbg fuel W o W' es H x. destruct o as [y c|y z|y z]; cbn [world_step] in H.
  - destruct (W y) as [a|] eqn:Hy; [|discriminate]. unfold object_step in H.
    destruct (class_eqb (through a c) (class_of (members a))); [|discriminate].
    destruct (body_step dbg fuel (members a) c) as [[b e]| | |] eqn:B; cbn [bind] in H; try discriminate.
    injection H as <- <-. unfold put. destruct (Nat.eqb_spec x y) as [->|]; [|reflexivity].
    rewrite Hy. cbn. f_equal. eapply body_step_class; eauto.
  - destruct (W y) as [a|] eqn:Hy; [|discriminate]. destruct (W z) as [b|] eqn:Hz; [|discriminate].
    destruct (class_eqb (class_of (members a)) (class_of (members b))) eqn:C; [|discriminate].
    injection H as <- <-. unfold put. destruct (Nat.eqb_spec x y) as [->|]; [|reflexivity].
    rewrite Hy. cbn. f_equal. symmetry. apply class_eqb_eq. exact C.
  - destruct (W y) as [a|] eqn:Hy; [|discriminate]. destruct (W z) as [b|] eqn:Hz; [|discriminate].
    injection H as <- <-. unfold put. destruct (Nat.eqb_spec x y) as [->|]; [|reflexivity].
    rewrite Hy. reflexivity.
Qed.

Lemma pointers_stay : forall dbg fuel ops W W' es, (forall x a, W x = Some a -> own_code a) ->
  Forall (same_class W) ops -> world_run dbg fuel W ops = Ok (W', es) ->
  forall x a, W' x = Some a -> own_code a.
Proof.
  induction ops as [|o ops IH]; intros W W' es OW FS R x a Hx.
  - injection R as <- <-. eauto.
  - cbn [world_run] in R. destruct (world_step dbg fuel W o) as [[W1 e1]| | |] eqn:S; cbn [bind] in R; try discriminate.
    destruct (world_run dbg fuel W1 ops) as [[W2 e2]| | |] eqn:R2; cbn [bind] in R; try discriminate.
    injection R as <- <-. eapply (IH W1); eauto.
    + intros y ay Hy. destruct o as [z c|z t|z t]; cbn [world_step] in S.
      * destruct (W z) as [az|] eqn:Hz; [|discriminate].
        rewrite (own_step dbg fuel az c (OW z az Hz)) in S.
        destruct (body_step dbg fuel (members az) c) as [[b e]| | |] eqn:B; cbn [bind] in S; try discriminate.
        injection S as <- <-. destruct (Nat.eq_dec y z) as [->|N].
        -- rewrite put_same in Hy. injection Hy as <-. destruct (OW z az Hz) as [A D].
           pose proof (body_step_class _ _ _ _ _ _ B) as C. split; cbn; congruence.
        -- rewrite put_other in Hy by exact N. eauto.
      * destruct (W z) as [az|] eqn:Hz; [|discriminate]. destruct (W t) as [at_|] eqn:Ht; [|discriminate].
        destruct (class_eqb (class_of (members az)) (class_of (members at_))) eqn:C; [|discriminate].
        injection S as <- <-. destruct (Nat.eq_dec y z) as [->|N].
        -- rewrite put_same in Hy. injection Hy as <-. eauto.
        -- rewrite put_other in Hy by exact N. eauto.
      * destruct (W z) as [az|] eqn:Hz; [|discriminate]. destruct (W t) as [at_|] eqn:Ht; [|discriminate].
        injection S as <- <-. destruct (Nat.eq_dec y z) as [->|N].
        -- rewrite put_same in Hy. injection Hy as <-.
           inversion FS as [|? ? F1 F2]. subst. cbn in F1. specialize (F1 az at_ Hz Ht).
           destruct (OW t at_ Ht) as [A D]. split; cbn; congruence.
        -- rewrite put_other in Hy by exact N. eauto.
    + inversion FS as [|? ? F1 F2]. subst. apply Forall_forall. intros p Hp.
      rewrite Forall_forall in F2. specialize (F2 p Hp). destruct p as [|y z|y z]; cbn in *; auto.
      intros ay az Hy Hz.
      pose proof (classes_stay _ _ _ _ _ _ S y) as Cy. pose proof (classes_stay _ _ _ _ _ _ S z) as Cz.
      rewrite Hy in Cy. rewrite Hz in Cz. cbn in Cy, Cz.
      destruct (W y) as [by_|] eqn:Ey; [|discriminate]. destruct (W z) as [bz|] eqn:Ez; [|discriminate].
      cbn in Cy, Cz. injection Cy as ->. injection Cz as ->. eauto.
Qed.

(** so every call runs the code of the object's class *)
Lemma own_calls : forall dbg fuel ops W W' es x a c, (forall x a, W x = Some a -> own_code a) ->
  Forall (same_class W) ops -> world_run dbg fuel W ops = Ok (W', es) -> W' x = Some a ->
  object_step dbg fuel a c = ' (b, e) <- body_step dbg fuel (members a) c;; Ok (made_of b, e).
Proof.
  intros dbg fuel ops W W' es x a c OW FS R Hx.
  assert (O : own_code a) by (eapply pointers_stay; eauto).
  rewrite (own_step dbg fuel a c O).
  destruct (body_step dbg fuel (members a) c) as [[b e]| | |] eqn:B; cbn [bind]; try reflexivity.
  destruct O as [A D]. pose proof (body_step_class _ _ _ _ _ _ B) as C.
  unfold made_of. congruence.
Qed.

(** through memory_resource, every resource can be assigned to every other; then the
    first call of it is undefined *)
Lemma base_assigned : forall dbg fuel (W : world) x y a b c, W x = Some a -> W y = Some b ->
  own_code b -> ~ same_kind (members a) (members b) ->
  c <> ORelease -> world_run dbg fuel W [WAssignBase x y; WCall x c] = UB.
Proof.
  intros dbg fuel W x y a b c Hx Hy [A D] C NR. rewrite kind_class in C.
  cbn [world_run world_step]. rewrite Hx, Hy. cbn [bind]. rewrite put_same.
  unfold object_step, through. cbn [members allocate_ deallocate_].
  assert (E : class_eqb (class_of (members b)) (class_of (members a)) = false).
  { destruct (class_eqb (class_of (members b)) (class_of (members a))) eqn:E; auto.
    apply class_eqb_eq in E. congruence. }
  destruct c; [rewrite A, E|rewrite D, E|congruence]; reflexivity.
Qed.

Lemma null_hands_out_nothing : forall dbg fuel cs, exists es, body_run dbg fuel BNull cs = Ok (BNull, es) /\
  forall sz al p l, In (EAllocate sz al p l) es -> p = 0.
Proof.
  intros dbg fuel cs. induction cs as [|c cs (es & R & H)].
  - exists []. split; [reflexivity|]. intros ? ? ? ? [].
  - cbn [body_run body_step bind]. rewrite R. cbn [bind].
    eexists. split; [reflexivity|].
    intros sz al p l [E|I]; [|exact (H _ _ _ _ I)].
    destruct c; inversion E; reflexivity.
Qed.

(** * Every program that assigns resources *)

Definition traced (W0 : world) (dbg : bool) (fuel : nat) (h : past) (f : nat -> nat) (W : world) : Prop :=
  forall x a, W x = Some a ->
    (exists a0, W0 x = Some a0 /\ class_of (members a) = class_of (members a0)) /\
    (exists s0, W0 (f x) = Some s0 /\ allocate_ a = class_of (members s0) /\ deallocate_ a = class_of (members s0)) /\
    (exists p0 es, W0 (fst (h x)) = Some p0 /\ body_run dbg fuel (members p0) (snd (h x)) = Ok (members a, es)).

Lemma body_run_snoc : forall dbg fuel cs b c b1 es b2 e, body_run dbg fuel b cs = Ok (b1, es) ->
  body_step dbg fuel b1 c = Ok (b2, e) -> body_run dbg fuel b (cs ++ [c]) = Ok (b2, es ++ [e]).
Proof.
  intros dbg fuel cs. induction cs as [|o cs IH]; intros b c b1 es b2 e R S.
  - injection R as <- <-. cbn [app body_run]. rewrite S. reflexivity.
  - cbn [app body_run] in *. destruct (body_step dbg fuel b o) as [[b3 e3]| | |]; cbn [bind] in *; try discriminate.
    destruct (body_run dbg fuel b3 cs) as [[b4 es4]| | |] eqn:R4; cbn [bind] in *; try discriminate.
    injection R as <- <-. rewrite (IH _ _ _ _ _ _ R4 S). reflexivity.
Qed.

Lemma object_step_inv : forall dbg fuel a c a' e, object_step dbg fuel a c = Ok (a', e) ->
  body_step dbg fuel (members a) c = Ok (members a', e) /\ allocate_ a' = allocate_ a /\ deallocate_ a' = deallocate_ a.
Proof.
  intros dbg fuel a c a' e H. unfold object_step in H.
  destruct (class_eqb (through a c) (class_of (members a))); [|discriminate].
  destruct (body_step dbg fuel (members a) c) as [[b e']| | |]; cbn [bind] in H; try discriminate.
  injection H as <- <-. auto.
Qed.

Lemma traced_step : forall W0 dbg fuel h f W o W' es, traced W0 dbg fuel h f W ->
  world_step dbg fuel W o = Ok (W', es) -> traced W0 dbg fuel (past_step h o) (code_step f o) W'.
Proof.
  intros W0 dbg fuel h f W o W' es T H z a Hz. destruct o as [x c|x y|x y]; cbn [world_step past_step code_step] in *.
  - destruct (W x) as [b|] eqn:Hx; [|discriminate].
    destruct (object_step dbg fuel b c) as [[b' e]| | |] eqn:S; cbn [bind] in H; try discriminate.
    injection H as <- <-. destruct (Nat.eqb_spec z x) as [->|N].
    + rewrite put_same in Hz. injection Hz as <-. destruct (object_step_inv _ _ _ _ _ _ S) as [B [A D]].
      destruct (T x b Hx) as [[a0 [A1 A2]] [[s0 [S1 [S2 S3]]] [p0 [es' [P1 P2]]]]].
      pose proof (body_step_class _ _ _ _ _ _ B) as C.
      split; [exists a0; split; [exact A1|congruence]|]. split; [exists s0; repeat split; congruence|].
      exists p0, (es' ++ [e]). split; [exact P1|]. cbn [snd]. eapply body_run_snoc; eauto.
    + rewrite put_other in Hz by exact N. exact (T z a Hz).
  - destruct (W x) as [b|] eqn:Hx; [|discriminate]. destruct (W y) as [d|] eqn:Hy; [|discriminate].
    destruct (class_eqb (class_of (members b)) (class_of (members d))) eqn:C; [|discriminate].
    apply class_eqb_eq in C. injection H as <- <-. destruct (Nat.eqb_spec z x) as [->|N].
    + rewrite put_same in Hz. injection Hz as <-. destruct (T y d Hy) as [_ R]. split; [|exact R].
      destruct (T x b Hx) as [[a0 [A1 A2]] _]. exists a0. split; [exact A1|congruence].
    + rewrite put_other in Hz by exact N. exact (T z a Hz).
  - destruct (W x) as [b|] eqn:Hx; [|discriminate]. destruct (W y) as [d|] eqn:Hy; [|discriminate].
    injection H as <- <-. destruct (Nat.eqb_spec z x) as [->|N].
    + rewrite put_same in Hz. injection Hz as <-. cbn [members allocate_ deallocate_].
      destruct (T x b Hx) as [A [_ P]]. destruct (T y d Hy) as [_ [C _]]. auto.
    + rewrite put_other in Hz by exact N. exact (T z a Hz).
Qed.

Lemma traced_run : forall W0 dbg fuel ops h f W W' es, traced W0 dbg fuel h f W ->
  world_run dbg fuel W ops = Ok (W', es) ->
  traced W0 dbg fuel (fold_left past_step ops h) (fold_left code_step ops f) W'.
Proof.
  intros W0 dbg fuel ops. induction ops as [|o ops IH]; intros h f W W' es T H; cbn [world_run fold_left] in *.
  - injection H as <- <-. exact T.
  - destruct (world_step dbg fuel W o) as [[W1 e1]| | |] eqn:S; cbn [bind] in H; try discriminate.
    destruct (world_run dbg fuel W1 ops) as [[W2 e2]| | |] eqn:R; cbn [bind] in H; try discriminate.
    injection H as <- <-. eapply IH; [|exact R]. eapply traced_step; eauto.
Qed.

Lemma traced_start : forall dbg fuel W, (forall x a, W x = Some a -> own_code a) ->
  traced W dbg fuel no_past (fun x => x) W.
Proof.
  intros dbg fuel W O x a H. destruct (O x a H) as [A D].
  split; [eauto|]. split; [eauto|]. exists a, []. auto.
Qed.

Lemma assigned_past : forall dbg fuel ops W W' es x a c a' e, (forall x a, W x = Some a -> own_code a) ->
  world_run dbg fuel W ops = Ok (W', es) -> W' x = Some a -> object_step dbg fuel a c = Ok (a', e) ->
  exists p0 es', W (fst (past_of ops x)) = Some p0 /\
    body_run dbg fuel (members p0) (snd (past_of ops x) ++ [c]) = Ok (members a', es' ++ [e]).
Proof.
  intros dbg fuel ops W W' es x a c a' e O R Hx S.
  destruct (traced_run _ _ _ _ _ _ _ _ _ (traced_start dbg fuel W O) R x a Hx) as [_ [_ [p0 [es' [P1 P2]]]]].
  destruct (object_step_inv _ _ _ _ _ _ S) as [B _].
  exists p0, es'. split; [exact P1|]. eapply body_run_snoc; eauto.
Qed.

Lemma code_exact : forall dbg fuel ops W W' es x a c, (forall x a, W x = Some a -> own_code a) ->
  world_run dbg fuel W ops = Ok (W', es) -> W' x = Some a -> c <> ORelease ->
  exists a0 s0, W x = Some a0 /\ W (code_of ops x) = Some s0 /\
    (same_kind (members s0) (members a0) ->
       object_step dbg fuel a c = ' (b, e) <- body_step dbg fuel (members a) c;; Ok (made_of b, e)) /\
    (~ same_kind (members s0) (members a0) -> object_step dbg fuel a c = UB).
Proof.
  intros dbg fuel ops W W' es x a c O R Hx NR.
  destruct (traced_run _ _ _ _ _ _ _ _ _ (traced_start dbg fuel W O) R x a Hx) as [[a0 [A1 A2]] [[s0 [S1 [S2 S3]]] _]].
  exists a0, s0. split; [exact A1|]. split; [exact S1|]. rewrite kind_class. split; intros C.
  - assert (OA : own_code a) by (split; congruence). rewrite (own_step dbg fuel a c OA).
    destruct (body_step dbg fuel (members a) c) as [[b e]| | |] eqn:B; cbn [bind]; try reflexivity.
    pose proof (body_step_class _ _ _ _ _ _ B) as CB. unfold made_of. congruence.
  - assert (E : class_eqb (class_of (members s0)) (class_of (members a)) = false).
    { destruct (class_eqb (class_of (members s0)) (class_of (members a))) eqn:E; auto.
      apply class_eqb_eq in E. congruence. }
    unfold object_step, through. destruct c; [rewrite S2, E|rewrite S3, E|congruence]; reflexivity.
Qed.
