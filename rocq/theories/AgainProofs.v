(** Lemmas for C167. *)

Require Import ZArith Lia List Bool Permutation.
Require Import Verif.Outcome Verif.Machine Verif.BitsModel Verif.BitsSpec Verif.BitsProofs.
Require Import Verif.SimpleModel Verif.SimpleSpec Verif.SimpleView Verif.SimpleProofs Verif.SimpleScanProofs Verif.SimpleAllocProofs Verif.SimpleOpProofs
  Verif.SimpleAnyProofs Verif.SimpleHistProofs Verif.SimpleReleaseProofs Verif.SimpleMainProofs Verif.SimpleAstrayProofs Verif.SimpleRefuted.
Require Import Verif.RoomSpec Verif.RoomProofs Verif.GrowProofs Verif.PastProofs Verif.HoldProofs Verif.TempProofs.
Import ListNotations.
Open Scope Z_scope.
Open Scope res_scope.

Lemma enough_fuel : forall n fuel, (enough n <= fuel)%nat -> (Z.to_nat n < fuel)%nat.
Proof. intros n fuel H. unfold enough in H. nia. Qed.

(** a release() that leaves one free region makes the resource as good as new *)
Lemma released_run : forall c buffer size up s fuel ops ops2 s1 es s2, made c buffer size up s -> (enough (bc s) <= fuel)%nat ->
  careful_client (data s) (BS c) (bc s) up ops2 ->
  run c fuel s ops = Ok (s1, es) -> release c fuel s1 = Ok s2 -> wf c s2 [Reg 0 (bc s) false] -> same_place s s2 ->
  exists t1 t2 es2, run c fuel s ops2 = Ok (t1, es2) /\ run c fuel s (ops ++ ORelease :: ops2) = Ok (t2, es ++ ERelease :: es2).
Proof.
  intros c buffer size up s fuel ops ops2 s1 es s2 M F V R E W2 P2.
  destruct (made_wf _ _ _ _ _ M) as [HC [W [U [_ [O _]]]]].
  unfold careful_client in V. rewrite <- U in V.
  destruct (alike c s s s2 _ HC W W2 (conj eq_refl (conj eq_refl eq_refl)) P2 O fuel ops2 (enough_fuel _ _ F) V) as [t1 [t2 [e2 [X1 X2]]]].
  exists t1, t2, e2. split; [exact X1|]. rewrite run_app, R. cbn [bind]. cbn [run]. cbn [step]. rewrite E. cbn [bind]. rewrite X2. reflexivity.
Qed.

Lemma kept_again : forall c buffer size up s, made c buffer size up s ->
  forall fuel, (enough (bc s) <= fuel)%nat ->
  forall ops ops2 s1 es sz, careful_client (data s) (BS c) (bc s) up ops -> careful_client (data s) (BS c) (bc s) up ops2 ->
  run c fuel s ops = Ok (s1, es) -> In (data s, sz) (live es) -> 0 < sz < BS c ->
  exists t1 t2 es2, run c fuel s ops2 = Ok (t1, es2) /\ run c fuel s (ops ++ ORelease :: ops2) = Ok (t2, es ++ ERelease :: es2).
Proof.
  intros c buffer size up s M fuel F ops ops2 s1 es sz V V2 R I S0.
  destruct (made_wf _ _ _ _ _ M) as [HC [W [U [_ [O [D [B _]]]]]]].
  destruct (careful_here _ _ _ _ _ M fuel (enough_fuel _ _ F) ops s1 es V R) as [rs [W1 [P1 [_ [T E]]]]].
  apply (in_map (fun a => (fst a, given (BS c) (snd a)))) in I. apply (Permutation_in _ E) in I. cbn [fst snd] in I.
  apply in_map_iff in I. destruct I as [r [ER Ir]]. apply in_busy in Ir. destruct Ir as [Ir Br]. injection ER as EA EL.
  assert (S : rstart r = 0) by (unfold region_addr in EA; nia).
  assert (L : rlen r = 1) by (rewrite EL; unfold given; rewrite Z.div_small by lia; reflexivity).
  destruct T as [C CO]. destruct rs as [|r0 rs]; [destruct Ir|]. destruct (contiguous_bounds _ _ _ C) as [_ CB].
  assert (R0 : rstart r0 = 0) by (cbn [contiguous] in C; apply C).
  assert (r0 = r).
  { destruct Ir as [<-|Ir]; [reflexivity|]. cbn [contiguous] in C. destruct C as [C1 [C2 C3]].
    destruct (contiguous_bounds _ _ _ C3) as [_ CB2]. specialize (CB2 r Ir). lia. }
  subst r0. destruct P1 as [Q1 [Q2 Q3]].
  destruct (release_one_block c HC s1 r rs fuel W1 L ltac:(rewrite Q2; exact F)) as [s2 [RE [W2 [Y1 [Y2 Y3]]]]]. rewrite Q2 in W2.
  eapply released_run; eauto. split; [congruence|]. split; congruence.
Qed.

Lemma single_again : forall c buffer size up s, made c buffer size up s -> 2 * BS c <= 2 ^ 64 ->
  forall fuel, (enough (bc s) <= fuel)%nat ->
  forall ops ops2, single_block_client (data s) (BS c) (bc s) up ops -> careful_client (data s) (BS c) (bc s) up ops2 ->
  exists t1 t2 es es2 s1, run c fuel s ops = Ok (s1, es) /\ run c fuel s ops2 = Ok (t1, es2) /\
    run c fuel s (ops ++ ORelease :: ops2) = Ok (t2, es ++ ERelease :: es2).
Proof.
  intros c buffer size up s M B2 fuel F ops ops2 V V2.
  destruct (single_block_history c buffer size up s fuel ops M F B2 V) as [s1 [rs [es [R [W [[P1 [P2 P3]] [SR [LI _]]]]]]]].
  destruct (made_wf _ _ _ _ _ M) as [HC _].
  destruct (SimpleReleaseProofs.release_ok c HC s1 rs fuel W LI ltac:(rewrite P2; auto)) as [s2 [E [W2 [Q1 [Q2 [Q3 _]]]]]].
  rewrite P2 in W2.
  destruct (released_run c buffer size up s fuel ops ops2 s1 es s2 M F V2 R E W2) as [t1 [t2 [es2 [X1 X2]]]].
  - split; [congruence|]. split; congruence.
  - exists t1, t2, es, es2, s1. auto.
Qed.

Lemma again_refused : forall dbg, exists s1 s2,
  run (conf 8 dbg) 60 (fresh 4096 8 false) [get 29] = Ok (s1, [EAllocate 29 1 4096 []]) /\
  run (conf 8 dbg) 60 (fresh 4096 8 false) [get 5; get 5; ORelease; get 29] =
    Ok (s2, [EAllocate 5 1 4096 []; EAllocate 5 1 4104 []; ERelease; EAllocate 29 1 0 []]).
Proof. intros dbg. do 2 eexists. split; destruct dbg; vm_compute; reflexivity. Qed.
