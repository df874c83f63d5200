(** Histories on which simple_resource does not do what it should.  Each is found
    by running the model, in the debug and in the release build. *)

Require Import ZArith Lia List Bool Permutation.
Require Import Verif.Outcome Verif.Machine Verif.BitsModel Verif.BitsSpec Verif.BitsProofs.
Require Import Verif.ArithModel Verif.ArithProofs.
Require Import Verif.SimpleModel Verif.SimpleSpec Verif.SimpleProofs Verif.SimpleAllocProofs.
Require Import Verif.SimpleScanProofs Verif.SimpleOpProofs Verif.SimpleHistProofs.
Require Import Verif.SimpleReleaseProofs Verif.SimpleAnyProofs Verif.SimpleMainProofs Verif.SimpleView Verif.SimpleKeepProofs.
Import ListNotations.
Open Scope Z_scope.
Open Scope res_scope.

(** [n] blocks of 4 bytes at address 4096, no upstream *)
Definition conf (n : Z) (dbg : bool) : cfg := Cfg n 4 dbg.
Definition fresh (d n : Z) (up : bool) : state := St d n up (fun _ => 0) (fun _ => 0) (fun _ => false) 1 0.
Definition get (n : Z) : op := OAllocate n 1 (fun _ _ => 0).

Lemma pow2_4 : pow2 4. Proof. exists 2. split; [lia|reflexivity]. Qed.
Lemma pow2_1 : pow2 1. Proof. exists 0. split; [lia|reflexivity]. Qed.
Lemma pow2_16 : pow2 16. Proof. exists 4. split; [lia|reflexivity]. Qed.

Lemma conf_ok : forall n dbg, 2 <= n < 100 -> cfg_ok (conf n dbg).
Proof. intros n dbg H. constructor; cbn [MB BS conf]; [lia|exact pow2_4|lia]. Qed.

Lemma made_4 : forall dbg, made (conf 4 dbg) 4096 16 false (fresh 4096 4 false).
Proof.
  intros dbg. constructor.
  - apply conf_ok. lia.
  - unfold buffer_ok. lia.
  - intros _. cbn [MB BS conf]. lia.
  - destruct dbg; vm_compute; reflexivity.
  - discriminate.
  - apply ordinary_small; cbn [data bc fresh BS conf]; lia.
Qed.
Lemma made_8 : forall dbg, made (conf 8 dbg) 4096 32 false (fresh 4096 8 false).
Proof.
  intros dbg. constructor.
  - apply conf_ok. lia.
  - unfold buffer_ok. lia.
  - intros _. cbn [MB BS conf]. lia.
  - destruct dbg; vm_compute; reflexivity.
  - discriminate.
  - apply ordinary_small; cbn [data bc fresh BS conf]; lia.
Qed.
Lemma made_8_up : forall dbg, made (conf 8 dbg) 4096 32 true (fresh 4096 8 true).
Proof.
  intros dbg. constructor.
  - apply conf_ok. lia.
  - unfold buffer_ok. lia.
  - intros _. cbn [MB BS conf]. lia.
  - destruct dbg; vm_compute; reflexivity.
  - discriminate.
  - apply ordinary_small; cbn [data bc fresh BS conf]; lia.
Qed.

Definition after (c : cfg) (s : state) (ops : list op) : state :=
  match run c 50 s ops with Ok (s', _) => s' | _ => s end.
Definition seen (c : cfg) (s : state) (ops : list op) : list event :=
  match run c 50 s ops with Ok (_, es) => es | _ => [] end.

Lemma get_sane : forall n, 0 <= n -> sane_op (get n).
Proof. intros n H. split; auto. split; [exact pow2_1|lia]. Qed.

Ltac sane := repeat constructor; try exact pow2_1; try lia.

Ltac hist m :=
  match goal with |- history ?c _ ?s ?ops _ _ =>
    exists 4096; eexists; exists 50%nat; split; [apply m|]; split;
    [sane|split; [vm_compute; reflexivity|vm_compute; tauto]] end.

Lemma overlap_history : forall dbg,
  let ops := [get 5; get 1; ODeallocate 4096; get 9] in
  history (conf 4 dbg) false (fresh 4096 4 false) ops
    (after (conf 4 dbg) (fresh 4096 4 false) ops) (seen (conf 4 dbg) (fresh 4096 4 false) ops) /\
  live (seen (conf 4 dbg) (fresh 4096 4 false) ops) = [(4100, 9); (4104, 1)].
Proof. intros dbg. cbv zeta. destruct dbg; (split; [hist made_4|vm_compute; reflexivity]). Qed.

Lemma overlap_refuted : forall dbg, exists c s ops s' es, DBG c = dbg /\
  history c false s ops s' es /\ ~ pairwise_disjoint (live es).
Proof.
  intros dbg. destruct (overlap_history dbg) as [H L]. do 5 eexists. split; [|split; [exact H|]]; [reflexivity|].
  rewrite L. intros D. specialize (D [] (4100, 9) [] (4104, 1) [] eq_refl). unfold disjoint in D. cbn in D. lia.
Qed.

Ltac heads := let i := fresh "i" in let H := fresh "H" in
  intros i H; vm_compute in H; destruct i as [|p|p]; [cbn; auto|idtac|discriminate H];
  repeat (match goal with p : positive |- _ => destruct p end; try discriminate H); cbn; auto 12.

Ltac coal := repeat (apply coalesced_cons; [|intros ? ? E; try discriminate E; injection E as <- <-; cbn; auto]); apply coalesced_nil.

Lemma hang_wf : forall dbg,
  wf (conf 4 dbg) (after (conf 4 dbg) (fresh 4096 4 false) [get 1; get 1; get 1; ODeallocate 4100])
    (Reg 0 1 true :: [] ++ Reg 1 1 false :: [Reg 2 1 true; Reg 3 1 false]).
Proof.
  intros dbg. destruct dbg; (constructor;
  [ constructor; [vm_compute; auto|exists 1024; vm_compute; auto|vm_compute; split; discriminate|vm_compute; auto|intros _; vm_compute; auto]
  | vm_compute; repeat split; discriminate | coal | heads | vm_compute; reflexivity | vm_compute; reflexivity ]).
Qed.

Lemma hang_refuted : forall dbg, exists c s ops s' es size, DBG c = dbg /\
  history c false s ops s' es /\ forall ans, never_returns (fun fuel => allocate_impl c fuel s' size 1 ans).
Proof.
  intros dbg. set (ops := [get 1; get 1; get 1; ODeallocate 4100]).
  exists (conf 4 dbg), (fresh 4096 4 false), ops, (after (conf 4 dbg) (fresh 4096 4 false) ops),
    (seen (conf 4 dbg) (fresh 4096 4 false) ops), 5.
  split; [reflexivity|]. split; [destruct dbg; hist made_4|].
  intros ans fuel. assert (W := hang_wf dbg).
  assert (D : data (after (conf 4 dbg) (fresh 4096 4 false) ops) = 4096 /\
              bc (after (conf 4 dbg) (fresh 4096 4 false) ops) = 4) by (destruct dbg; vm_compute; auto).
  destruct D as [D1 D2].
  unfold ops in D1, D2 |- *. eapply hang_generic with (2 := W); auto.
  - apply conf_ok. lia.
  - intros x [<-|[]]. reflexivity.
  - discriminate.
  - split; [lia|]. split; [exact pow2_1|lia].
  - rewrite D1, D2. apply ordinary_small; cbn [BS conf]; lia.
  - rewrite D1, D2. apply reach_divides; cbn [BS conf]; try lia; [exact pow2_1|exists 4096; reflexivity].
  - rewrite D1. intros [q [Q1 [_ Q2]]]. cbn in Q1, Q2. lia.
Qed.

(** regions after [get 5; get 1; ODeallocate 4096] in 8 and in 4 blocks *)
Lemma fit_wf : forall dbg,
  wf (conf 8 dbg) (after (conf 8 dbg) (fresh 4096 8 false) [get 5; get 1; ODeallocate 4096])
    [Reg 0 2 false; Reg 2 1 true; Reg 3 5 false].
Proof.
  intros dbg. destruct dbg; (constructor;
  [ constructor; [vm_compute; auto|exists 1024; vm_compute; auto|vm_compute; split; discriminate|vm_compute; auto|intros _; vm_compute; auto]
  | vm_compute; repeat split; discriminate | coal | heads | vm_compute; reflexivity | vm_compute; reflexivity ]).
Qed.
Lemma miss_wf : forall dbg,
  wf (conf 4 dbg) (after (conf 4 dbg) (fresh 4096 4 false) [get 5; get 1; ODeallocate 4096])
    [Reg 0 2 false; Reg 2 1 true; Reg 3 1 false].
Proof.
  intros dbg. destruct dbg; (constructor;
  [ constructor; [vm_compute; auto|exists 1024; vm_compute; auto|vm_compute; split; discriminate|vm_compute; auto|intros _; vm_compute; auto]
  | vm_compute; repeat split; discriminate | coal | heads | vm_compute; reflexivity | vm_compute; reflexivity ]).
Qed.

Lemma first_fit_refuted : forall dbg, exists c s ops s' es rs l f t q s2 p, DBG c = dbg /\
  history c false s ops s' es /\ wf c s' rs /\ first_fit (data s) (BS c) rs 9 1 l f t /\
  first_aligned (data s) (BS c) f 1 q /\
  allocate_impl c 50 s' 9 1 (fun _ _ => 0) = Ok (s2, p, []) /\ p <> q.
Proof.
  intros dbg. set (ops := [get 5; get 1; ODeallocate 4096]).
  exists (conf 8 dbg), (fresh 4096 8 false), ops, (after (conf 8 dbg) (fresh 4096 8 false) ops),
    (seen (conf 8 dbg) (fresh 4096 8 false) ops), [Reg 0 2 false; Reg 2 1 true; Reg 3 5 false],
    [Reg 0 2 false; Reg 2 1 true], (Reg 3 5 false), [], 4108.
  assert (E : exists s2, allocate_impl (conf 8 dbg) 50 (after (conf 8 dbg) (fresh 4096 8 false) ops) 9 1 (fun _ _ => 0) = Ok (s2, 4100, [])).
  { destruct dbg; eexists; vm_compute; reflexivity. }
  destruct E as [s2 E]. exists s2, 4100.
  split; [reflexivity|]. split; [destruct dbg; hist made_8|]. split; [apply fit_wf|]. split; [|split; [|split; [exact E|lia]]].
  - split; [reflexivity|]. split; [reflexivity|]. split.
    + exists 4108. split; [cbn; lia|]. split; [exists 4108; reflexivity|cbn; lia].
    + intros r [<-|[<-|[]]] B [q [Q1 [_ Q2]]]; cbn in *; [lia|discriminate].
  - split; [cbn; lia|]. split; [exists 4108; reflexivity|]. intros q' Q _. exact Q.
Qed.

Lemma served_from_nowhere : forall dbg, exists c s ops s' es rs s2 p, DBG c = dbg /\
  history c false s ops s' es /\ wf c s' rs /\ nothing_fits (data s) (BS c) rs 9 1 /\
  allocate_impl c 50 s' 9 1 (fun _ _ => 0) = Ok (s2, p, []) /\ p <> 0.
Proof.
  intros dbg. set (ops := [get 5; get 1; ODeallocate 4096]).
  exists (conf 4 dbg), (fresh 4096 4 false), ops, (after (conf 4 dbg) (fresh 4096 4 false) ops),
    (seen (conf 4 dbg) (fresh 4096 4 false) ops), [Reg 0 2 false; Reg 2 1 true; Reg 3 1 false].
  assert (E : exists s2, allocate_impl (conf 4 dbg) 50 (after (conf 4 dbg) (fresh 4096 4 false) ops) 9 1 (fun _ _ => 0) = Ok (s2, 4100, [])).
  { destruct dbg; eexists; vm_compute; reflexivity. }
  destruct E as [s2 E]. exists s2, 4100.
  split; [reflexivity|]. split; [destruct dbg; hist made_4|]. split; [apply miss_wf|]. split; [|split; [exact E|lia]].
  intros r [<-|[<-|[<-|[]]]] B [q [Q1 [_ Q2]]]; cbn in *; [lia|discriminate|lia].
Qed.

(** 32 bytes at address 48 contain 16 bytes at a multiple of 64, but the gate only
    knows that 48 is a multiple of 16 *)
Lemma made_48 : forall dbg, made (Cfg 2 16 dbg) 48 32 true (fresh 48 2 true).
Proof.
  intros dbg. constructor.
  - constructor; cbn [MB BS]; [lia|exact pow2_16|lia].
  - unfold buffer_ok. lia.
  - intros _. cbn [MB BS]. lia.
  - destruct dbg; vm_compute; reflexivity.
  - discriminate.
  - apply ordinary_small; cbn [data bc fresh BS]; lia.
Qed.

Lemma gate_refuted : forall dbg, exists c buffer size s, DBG c = dbg /\ made c buffer size true s /\
  can_hold (data s) (BS c) (Reg 0 (bc s) false) 8 64 /\
  forall ans fuel, answer_fits (BS c) (ans 8 64) ->
    allocate_impl c fuel s 8 64 ans = Ok (s, ans 8 64, [UpAllocate 8 64]).
Proof.
  intros dbg. exists (Cfg 2 16 dbg), 48, 32, (fresh 48 2 true). split; [reflexivity|]. split; [apply made_48|].
  split.
  - exists 64. split; [cbn; lia|]. split; [exists 1; reflexivity|cbn; lia].
  - intros ans fuel AF. assert (HC : cfg_ok (Cfg 2 16 dbg)) by apply (made_cfg _ _ _ _ _ (made_48 dbg)).
    assert (S : search_buffer (Cfg 2 16 dbg) fuel (fresh 48 2 true) 8 64 = Ok (fresh 48 2 true, 0)).
    { unfold search_buffer. destruct dbg; vm_compute; reflexivity. }
    rewrite (allocate_miss (Cfg 2 16 dbg) (fresh 48 2 true) fuel 8 64 ans HC); auto.
    + split; [lia|]. split; [exists 6; split; [lia|reflexivity]|lia].
    + intros _. destruct AF. auto.
Qed.

(** a request that is a multiple of the block size is given one block too many *)
Lemma extra_block : forall dbg, exists c buffer size s s2 rs q, DBG c = dbg /\ made c buffer size false s /\
  allocate_impl c 50 s 4 1 (fun _ _ => 0) = Ok (s2, q, []) /\ regions_of s2 rs /\
  BS c = 4 /\ busy rs = [Reg 0 2 true].
Proof.
  intros dbg.
  assert (E : exists s2 q, allocate_impl (conf 4 dbg) 50 (fresh 4096 4 false) 4 1 (fun _ _ => 0) = Ok (s2, q, []) /\
    regions_of s2 [Reg 0 2 true; Reg 2 2 false]).
  { destruct dbg; eexists; eexists; (split; [vm_compute; reflexivity|vm_compute; repeat split; discriminate]). }
  destruct E as [s2 [q [E R]]].
  exists (conf 4 dbg), 4096, 16, (fresh 4096 4 false), s2, [Reg 0 2 true; Reg 2 2 false], q.
  split; [reflexivity|]. split; [apply made_4|]. auto.
Qed.

Lemma exact_fill_release_build : exists c buffer size s, DBG c = false /\ made c buffer size false s /\
  allocate_impl c 50 s (bc s * BS c) 1 (fun _ _ => 0) = UB.
Proof.
  exists (conf 4 false), 4096, 16, (fresh 4096 4 false). split; [reflexivity|]. split; [apply made_4|].
  vm_compute. reflexivity.
Qed.

Lemma coalescing_refuted : forall dbg, exists c s ops s' es i j, DBG c = dbg /\
  history c false s (ops ++ [ODeallocate 4108]) s' es /\
  path (nxt s') 0 [0; i; j] /\ inuse s' i = false /\ inuse s' j = false.
Proof.
  intros dbg. set (ops := [get 5; get 1; get 1; ODeallocate 4104; get 5]).
  exists (conf 8 dbg), (fresh 4096 8 false), ops, (after (conf 8 dbg) (fresh 4096 8 false) (ops ++ [ODeallocate 4108])),
    (seen (conf 8 dbg) (fresh 4096 8 false) (ops ++ [ODeallocate 4108])), 2, 3.
  split; [reflexivity|]. destruct dbg;
  (split; [hist made_8|]; vm_compute; repeat split; discriminate).
Qed.

Lemma counts_refuted : forall dbg, exists c s ops s' es l, DBG c = dbg /\
  history c false s ops s' es /\ path (nxt s') 0 l /\
  freec s' <> Z.of_nat (length (filter (fun i => negb (inuse s' i)) l)) /\
  busyc s' <> Z.of_nat (length (filter (inuse s') l)).
Proof.
  intros dbg. set (ops := [get 5; get 1; ODeallocate 4096; get 9]).
  exists (conf 4 dbg), (fresh 4096 4 false), ops, (after (conf 4 dbg) (fresh 4096 4 false) ops),
    (seen (conf 4 dbg) (fresh 4096 4 false) ops), [0; 2; 3].
  split; [reflexivity|]. destruct dbg;
  (split; [hist made_4|]; split; [vm_compute; repeat split; discriminate|split; vm_compute; discriminate]).
Qed.

Lemma tiling_refuted : forall dbg, exists c s ops s' es i j, DBG c = dbg /\
  history c false s ops s' es /\ path (nxt s') 0 [0; i; j] /\ prv s' j <> i /\ forall rs, ~ regions_of s' rs.
Proof.
  intros dbg. set (ops := [get 5; get 1; get 1; ODeallocate 4104; get 5]).
  exists (conf 4 dbg), (fresh 4096 4 false), ops, (after (conf 4 dbg) (fresh 4096 4 false) ops),
    (seen (conf 4 dbg) (fresh 4096 4 false) ops), 2, 3.
  set (s' := after (conf 4 dbg) (fresh 4096 4 false) ops).
  assert (V : bc s' = 4 /\ nxt s' 0 = 2 /\ nxt s' 2 = 3 /\ prv s' 3 = 1) by (destruct dbg; vm_compute; auto).
  destruct V as [V1 [V2 [V3 V4]]].
  split; [reflexivity|]. split; [unfold s'; destruct dbg; hist made_4|]. split; [unfold s'; destruct dbg; vm_compute; repeat split; discriminate|].
  split; [lia|]. intros rs T. unfold regions_of in T. rewrite V1 in T.
  destruct rs as [|r0 rs]; cbn [tiles] in T; [lia|].
  destruct T as [_ [L0 [L1 [_ [N0 [_ T]]]]]]. rewrite V2 in N0.
  destruct (Z.eqb_spec (0 + rlen r0) 4) as [X|X]; [lia|]. rewrite <- N0 in T. rewrite <- N0 in L1.
  destruct rs as [|r1 rs]; cbn [tiles] in T; [lia|].
  destruct T as [_ [L2 [L3 [_ [N1 [_ T]]]]]]. rewrite V3 in N1.
  destruct (Z.eqb_spec (2 + rlen r1) 4) as [Y|Y]; [lia|]. rewrite <- N1 in T.
  destruct rs as [|r2 rs]; cbn [tiles] in T; [lia|]. destruct T as [_ [_ [_ [P _]]]]. lia.
Qed.

Lemma release_refuted : forall dbg, exists c s ops s' es s2, DBG c = dbg /\
  history c false s ops s' es /\ release c 50 s' = Ok s2 /\ busyc s2 = 1 /\ destroy s2 = Abort.
Proof.
  intros dbg. set (ops := [get 5; get 1]). set (s' := after (conf 4 dbg) (fresh 4096 4 false) ops).
  assert (E : exists s2, release (conf 4 dbg) 50 s' = Ok s2 /\ busyc s2 = 1 /\ destroy s2 = Abort).
  { unfold s'. destruct dbg; eexists; (split; [vm_compute; reflexivity|vm_compute; auto]). }
  destruct E as [s2 E].
  exists (conf 4 dbg), (fresh 4096 4 false), ops, s', (seen (conf 4 dbg) (fresh 4096 4 false) ops), s2.
  split; [reflexivity|]. split; [unfold s'; destruct dbg; hist made_4|]. auto.
Qed.

Lemma destructor_release_refuted : forall dbg, exists c s ops s' es, DBG c = dbg /\
  history c false s (ops ++ [ORelease]) s' es /\ live es = [] /\ destroy s' = Abort.
Proof.
  intros dbg. set (ops := [get 5; get 1]).
  exists (conf 4 dbg), (fresh 4096 4 false), ops, (after (conf 4 dbg) (fresh 4096 4 false) (ops ++ [ORelease])),
    (seen (conf 4 dbg) (fresh 4096 4 false) (ops ++ [ORelease])).
  split; [reflexivity|]. destruct dbg; (split; [hist made_4|]; vm_compute; auto).
Qed.

(** an upstream that honours the alignment asked for, 8, but not BlockSize *)
Lemma upstream_pointer_refuted : exists c buffer size s s2 p, DBG c = false /\ made c buffer size true s /\
  (8 | p) /\ allocate_impl c 50 s 100 8 (fun _ _ => p) = Ok (s2, p, [UpAllocate 100 8]) /\
  deallocate_impl c s2 p = Abort.
Proof.
  exists (Cfg 2 16 false), 48, 32, (fresh 48 2 true), (fresh 48 2 true), 40008.
  split; [reflexivity|]. split; [apply made_48|]. split; [exists 5001; reflexivity|]. vm_compute. auto.
Qed.
Lemma upstream_pointer_debug_refuted : exists c buffer size s p, DBG c = true /\ made c buffer size true s /\
  (8 | p) /\ allocate_impl c 50 s 100 8 (fun _ _ => p) = Abort.
Proof.
  exists (Cfg 2 16 true), 48, 32, (fresh 48 2 true), 40008.
  split; [reflexivity|]. split; [apply made_48|]. split; [exists 5001; reflexivity|]. vm_compute. auto.
Qed.

Lemma oversized_refuted : exists c buffer size s s2 p, DBG c = false /\ made c buffer size false s /\
  allocate_impl c 50 s (2 ^ 64 - 48) 64 (fun _ _ => 0) = Ok (s2, p, []) /\ p <> 0 /\
  bc s * BS c < 2 ^ 64 - 48 /\ busyc s2 = 1.
Proof.
  assert (M : made (Cfg 16 16 false) 65552 256 false (fresh 65552 16 false)).
  { constructor.
    - constructor; cbn [MB BS]; [lia|exact pow2_16|lia].
    - unfold buffer_ok. lia.
    - intros _. cbn [MB BS]. lia.
    - vm_compute; reflexivity.
    - discriminate.
    - apply ordinary_small; cbn [data bc fresh BS]; lia. }
  exists (Cfg 16 16 false), 65552, 256, (fresh 65552 16 false). do 2 eexists.
  split; [reflexivity|]. split; [exact M|]. split; [vm_compute; reflexivity|]. split; [discriminate|].
  split; [reflexivity|vm_compute; reflexivity].
Qed.

(** a buffer of 8 blocks of 4 bytes, filled, serves 33 bytes *)
Lemma oversized_fill_refuted : exists c buffer size s s1 s2 e, DBG c = false /\ made c buffer size false s /\
  run c 50 s [get 32] = Ok (s1, e) /\ allocate_impl c 50 s1 33 1 (fun _ _ => 0) = Ok (s2, 4132, []) /\
  bc s * BS c = 32 /\ buffer = 4096.
Proof.
  assert (M : made (Cfg 32 4 false) 4096 32 false (fresh 4096 8 false)).
  { constructor.
    - constructor; cbn [MB BS]; [lia|exact pow2_4|lia].
    - unfold buffer_ok. lia.
    - intros _. cbn [MB BS]. lia.
    - vm_compute; reflexivity.
    - discriminate.
    - apply ordinary_small; cbn [data bc fresh BS]; lia. }
  exists (Cfg 32 4 false), 4096, 32, (fresh 4096 8 false). do 3 eexists.
  split; [reflexivity|]. split; [exact M|]. split; [vm_compute; reflexivity|].
  split; [vm_compute; reflexivity|]. split; reflexivity.
Qed.

(** allocating 9 bytes and giving them back at once loses a free region *)
Lemma alloc_dealloc_refuted : forall dbg, exists c s ops s1 es rs s2 q s3, DBG c = dbg /\
  history c false s ops s1 es /\ wf c s1 rs /\
  allocate_impl c 50 s1 9 1 (fun _ _ => 0) = Ok (s2, q, []) /\ q <> 0 /\
  deallocate_impl c s2 q = Ok (s3, []) /\
  freec s3 <> freec s1 /\ nxt s3 0 <> nxt s1 0.
Proof.
  intros dbg. set (ops := [get 5; get 1; ODeallocate 4096]).
  exists (conf 8 dbg), (fresh 4096 8 false), ops, (after (conf 8 dbg) (fresh 4096 8 false) ops),
    (seen (conf 8 dbg) (fresh 4096 8 false) ops), [Reg 0 2 false; Reg 2 1 true; Reg 3 5 false].
  assert (E : exists s2 s3,
    allocate_impl (conf 8 dbg) 50 (after (conf 8 dbg) (fresh 4096 8 false) ops) 9 1 (fun _ _ => 0) = Ok (s2, 4100, []) /\
    deallocate_impl (conf 8 dbg) s2 4100 = Ok (s3, []) /\
    freec s3 <> freec (after (conf 8 dbg) (fresh 4096 8 false) ops) /\
    nxt s3 0 <> nxt (after (conf 8 dbg) (fresh 4096 8 false) ops) 0).
  { destruct dbg; do 2 eexists; (split; [vm_compute; reflexivity|]; split; [vm_compute; reflexivity|];
      split; vm_compute; discriminate). }
  destruct E as [s2 [s3 [E1 [E2 [E3 E4]]]]]. exists s2, 4100, s3.
  split; [reflexivity|]. split; [destruct dbg; hist made_8|]. split; [apply fit_wf|].
  split; [exact E1|]. split; [lia|]. auto.
Qed.

(** an alignment above BlockSize: nothing is granted twice, and still the links are wrong *)
Lemma large_alignment_refuted : forall dbg, exists c s ops s' es, DBG c = dbg /\
  history c false s ops s' es /\ ~ In ORelease ops /\
  (forall es1 es2, es = es1 ++ es2 -> well_granted c s (live es1)) /\ ~ in_order c s' es.
Proof.
  intros dbg. set (ops := [get 5; get 1; get 1; ODeallocate 4104; OAllocate 5 16 (fun _ _ => 0)]).
  exists (conf 8 dbg), (fresh 4096 8 false), ops, (after (conf 8 dbg) (fresh 4096 8 false) ops),
    (seen (conf 8 dbg) (fresh 4096 8 false) ops).
  set (s' := after (conf 8 dbg) (fresh 4096 8 false) ops).
  assert (V : bc s' = 8 /\ nxt s' 0 = 2 /\ nxt s' 2 = 3 /\ nxt s' 3 = 4 /\ prv s' 4 = 1) by (destruct dbg; vm_compute; auto).
  destruct V as [V1 [V2 [V3 [V4 V5]]]].
  assert (E : seen (conf 8 dbg) (fresh 4096 8 false) ops =
    [EAllocate 5 1 4096 []; EAllocate 1 1 4104 []; EAllocate 1 1 4108 []; EDeallocate 4104 []; EAllocate 5 16 4112 []])
    by (destruct dbg; vm_compute; reflexivity).
  split; [reflexivity|]. split.
  { unfold s'. assert (P : pow2 16) by (exists 4; split; [lia|reflexivity]). assert (P1 := pow2_1).
    exists 4096, 32, 50%nat. split; [apply made_8|].
    split; [repeat constructor; cbn; auto; lia|]. split; [destruct dbg; vm_compute; reflexivity|destruct dbg; vm_compute; tauto]. }
  split; [cbn; intuition discriminate|]. rewrite E. split.
  - intros es1 es2 E1. split.
    2:{ intros _. destruct es1 as [|e1 [|e2 [|e3 [|e4 [|e5 [|e6 es1]]]]]]; cbn [app] in E1;
        inversion E1; subst; try discriminate; cbn; repeat constructor; unfold inside; cbn; lia. }
    change (BS (conf 8 dbg)) with 4.
    destruct es1 as [|e1 [|e2 [|e3 [|e4 [|e5 [|e6 es1]]]]]]; cbn [app] in E1;
      inversion E1; subst; try discriminate; cbn;
      repeat (apply pairwise_cons; split;
        [let Y := fresh in intros ? Y; cbn in Y;
         repeat (destruct Y as [<-|Y]; [unfold disjoint; cbn; lia|]); destruct Y|]);
      intros [|? [|]] ? ? ? ? X; discriminate X.
  - intros [rs [T _]]. unfold regions_of in T. rewrite V1 in T.
    destruct rs as [|r0 rs]; cbn [tiles] in T; [lia|].
    destruct T as [_ [L0 [L1 [_ [N0 [_ T]]]]]]. rewrite V2 in N0.
    destruct (Z.eqb_spec (0 + rlen r0) 8) as [X|X]; [lia|]. rewrite <- N0 in T. rewrite <- N0 in L1.
    destruct rs as [|r1 rs]; cbn [tiles] in T; [lia|].
    destruct T as [_ [L2 [L3 [_ [N1 [_ T]]]]]]. rewrite V3 in N1.
    destruct (Z.eqb_spec (2 + rlen r1) 8) as [Y|Y]; [lia|]. rewrite <- N1 in T.
    destruct rs as [|r2 rs]; cbn [tiles] in T; [lia|].
    destruct T as [_ [L4 [L5 [_ [N2 [_ T]]]]]]. rewrite V4 in N2.
    destruct (Z.eqb_spec (3 + rlen r2) 8) as [Z0|Z0]; [lia|]. rewrite <- N2 in T.
    destruct rs as [|r3 rs]; cbn [tiles] in T; [lia|]. destruct T as [_ [_ [_ [P _]]]]. lia.
Qed.
