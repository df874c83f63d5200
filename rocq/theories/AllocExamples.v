(** A C library and a stack of resources that meet the hypotheses of the theorems
    about allocators. *)

Require Import ZArith List Bool Lia.
Require Import Verif.Outcome Verif.Machine Verif.BitsSpec Verif.SimpleSpec Verif.SimpleModel Verif.SimpleView
  Verif.MonoSpec Verif.MonoModel Verif.AllocSpec Verif.AllocModel Verif.AllocView Verif.AllocProofs
  Verif.AllocStackProofs Verif.SimpleMainProofs Verif.SimpleRefuted.
Import ListNotations.
Open Scope Z_scope.

(** a library that hands out ascending addresses from 65536 to 2^40 and fails (with
    ENOMEM) behind that *)
Definition up_to (a x : Z) : Z := (x + a - 1) / a * a.
Definition bump : libc :=
  Libc Z (fun h align size => let p := up_to align h in
            if p + size <=? 2 ^ 40 then (p + size, 0, p) else (h, 12, 0))
    (fun h p => h).
Definition bump_mem (x : Z) : Prop := 65536 <= x < 2 ^ 40.

Lemma up_to_spec : forall a x, 0 < a -> x <= up_to a x /\ (a | up_to a x).
Proof.
  intros a x A. unfold up_to. split; [|apply Z.divide_factor_r].
  assert (H := Z.div_mod (x + a - 1) a ltac:(lia)). assert (H1 := Z.mod_pos_bound (x + a - 1) a A). lia.
Qed.

Lemma bump_ok : libc_ok bump 65536 bump_mem.
Proof.
  apply (safe_by (libc_resource bump) 65536 _ bump_mem (fun (h : Z) l => 65536 <= h /\ pairwise_disjoint l /\
    forall a, In a l -> 65536 <= fst a /\ fst a + snd a <= h /\ fst a + snd a <= 2 ^ 40 /\ 0 < snd a)).
  - split; [lia|]. split; [apply pd_nil|intros a []].
  - intros s l [H1 [H2 H3]]. split; [exact H2|]. split.
    + intros a x I X. destruct (H3 a I). unfold bump_mem. lia.
    + intros a I. destruct (H3 a I). lia.
  - intros s l [size align|p] [H1 [H2 H3]] A.
    + destruct A as [A1 [[k [Hk A2]] [A3 A4]]]. cbn [res_step libc_resource r_allocate bump posix_memalign].
      assert (P : 0 < align) by (subst align; apply Z.pow_pos_nonneg; lia).
      destruct (up_to_spec align s P) as [U1 U2].
      destruct (Z.leb_spec (up_to align s + size) (2 ^ 40)) as [L|L].
      * cbn [Z.eqb bind]. eexists _, _. split; [reflexivity|]. split.
        -- cbn [owned_after]. rewrite eqb_false by lia. split; [lia|]. split.
           ++ apply pd_cons. split; [|exact H2]. intros b I. right. cbn [fst snd]. destruct (H3 b I). lia.
           ++ intros a [<-|I]; [cbn [fst snd]; lia|]. destruct (H3 a I). lia.
        -- intros sz al p E N. injection E as <- <- <-. exact U2.
      * cbn [Z.eqb bind]. eexists _, _. split; [reflexivity|]. split; [cbn; auto|].
        intros sz al p E N. injection E as <- <- <-. contradiction N. reflexivity.
    + cbn [res_step libc_resource r_deallocate bind]. eexists _, _. split; [reflexivity|]. split; [|discriminate].
      cbn [owned_after]. split; [exact H1|]. split; [apply remove_pd; exact H2|].
      intros a I. apply H3. apply (remove_incl p l). exact I.
Qed.

(** a simple_resource on a monotonic buffer on the system resource *)
Definition stack_mono : resource := mono_resource true (system_resource bump).
Definition stack : resource := simple_memory (Cfg 2 16 true) (enough 2) stack_mono.
Definition stack_start : rstate stack := (fresh 48 2 true, (mono_construct 4096 64 true, 65536)).
Definition stack_class (sz al : Z) : Prop := 0 <= sz < 16 /\ al = 16.
Definition stack_space (x : Z) : Prop := 48 <= x < 80 \/ 4096 <= x < 4160 \/ bump_mem x.

Lemma safe_weaker : forall R s0 (ok ok' : Z -> Z -> Prop) (mem mem' : Z -> Prop),
  safe R s0 ok mem -> (forall a b, ok' a b -> ok a b) -> (forall x, mem x -> mem' x) -> safe R s0 ok' mem'.
Proof.
  intros R s0 ok ok' mem mem' S O M qs s tr H F.
  assert (AL : forall l q, allowed ok' l q -> allowed ok l q) by (intros l [z a|p]; cbn; auto).
  assert (FW : forall tr l, fair_trace ok' l tr -> fair_trace ok l tr).
  { induction tr0 as [|r tr0 IH]; intros l; cbn; auto. intros [X Y]. split; auto. }
  destruct (S qs s tr H (FW tr [] F)) as [[G1 G2 G3 G4] N]. split; [constructor; eauto|].
  intros q Q. apply N. auto.
Qed.

Lemma stack_safe : safe stack stack_start stack_class stack_space.
Proof.
  assert (P16 : pow2 16) by (exists 4; split; [lia|reflexivity]).
  assert (S1 := system_safe bump 65536 bump_mem bump_ok).
  assert (S2 := mono_safe true true (system_resource bump) 65536 _ bump_mem 4096 64 S1
    ltac:(unfold mono_made; lia) ltac:(intros x; unfold bump_mem; lia)).
  assert (S3 := simple_safe (Cfg 2 16 true) (enough 2) stack_mono (mono_construct 4096 64 true, 65536) _ _ 48 32 1 true (fresh 48 2 true)
    S2 (made_48 true) ltac:(cbn; lia) ltac:(lia) ltac:(cbn [BS]; lia)
    ltac:(intros x; cbn [data bc BS fresh]; unfold bump_mem; lia)).
  apply (safe_weaker _ _ _ stack_class _ stack_space S3).
  - intros sz al [H1 ->]. cbn [BS]. split; [lia|]. split; [exact P16|]. split; [lia|]. split; [reflexivity|]. intros H2. split; [lia|]. split; [exact P16|].
    split; [lia|]. intros _. split; [lia|]. split; [exact P16|lia].
  - cbn [data bc BS fresh]. unfold stack_space, bump_mem. intros x. lia.
Qed.

(** six blocks of 16 bytes at 48, requests of two blocks *)
Lemma made_48_6 : made (Cfg 6 16 true) 48 96 false (fresh 48 6 false).
Proof.
  constructor.
  - constructor; cbn [MB BS]; [lia|exact pow2_16|lia].
  - unfold buffer_ok. lia.
  - intros _. cbn [MB BS]. lia.
  - vm_compute. reflexivity.
  - discriminate.
  - apply ordinary_small; cbn [data bc fresh BS]; lia.
Qed.

Lemma pool_safe : safe (simple_memory (Cfg 6 16 true) 40 null_resource) (fresh 48 6 false, tt)
  (fun sz al => 16 < sz < 32 /\ pow2 al /\ al <= 16) (fun x => 48 <= x < 144).
Proof.
  assert (F : (Z.to_nat (bc (fresh 48 6 false)) < 40)%nat) by (cbn; lia).
  assert (S := simple_safe (Cfg 6 16 true) 40 null_resource tt (fun _ _ => True) (fun _ => False) 48 96 2 false (fresh 48 6 false)
    (null_safe _) made_48_6 F ltac:(lia) ltac:(cbn [BS]; lia) ltac:(auto)).
  apply (safe_weaker _ _ _ _ _ _ S).
  - intros sz al [H1 [H2 H3]]. cbn [BS]. split; [lia|]. split; [exact H2|]. split; [exact H3|]. split; [discriminate|auto].
  - cbn [data bc BS fresh]. intros x. lia.
Qed.

(** and classes of requests for which the buffer resources are not safe *)
Lemma simple_unsafe : forall dbg mem, exists c buffer size s0, DBG c = dbg /\ made c buffer size false s0 /\
  ~ safe (simple_memory c 50 null_resource) (s0, tt) (fun sz al => 0 < sz < 10 /\ al = 1) mem.
Proof.
  intros dbg mem. exists (conf 4 dbg), 4096, 16, (fresh 4096 4 false). split; [reflexivity|]. split; [apply made_4|]. intros S.
  assert (R : exists s, res_run (simple_memory (conf 4 dbg) 50 null_resource) (fresh 4096 4 false, tt)
      [Ask 5 1; Ask 1 1; Give 4096; Ask 9 1] = Ok (s, [Got 5 1 4096; Got 1 1 4104; Gave 4096; Got 9 1 4100])).
  { destruct dbg; eexists; vm_compute; reflexivity. }
  destruct R as [s R]. destruct (S _ _ _ R) as [[G _ _ _] _].
  - cbn. repeat split; try lia; auto.
  - specialize (G [] (4100, 9) [] (4104, 1) [] eq_refl). unfold disjoint in G. cbn in G. lia.
Qed.

Lemma mono_unsafe : forall dbg mem, mono_made 4096 32 /\
  ~ safe (mono_resource dbg null_resource) (mono_construct 4096 32 false, tt) (fun sz al => 0 < sz < 2 ^ 64 /\ al = 1) mem.
Proof.
  intros dbg mem. split; [unfold mono_made; lia|]. intros S.
  assert (R : exists s, res_run (mono_resource dbg null_resource) (mono_construct 4096 32 false, tt)
      [Ask 8 1; Ask (2 ^ 64 - 4) 1; Ask 4 1] = Ok (s, [Got 8 1 4096; Got (2 ^ 64 - 4) 1 4104; Got 4 1 4100])).
  { destruct dbg; eexists; vm_compute; reflexivity. }
  destruct R as [s R]. destruct (S _ _ _ R) as [[G _ _ _] _].
  - unfold fair_trace, allowed. repeat split; try lia.
  - specialize (G [] (4100, 4) [(4104, 2 ^ 64 - 4)] (4096, 8) [] eq_refl). unfold disjoint in G. cbn [fst snd] in G. lia.
Qed.
