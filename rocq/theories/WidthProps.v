(** Properties C134-C135: memory/simple_resource.h with addresses of 32 bits. *)

Require Import ZArith List Lia Bool.
Require Import Verif.Outcome Verif.Machine Verif.BitsSpec Verif.SimpleSpec Verif.SimpleModel Verif.SimpleView Verif.WordSpec Verif.SimpleMainProofs
  Verif.SimpleRefuted Verif.SimpleExamples.
Require Import Verif.WidthSpec Verif.WidthModel Verif.WidthProofs Verif.WidthKeepProofs.
Import ListNotations.
Open Scope Z_scope.

(** C134: the resource is the same object *)
Theorem C134_construct : forall w, platform w -> forall c buffer size up, cfg_ok c -> buffer_ok buffer size ->
  within w c buffer size -> w_construct w c buffer size up = construct c buffer size up.
Proof. exact built_alike. Qed.
Print Assumptions C134_construct.

(** every history of the debug build, whatever the client does, comes to the same end with the
    same pointers and the same calls of the upstream resource *)
Theorem C134_debug : forall w, platform w -> forall c buffer size up s fuel ops, made c buffer size up s -> DBG c = true ->
  within w c buffer size -> Forall (call_in w) ops -> 2 * Z.of_nat (length ops) + 2 < 2 ^ w ->
  alike w (run c fuel s ops) (w_run w c fuel s ops).
Proof. exact runs_alike. Qed.
Print Assumptions C134_debug.

(** so does every history of the release build that the debug build passes *)
Theorem C134_release : forall w, platform w -> forall m n buffer size up s fuel ops, made (Cfg m n true) buffer size up s ->
  within w (Cfg m n true) buffer size -> Forall (call_in w) ops -> 2 * Z.of_nat (length ops) + 2 < 2 ^ w ->
  alike_release w (run (Cfg m n true) fuel s ops) (w_run w (Cfg m n false) fuel s ops).
Proof. exact releases_alike. Qed.
Print Assumptions C134_release.

(** with 64 bits the two models are one, without any condition *)
Theorem C134_64 : (forall c buffer size up, w_construct 64 c buffer size up = construct c buffer size up) /\
  forall c fuel ops s, w_run 64 c fuel s ops = run c fuel s ops.
Proof. exact (conj construct_64 run_64). Qed.
Print Assumptions C134_64.

(** the condition on sizes is needed *)
Theorem C134_sizes_needed :
  let s := fresh 65552 16 false in let ans := fun _ _ => 0 in
  (forall dbg, made (Cfg 16 16 dbg) 65552 256 false s /\ within 32 (Cfg 16 16 dbg) 65552 256) /\
  (forall dbg, allocate_impl (Cfg 16 16 dbg) 50 s (2 ^ 32 - 48) 64 ans = Ok (s, 0, [])) /\
  w_allocate_impl 32 (Cfg 16 16 true) 50 s (2 ^ 32 - 48) 64 ans = Abort /\
  (exists s', w_allocate_impl 32 (Cfg 16 16 false) 50 s (2 ^ 32 - 48) 64 ans = Ok (s', 65600, [])) /\
  ~ in_bounds 65552 (65552 + 256) (65600, 2 ^ 32 - 48).
Proof. exact w_oversized. Qed.
Print Assumptions C134_sizes_needed.

(** requests of several sizes and alignments near the end of 32 bits, one of them answered by
    the upstream resource; some given back, then the rest released, then one given back again: the debug build stops in both *)
Example C134_instance :
  let c := Cfg 16 4 true in let d := 2 ^ 32 - 4096 in let s := fresh d 8 true in
  let ans := fun _ _ => 8192 in
  let ops := [OAllocate 40 4 ans; OAllocate 3 1 ans; OAllocate 9 8 ans; ODeallocate d; ODeallocate 8192; ORelease] in
  made c d 32 true s /\ within 32 c d 32 /\ Forall (call_in 32) ops /\ 2 * Z.of_nat (length ops) + 2 < 2 ^ 32 /\
  (exists s', w_run 32 c 50 s ops = Ok (s', [EAllocate 40 4 8192 [UpAllocate 40 4]; EAllocate 3 1 d []; EAllocate 9 8 (d + 8) [];
     EDeallocate d []; EDeallocate 8192 [UpDeallocate 8192]; ERelease])) /\
  w_run 32 c 50 s (ops ++ [ODeallocate d]) = Abort.
Proof.
  cbv zeta. split; [|split; [|split; [|split; [|split]]]].
  - constructor.
    + constructor; cbn [MB BS]; [lia|exact pow2_4|lia].
    + unfold buffer_ok. lia.
    + intros _. cbn [MB BS]. lia.
    + vm_compute. reflexivity.
    + discriminate.
    + intros g [k [K ->]] D. cbn [data fresh bc BS] in *.
      assert (k < 13); [|assert (2 ^ k <= 2 ^ 12) by (apply Z.pow_le_mono_r; lia); lia].
      destruct (Z_lt_le_dec k 13) as [|N]; [auto|exfalso].
      assert (D2 : (2 ^ 13 | 2 ^ 32 - 4096)).
      { eapply Z.divide_trans; [|exact D]. exists (2 ^ (k - 13)). rewrite <- Z.pow_add_r by lia. f_equal. lia. }
      apply Z.mod_divide in D2; [vm_compute in D2; discriminate|lia].
  - unfold within. cbn [MB BS]. lia.
  - repeat constructor; cbn; lia.
  - cbn [length]. lia.
  - eexists. vm_compute. reflexivity.
  - vm_compute. reflexivity.
Qed.

(** C135: what the resource promises on a platform with 32 bits.  Clients for which the search
    is right see the ideal first-fit allocator in both builds, however long they go on; they
    never get overlapping or out-of-bounds memory, and the counters count *)
Theorem C135_careful_partial : forall w, platform w -> forall c buffer size up s fuel ops, made c buffer size up s ->
  within w c buffer size -> (Z.to_nat (bc s) < fuel)%nat -> careful_client (data s) (BS c) (bc s) up ops ->
  Forall (call_in w) ops ->
  exists s' rs es, w_run w c fuel s ops = Ok (s', es) /\
    spec_run (data s) (BS c) (bc s) up [Reg 0 (bc s) false] ops rs es /\
    regions_of s' rs /\ tiling (bc s) rs /\
    pairwise_disjoint (live es) /\ NoDup (map fst (live es)) /\
    (forall a, In a (live es) -> in_bounds (data s) (data s + bc s * BS c) a) /\
    freec s' = Z.of_nat (length (free rs)) /\ busyc s' = Z.of_nat (length (busy rs)).
Proof. exact w_no_overlap. Qed.
Print Assumptions C135_careful_partial.

(** in debug builds nothing outside the buffer is handed out, whatever the history *)
Theorem C135_debug_bounds_partial : forall w, platform w -> forall c buffer size up s fuel ops s' es, made c buffer size up s ->
  DBG c = true -> within w c buffer size -> Forall sane_op ops -> Forall (call_in w) ops ->
  2 * Z.of_nat (length ops) + 2 < 2 ^ w -> w_run w c fuel s ops = Ok (s', es) ->
  forall sz align p, In (EAllocate sz align p []) es -> p <> 0 -> sz < 2 ^ w ->
  in_bounds (data s) (data s + bc s * BS c) (p, sz).
Proof. exact w_debug_bounds. Qed.
Print Assumptions C135_debug_bounds_partial.

(** clients of single blocks, with release(), too *)
Theorem C135_single_block : forall w, platform w -> forall c buffer size up s fuel ops, made c buffer size up s ->
  within w c buffer size -> (enough (bc s) <= fuel)%nat -> 2 * BS c <= 2 ^ w ->
  single_block_client (data s) (BS c) (bc s) up ops -> Forall (call_in w) ops ->
  exists s' rs es, w_run w c fuel s ops = Ok (s', es) /\
    spec_run (data s) (BS c) (bc s) up [Reg 0 (bc s) false] ops rs es /\
    regions_of s' rs /\ tiling (bc s) rs /\ (forall r, In r (busy rs) -> rlen r = 1) /\
    pairwise_disjoint (live es) /\ (forall a, In a (live es) -> in_bounds (data s) (data s + bc s * BS c) a) /\
    freec s' = Z.of_nat (length (free rs)) /\ busyc s' = Z.of_nat (length (live es)) /\
    destroy s' = (match live es with [] => Ok tt | _ => Abort end).
Proof. exact w_single_block. Qed.
Print Assumptions C135_single_block.

(** Debug builds, alignments up to BlockSize, no release(), histories of any length: everything is
    right at every moment if and only if at no moment two live allocations have been granted the
    same blocks *)
Theorem C135_until_overlap_exact_partial : forall w, platform w -> forall c buffer size up s fuel ops s' es,
  made c buffer size up s -> DBG c = true -> within w c buffer size ->
  Forall (plain_op (BS c)) ops -> Forall (call_in w) ops ->
  w_run w c fuel s ops = Ok (s', es) -> polite [] es ->
  ((forall ops1 ops2 s1 es1, ops = ops1 ++ ops2 -> w_run w c fuel s ops1 = Ok (s1, es1) -> in_order c s1 es1) <->
   (forall es1 es2, es = es1 ++ es2 -> well_granted c s (live es1))).
Proof. exact w_until_overlap_exact. Qed.
Print Assumptions C135_until_overlap_exact_partial.

Example C135_until_overlap_instance :
  let ops := [OAllocate 9 1 (fun _ _ => 0); OAllocate 1 1 (fun _ _ => 0); ODeallocate 4096; OAllocate 5 1 (fun _ _ => 0)] in
  exists s' es, w_run 32 (conf 8 true) 50 (fresh 4096 8 false) ops = Ok (s', es) /\ polite [] es /\
    Forall (plain_op 4) ops /\ Forall (call_in 32) ops /\
    made (conf 8 true) 4096 32 false (fresh 4096 8 false) /\ within 32 (conf 8 true) 4096 32 /\
    live es = [(4096, 5); (4108, 1)].
Proof.
  cbv zeta. assert (P1 : pow2 1) by (exists 0; split; [lia|reflexivity]).
  eexists. eexists. split; [vm_compute; reflexivity|]. split; [cbn; tauto|].
  split; [repeat constructor; cbn; auto; lia|]. split; [repeat constructor; cbn; lia|].
  split; [apply made_8|]. split; [unfold within; cbn [MB BS conf]; lia|]. reflexivity.
Qed.

(** but not every client is safe *)
Theorem C135_no_overlap_refuted : forall w, platform w -> forall dbg, made (conf 4 dbg) 4096 16 false (fresh 4096 4 false) /\
  exists s' es, w_run w (conf 4 dbg) 50 (fresh 4096 4 false) overlap_ops = Ok (s', es) /\
  polite [] es /\ ~ pairwise_disjoint (live es).
Proof. exact w_overlap. Qed.
Print Assumptions C135_no_overlap_refuted.

Example C135_instance : forall dbg, made (conf 8 dbg) 4096 32 false (fresh 4096 8 false) /\ within 32 (conf 8 dbg) 4096 32 /\
  single_block_client 4096 4 8 false single_ops /\ Forall (call_in 32) single_ops /\ Forall sane_op single_ops /\
  careful_client 4096 4 8 false pool_ops /\ Forall (call_in 32) pool_ops /\
  exists s', w_run 32 (conf 8 dbg) (enough 8) (fresh 4096 8 false) single_ops =
    Ok (s', [EAllocate 1 1 4096 []; EAllocate 3 1 4100 []; EDeallocate 4096 [];
             EAllocate 2 1 4096 []; ERelease; EAllocate 1 1 4096 []]).
Proof.
  intros dbg. split; [apply made_8|]. split; [unfold within; cbn [MB BS conf]; lia|]. split; [exact single_example|].
  split; [repeat constructor; cbn; lia|]. split; [repeat constructor; try exact pow2_1; lia|].
  split; [apply (pool_is_careful (conf 8 dbg) 4096 32 false (fresh 4096 8 false) 2); [apply made_8|lia|cbn; lia|exact pool_example]|]. split; [repeat constructor; cbn; lia|]. destruct dbg; eexists; vm_compute; reflexivity.
Qed.
