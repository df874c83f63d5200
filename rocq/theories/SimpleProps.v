(** Properties C49-C65: memory/simple_resource.h. *)

Require Import ZArith List Lia Bool Permutation Sorted.
Require Import Verif.Outcome Verif.BitsSpec Verif.SimpleSpec Verif.SimpleModel Verif.SimpleView
  Verif.SimpleScanProofs Verif.SimpleOpProofs Verif.SimpleHistProofs Verif.SimpleReleaseProofs
  Verif.SimpleAnyProofs Verif.SimpleMainProofs Verif.SimpleExactProofs Verif.SimpleAstrayProofs Verif.SimpleWalkProofs Verif.SimpleFreeProofs Verif.SimpleKeepProofs
  Verif.SimpleSweepSpec Verif.SimpleSweepProofs Verif.SimpleBalanceProofs Verif.SimplePinnedProofs Verif.SimpleFillProofs Verif.SimpleRefuted Verif.SimpleExamples.
Import ListNotations.
Open Scope Z_scope.

(** the fresh resource of 8 blocks of 4 bytes used in the examples is [made] *)
Example simple_made : forall dbg, made (conf 8 dbg) 4096 32 false (fresh 4096 8 false).
Proof. exact made_8. Qed.

(** C49: the largest aligned array of blocks, at most MaxBlockCount of them *)
Theorem C49_construction : forall c buffer size up, cfg_ok c -> buffer_ok buffer size ->
  exists s, construct c buffer size up = Ok s /\ has_up s = up /\ size_ c s = bc s * BS c /\
    freec s = 1 /\ busyc s = 0 /\
    ((data s = 0 /\ bc s = 0) \/
     (0 < data s /\ (BS c | data s) /\ 0 < bc s <= MB c /\
      buffer <= data s /\ data s + bc s * BS c <= buffer + size)) /\
    (buffer = 0 -> data s = 0) /\
    (buffer <> 0 -> forall d n, (BS c | d) -> buffer <= d -> d + n * BS c <= buffer + size ->
       n <= MB c -> n <= bc s).
Proof. exact construction. Qed.
Print Assumptions C49_construction.

Example C49_instance :
  construct (conf 8 true) 4097 30 true = Ok (fresh 4100 6 true) /\
  construct (conf 4 true) 4097 30 true = Ok (fresh 4100 4 true) /\
  construct (conf 4 true) 4097 6 true = Ok (fresh 0 0 true).
Proof. repeat split; vm_compute; reflexivity. Qed.

(** C50: clients for which the search is right (see [careful]) never get
    overlapping or out-of-bounds memory *)
Theorem C50_no_overlap_partial : forall c buffer size up s fuel ops, made c buffer size up s ->
  (Z.to_nat (bc s) < fuel)%nat -> careful_client (data s) (BS c) (bc s) up ops ->
  exists s' es, run c fuel s ops = Ok (s', es) /\ pairwise_disjoint (live es) /\ NoDup (map fst (live es)) /\
    forall a, In a (live es) -> in_bounds (data s) (data s + bc s * BS c) a.
Proof. exact no_overlap. Qed.
Print Assumptions C50_no_overlap_partial.

(** clients whose requests all need the same number of blocks, and clients that use
    the resource as a stack, are such clients *)
Theorem C50_pool_clients : forall c buffer size up s k ops, made c buffer size up s -> 0 < k ->
  (k + 1) * BS c <= 2 ^ 64 -> pool_client (data s) (BS c) (bc s) k up ops ->
  careful_client (data s) (BS c) (bc s) up ops.
Proof. exact pool_is_careful. Qed.
Print Assumptions C50_pool_clients.

Theorem C50_stack_clients : forall c buffer size up s ops, made c buffer size up s ->
  stack_client (data s) (BS c) (bc s) up ops -> careful_client (data s) (BS c) (bc s) up ops.
Proof. exact stack_is_careful. Qed.
Print Assumptions C50_stack_clients.

(** in debug builds nothing outside the buffer is ever handed out, whatever the history *)
Theorem C50_debug_bounds : forall c buffer size up s fuel ops s' es,
  cfg_ok c -> DBG c = true -> buffer_ok buffer size ->
  construct c buffer size up = Ok s -> Forall sane_op ops -> run c fuel s ops = Ok (s', es) ->
  forall sz align p, In (EAllocate sz align p []) es -> p <> 0 -> sz < 2 ^ 64 ->
  in_bounds (data s) (data s + bc s * BS c) (p, sz).
Proof. exact debug_bounds. Qed.
Print Assumptions C50_debug_bounds.

(** A client that takes block 0 first and keeps it: in debug builds, whatever else it
    asks for and in whatever order it gives things back, every history that comes to
    an end is one of the ideal first-fit allocator ([spec_run]), without overlaps. *)
Theorem C50_pinned_partial : forall c buffer size up s fuel sz align ans ops s' es, made c buffer size up s ->
  DBG c = true -> 0 < sz < BS c -> pow2 align -> align <= BS c -> sz + align <= 2 ^ 64 ->
  pinned_client (data s) (BS c) (bc s) up ops ->
  run c fuel s (OAllocate sz align ans :: ops) = Ok (s', es) ->
  exists rs, spec_run (data s) (BS c) (bc s) up [Reg 0 (bc s) false] (OAllocate sz align ans :: ops) rs es /\
    regions_of s' rs /\ tiling (bc s) rs /\
    pairwise_disjoint (live es) /\ NoDup (map fst (live es)) /\
    (forall a, In a (live es) -> in_bounds (data s) (data s + bc s * BS c) a) /\
    freec s' = Z.of_nat (length (free rs)) /\ busyc s' = Z.of_nat (length (busy rs)) /\
    busyc s' = Z.of_nat (length (live es)).
Proof. exact pinned_history. Qed.
Print Assumptions C50_pinned_partial.

Example C50_pinned_instance : pinned_client 4096 4 8 false pinned_ops /\
  exists s', run (conf 8 true) 50 (fresh 4096 8 false) (get 2 :: pinned_ops) =
    Ok (s', [EAllocate 2 1 4096 []; EAllocate 5 1 4100 []; EAllocate 1 1 4108 []; EDeallocate 4100 [];
             EAllocate 3 1 4100 []]).
Proof. split; [exact pinned_example|]. eexists. vm_compute. reflexivity. Qed.

(** but not every client is safe: overlapping memory is handed out, in both builds *)
Theorem C50_no_overlap_refuted : forall dbg, exists c s ops s' es, DBG c = dbg /\
  history c false s ops s' es /\ ~ pairwise_disjoint (live es).
Proof. exact overlap_refuted. Qed.
Print Assumptions C50_no_overlap_refuted.

(** in general: whenever the first region is in use and longer than a block, and the
    first free region is too small and not the last, memory inside the first region is
    given out again (if the blocks from block 1 on are enough for the request) *)
Theorem C50_astray_refuted : forall c s r0 rs fuel size align ans, cfg_ok c -> wf c s (r0 :: rs) ->
  2 <= rlen r0 -> rbusy r0 = true -> nxt s 1 = 0 \/ 1 < nxt s 1 < bc s -> (Z.to_nat (bc s) < fuel)%nat ->
  0 < size /\ pow2 align /\ size + align <= 2 ^ 64 -> align <= BS c -> ordinary_buffer (data s) (bc s * BS c) ->
  passes_first_free (data s) (BS c) (r0 :: rs) size align ->
  can_hold_spare (data s) (BS c) (from_block_1 (nxt s) (bc s)) size align ->
  exists s' q, allocate_impl c fuel s size align ans = Ok (s', q, []) /\ q = data s + BS c /\
    region_addr (data s) (BS c) r0 < q < region_addr (data s) (BS c) r0 + rlen r0 * BS c.
Proof. intros c s r0 rs fuel size align ans HC W L0 _. exact (astray_overlap c s r0 rs fuel size align ans HC W L0). Qed.
Print Assumptions C50_astray_refuted.

Example C50_astray_instance : forall dbg,
  let s := after (conf 8 dbg) (fresh 4096 8 false) busy_ops in
  wf (conf 8 dbg) s [Reg 0 2 true; Reg 2 1 false; Reg 3 1 true; Reg 4 4 false] /\ nxt s 1 = 0 /\
  passes_first_free 4096 4 [Reg 0 2 true; Reg 2 1 false; Reg 3 1 true; Reg 4 4 false] 9 1 /\
  can_hold_spare 4096 4 (from_block_1 (nxt s) (bc s)) 9 1 /\
  exists s', allocate_impl (conf 8 dbg) 50 s 9 1 (fun _ _ => 0) = Ok (s', 4100, []).
Proof.
  intros dbg. split; [apply busy_wf|]. split; [destruct dbg; vm_compute; reflexivity|]. split; [exact busy_passes|].
  split.
  - exists 4100. split; [destruct dbg; vm_compute; discriminate|]. split; [apply Z.divide_1_l|].
    destruct dbg; vm_compute; reflexivity.
  - destruct dbg; eexists; vm_compute; reflexivity.
Qed.

(** In release builds, a request that takes the whole of the first free region (in
    debug builds it aborts, C55) spoils the next one.  If that region is the last and the
    arrays have room behind it, the next request is given memory behind the buffer. *)
Theorem C50_release_outside_refuted : forall c s l r fuel align ans size align2 ans2, cfg_ok c -> DBG c = false ->
  wf c s (l ++ [r]) -> (forall x, In x l -> rbusy x = true) -> rbusy r = false ->
  ordinary_buffer (data s) (bc s * BS c) -> (length l + 1 < fuel)%nat ->
  pow2 align -> align <= BS c -> 0 < size -> pow2 align2 -> align2 <= BS c ->
  bc s + size / BS c + 2 < MB c -> data s + MB c * BS c <= 2 ^ 64 ->
  exists s1 s2 q,
    allocate_impl c fuel s (rlen r * BS c) align ans = Ok (s1, region_addr (data s) (BS c) r, []) /\
    allocate_impl c fuel s1 size align2 ans2 = Ok (s2, q, []) /\
    data s + bc s * BS c < q.
Proof. exact release_outside. Qed.
Print Assumptions C50_release_outside_refuted.

(** 8 blocks in a resource for 16: all 32 bytes of 4096..4128, then one byte at 4132 *)
Example C50_release_outside_instance :
  made (conf 16 false) 4096 32 false (fresh 4096 8 false) /\
  wf (conf 16 false) (fresh 4096 8 false) [Reg 0 8 false] /\
  exists s', run (conf 16 false) 50 (fresh 4096 8 false) [get 32; get 1] =
    Ok (s', [EAllocate 32 1 4096 []; EAllocate 1 1 4132 []]).
Proof. split; [exact made_16|]. split; [exact wf_16|]. eexists. vm_compute. reflexivity. Qed.

(** If another region [y] of at least two blocks follows, the next request is given
    memory inside it. *)
Theorem C50_release_inside_refuted : forall c s l r y t fuel align ans size align2 ans2, cfg_ok c -> DBG c = false ->
  wf c s (l ++ r :: y :: t) -> (forall x, In x l -> rbusy x = true) -> rbusy r = false ->
  ordinary_buffer (data s) (bc s * BS c) -> (length l + 1 < fuel)%nat ->
  pow2 align -> align <= BS c -> 0 < size -> pow2 align2 -> align2 <= BS c ->
  2 <= rlen y ->
  (let n := if nxt s (rstart y + 1) =? 0 then bc s else nxt s (rstart y + 1) in
   nxt s (rstart y + 1) < bc s /\ size < (n - (rstart y + 1)) * BS c) ->
  exists s1 s2 q,
    allocate_impl c fuel s (rlen r * BS c) align ans = Ok (s1, region_addr (data s) (BS c) r, []) /\
    allocate_impl c fuel s1 size align2 ans2 = Ok (s2, q, []) /\
    region_addr (data s) (BS c) y < q < region_addr (data s) (BS c) y + rlen y * BS c.
Proof. exact release_inside. Qed.
Print Assumptions C50_release_inside_refuted.

Example C50_release_inside_instance :
  wf (conf 8 false) (after (conf 8 false) (fresh 4096 8 false) [get 1; get 5; ODeallocate 4096])
    ([] ++ Reg 0 1 false :: Reg 1 2 true :: [Reg 3 5 false]) /\
  nxt (after (conf 8 false) (fresh 4096 8 false) [get 1; get 5; ODeallocate 4096]) 2 = 0 /\
  exists s', run (conf 8 false) 50 (fresh 4096 8 false) [get 1; get 5; ODeallocate 4096; get 4; get 1] =
    Ok (s', [EAllocate 1 1 4096 []; EAllocate 5 1 4100 []; EDeallocate 4096 []; EAllocate 4 1 4096 [];
             EAllocate 1 1 4104 []]).
Proof. split; [exact inside_wf|]. split; [vm_compute; reflexivity|]. eexists. vm_compute. reflexivity. Qed.

(** With MaxBlockCount = 2^8, 2^16 or 2^32 and a buffer that long: the whole buffer is
    given out, and then again from its second block on. *)
Theorem C50_release_full_refuted : forall c s r w fuel align ans size align2 ans2, cfg_ok c -> DBG c = false ->
  wf c s [r] -> rbusy r = false -> In w [8; 16; 32] -> MB c = 2 ^ w -> bc s = MB c ->
  ordinary_buffer (data s) (bc s * BS c) -> (1 < fuel)%nat ->
  pow2 align -> align <= BS c -> 0 < size -> pow2 align2 -> align2 <= BS c ->
  size < (bc s - 1) * BS c ->
  exists s1 s2 q,
    allocate_impl c fuel s (bc s * BS c) align ans = Ok (s1, data s, []) /\
    allocate_impl c fuel s1 size align2 ans2 = Ok (s2, q, []) /\
    data s < q /\ q + size < data s + bc s * BS c.
Proof. exact release_full. Qed.
Print Assumptions C50_release_full_refuted.

Example C50_release_full_instance :
  cfg_ok (conf 256 false) /\ wf (conf 256 false) (fresh 4096 256 false) [Reg 0 256 false] /\
  exists s', run (conf 256 false) 50 (fresh 4096 256 false) [get 1024; get 1] =
    Ok (s', [EAllocate 1024 1 4096 []; EAllocate 1 1 4100 []]).
Proof. split; [exact ok_256|]. split; [exact wf_256|]. eexists. vm_compute. reflexivity. Qed.

Example C50_pool_instance : pool_client 4096 4 8 2 false pool_ops /\
  exists s', run (conf 8 true) 50 (fresh 4096 8 false) pool_ops =
    Ok (s', [EAllocate 5 1 4096 []; EAllocate 7 1 4104 []; EDeallocate 4096 []; EAllocate 6 1 4096 []]).
Proof. split; [exact pool_example|]. eexists. vm_compute. reflexivity. Qed.
Example C50_stack_instance : stack_client 4096 4 8 false stack_ops /\
  exists s', run (conf 8 true) 50 (fresh 4096 8 false) stack_ops =
    Ok (s', [EAllocate 5 1 4096 []; EDeallocate 4096 []; EAllocate 9 1 4096 []; EAllocate 3 1 4108 []]).
Proof. split; [exact stack_example|]. eexists. vm_compute. reflexivity. Qed.

(** Debug builds, alignments up to BlockSize, every history: the live pointers are the addresses
    of different blocks, each marked as in use.  (What they point to may overlap.) *)
Theorem C50_distinct_partial : forall c up s ops s' es, history c up s ops s' es -> DBG c = true ->
  Forall (small_alignment (BS c)) ops ->
  NoDup (map fst (live es)) /\
  forall p, In p (map fst (live es)) -> exists i, 0 <= i < bc s /\ p = data s + i * BS c /\ inuse s' i = true.
Proof. exact distinct. Qed.
Print Assumptions C50_distinct_partial.

(** a history with overlapping allocations (C63_live_refuted), three of them *)
Example C50_distinct_instance : exists c s ops s' es, DBG c = true /\ history c false s ops s' es /\
  Forall (small_alignment (BS c)) ops /\ live es = [(4096, 5); (4100, 25); (4104, 21)].
Proof. destruct live_stuck as [c [s [ops [s' [es [A [B [C [D _]]]]]]]]]. exists c, s, ops, s', es. auto. Qed.

(** with a larger alignment the same pointer is handed out twice, by the fourth call *)
Theorem C50_same_pointer_refuted : forall dbg, exists c s ops s' es, DBG c = dbg /\
  history c false s ops s' es /\ ~ NoDup (map fst (live es)).
Proof. exact same_pointer_refuted. Qed.
Print Assumptions C50_same_pointer_refuted.

(** C51: every history whatsoever *)
Theorem C51_alignment : forall c buffer size up s fuel ops s' es, cfg_ok c -> buffer_ok buffer size ->
  construct c buffer size up = Ok s -> Forall sane_op ops -> run c fuel s ops = Ok (s', es) ->
  forall sz align p, In (EAllocate sz align p []) es -> p <> 0 -> (align | p) /\ (BS c | p).
Proof. exact always_aligned. Qed.
Print Assumptions C51_alignment.

Example C51_instance :
  exists s', run (Cfg 16 16 true) 50 (fresh 65552 16 false)
      [OAllocate 5 64 (fun _ _ => 0); OAllocate 5 8 (fun _ _ => 0)] =
    Ok (s', [EAllocate 5 64 65600 []; EAllocate 5 8 65552 []]).
Proof. eexists. vm_compute. reflexivity. Qed.

(** C52: careful requests return *)
Theorem C52_allocate_returns_partial : forall c s rs fuel size align ans, cfg_ok c -> wf c s rs ->
  ordinary_buffer (data s) (bc s * BS c) -> (Z.to_nat (bc s) < fuel)%nat ->
  0 <= size -> (0 < size -> pow2 align /\ careful (data s) (BS c) (bc s) rs size align) ->
  (has_up s = true -> answer_fits (BS c) (ans size align)) ->
  exists s' p calls, allocate_impl c fuel s size align ans = Ok (s', p, calls).
Proof. exact careful_returns. Qed.
Print Assumptions C52_allocate_returns_partial.

(** others need not *)
Theorem C52_allocate_returns_refuted : forall dbg, exists c s ops s' es size, DBG c = dbg /\
  history c false s ops s' es /\ forall ans, never_returns (fun fuel => allocate_impl c fuel s' size 1 ans).
Proof. exact hang_refuted. Qed.
Print Assumptions C52_allocate_returns_refuted.

(** in general: whenever block 0 is an allocation of one block and the first free
    region is too small and not the last region *)
Theorem C52_hangs_refuted : forall c s r0 l f t size align ans, cfg_ok c ->
  wf c s (r0 :: l ++ f :: t) -> rlen r0 = 1 -> (forall x, In x (r0 :: l) -> rbusy x = true) ->
  rbusy f = false -> t <> [] ->
  0 < size /\ pow2 align /\ size + align <= 2 ^ 64 -> ordinary_buffer (data s) (bc s * BS c) ->
  alignment_within_reach (data s) (bc s * BS c) align ->
  ~ can_hold (data s) (BS c) f size align ->
  never_returns (fun fuel => allocate_impl c fuel s size align ans).
Proof. exact hang_generic. Qed.
Print Assumptions C52_hangs_refuted.

(** exactly when, as long as the first region is a single block: some free region,
    neither the first nor the last, is too small, and so are all free regions before it *)
Theorem C52_exact_partial : forall c s r0 rs size align ans, cfg_ok c -> wf c s (r0 :: rs) -> rlen r0 = 1 ->
  0 < size /\ pow2 align /\ size + align <= 2 ^ 64 -> ordinary_buffer (data s) (bc s * BS c) ->
  alignment_within_reach (data s) (bc s * BS c) align ->
  (never_returns (fun fuel => allocate_impl c fuel s size align ans) <->
   exists l f t, r0 :: rs = l ++ f :: t /\ rbusy f = false /\
     nothing_fits (data s) (BS c) (l ++ [f]) size align /\ l <> [] /\ t <> []).
Proof. exact returns_exactly. Qed.
Print Assumptions C52_exact_partial.

(** and exactly when the first region is longer: the first free region is too small and
    not the last, block 1 (inside the first region) still has a next_index(), and the
    blocks from block 1 to that index are too few *)
Theorem C52_exact_long_partial : forall c s r0 rs size align ans, cfg_ok c -> wf c s (r0 :: rs) -> 2 <= rlen r0 ->
  nxt s 1 = 0 \/ 1 < nxt s 1 < bc s ->
  0 < size /\ pow2 align /\ size + align <= 2 ^ 64 -> ordinary_buffer (data s) (bc s * BS c) ->
  alignment_within_reach (data s) (bc s * BS c) align ->
  (never_returns (fun fuel => allocate_impl c fuel s size align ans) <->
   passes_first_free (data s) (BS c) (r0 :: rs) size align /\ nxt s 1 <> 0 /\
   ~ can_hold (data s) (BS c) (from_block_1 (nxt s) (bc s)) size align).
Proof. exact returns_exactly_long. Qed.
Print Assumptions C52_exact_long_partial.

Example C52_long_instance : forall dbg,
  let s := after (conf 8 dbg) (fresh 4096 8 false) long_ops in
  wf (conf 8 dbg) s [Reg 0 2 false; Reg 2 1 true; Reg 3 5 false] /\ nxt s 1 = 2 /\
  passes_first_free 4096 4 [Reg 0 2 false; Reg 2 1 true; Reg 3 5 false] 9 1 /\
  from_block_1 (nxt s) (bc s) = Reg 1 1 false /\
  allocate_impl (conf 8 dbg) 50 s 9 1 (fun _ _ => 0) = Hang.
Proof.
  intros dbg. split; [apply long_wf|]. split; [destruct dbg; vm_compute; reflexivity|]. split; [exact long_passes|].
  destruct dbg; (split; vm_compute; reflexivity).
Qed.

(** the state after get 1; get 1; get 1; deallocate the second is consistent *)
Example C52_instance : forall dbg,
  let s := after (conf 4 dbg) (fresh 4096 4 false) [get 1; get 1; get 1; ODeallocate 4100] in
  wf (conf 4 dbg) s (Reg 0 1 true :: [] ++ Reg 1 1 false :: [Reg 2 1 true; Reg 3 1 false]) /\
  (exists s', allocate_impl (conf 4 dbg) 50 s 3 1 (fun _ _ => 0) = Ok (s', 4100, [])) /\
  allocate_impl (conf 4 dbg) 50 s 5 1 (fun _ _ => 0) = Hang.
Proof.
  intros dbg. split; [apply hang_wf|]. destruct dbg;
    (split; [eexists; vm_compute; reflexivity|vm_compute; reflexivity]).
Qed.
Example C52_careful_instance : careful 4096 4 8 [Reg 0 8 false] 33 1.
Proof. apply large_request. Qed.

(** C53, C55 (one byte to spare): first fit at the lowest address; [size / BlockSize + 1]
    blocks are used and everything else stays *)
Theorem C53_first_fit_partial : forall c s rs fuel size align ans l f t, cfg_ok c -> wf c s rs ->
  ordinary_buffer (data s) (bc s * BS c) -> (Z.to_nat (bc s) < fuel)%nat ->
  0 < size -> pow2 align -> size + align <= 2 ^ 64 ->
  alignment_within_reach (data s) (bc s * BS c) align -> search_safe (data s) (BS c) rs size align ->
  first_fit (data s) (BS c) rs size align l f t ->
  exists s' q i rs', allocate_impl c fuel s size align ans = Ok (s', q, []) /\
    first_aligned (data s) (BS c) f align q /\ q = data s + i * BS c /\
    wf c s' rs' /\ same_place s s' /\
    busy rs' = busy l ++ Reg i (size / BS c + 1) true :: busy t.
Proof. exact first_fit_served. Qed.
Print Assumptions C53_first_fit_partial.

(** In debug builds, when the first region is a single block, every answer is the one
    of the ideal first-fit allocator. *)
Theorem C53_conforms_partial : forall c s r0 rs size align ans fuel s' p calls, cfg_ok c -> DBG c = true ->
  wf c s (r0 :: rs) -> rlen r0 = 1 -> 0 < size /\ pow2 align /\ size + align <= 2 ^ 64 ->
  ordinary_buffer (data s) (bc s * BS c) -> alignment_within_reach (data s) (bc s * BS c) align ->
  allocate_impl c fuel s size align ans = Ok (s', p, calls) ->
  exists rs', wf c s' rs' /\ same_place s s' /\
    spec_step (data s) (BS c) (bc s) (has_up s) (r0 :: rs) (OAllocate size align ans) rs' (EAllocate size align p calls).
Proof. exact debug_conforms. Qed.
Print Assumptions C53_conforms_partial.

(** in the state of C56_instance 5 bytes are found at the start *)
Example C53_instance : forall dbg,
  let s := after (conf 8 dbg) (fresh 4096 8 false) [get 5; get 1; ODeallocate 4096] in
  let rs := [Reg 0 2 false; Reg 2 1 true; Reg 3 5 false] in
  wf (conf 8 dbg) s rs /\ first_fit 4096 4 rs 5 1 [] (Reg 0 2 false) [Reg 2 1 true; Reg 3 5 false] /\
  search_safe 4096 4 rs 5 1 /\
  exists s', allocate_impl (conf 8 dbg) 50 s 5 1 (fun _ _ => 0) = Ok (s', 4096, []).
Proof.
  intros dbg. split; [apply fit_wf|]. split; [apply fit_request|]. split; [apply fit_request|].
  destruct dbg; eexists; vm_compute; reflexivity.
Qed.

Theorem C53_first_fit_refuted : forall dbg, exists c s ops s' es rs l f t q s2 p, DBG c = dbg /\
  history c false s ops s' es /\ wf c s' rs /\ first_fit (data s) (BS c) rs 9 1 l f t /\
  first_aligned (data s) (BS c) f 1 q /\
  allocate_impl c 50 s' 9 1 (fun _ _ => 0) = Ok (s2, p, []) /\ p <> q.
Proof. exact first_fit_refuted. Qed.
Print Assumptions C53_first_fit_refuted.

(** in general: the place is not in the first fitting region but after block 1 *)
Theorem C53_astray_refuted : forall c s r0 rs fuel size align ans, cfg_ok c -> wf c s (r0 :: rs) -> 2 <= rlen r0 ->
  nxt s 1 = 0 \/ 1 < nxt s 1 < bc s -> (Z.to_nat (bc s) < fuel)%nat ->
  0 < size /\ pow2 align /\ size + align <= 2 ^ 64 -> ordinary_buffer (data s) (bc s * BS c) ->
  alignment_within_reach (data s) (bc s * BS c) align ->
  passes_first_free (data s) (BS c) (r0 :: rs) size align ->
  can_hold_spare (data s) (BS c) (from_block_1 (nxt s) (bc s)) size align ->
  exists s' q, allocate_impl c fuel s size align ans = Ok (s', q, []) /\
    first_aligned (data s) (BS c) (from_block_1 (nxt s) (bc s)) align q.
Proof. exact astray_served. Qed.
Print Assumptions C53_astray_refuted.

(** Exactly, in debug builds after every history, whether the links still make sense or not:
    what allocate does follows from what the search described by [search_from_0] comes upon. *)
Theorem C53_search_exact_partial : forall c buffer size up s fuel ops s' es sz align ans,
  made c buffer size up s -> DBG c = true -> Forall sane_op ops -> run c fuel s ops = Ok (s', es) ->
  0 < sz /\ pow2 align /\ sz + align <= 2 ^ 64 ->
  (alignment_within_reach (data s) (bc s * BS c) align ->
   exists v, search_from_0 (data s) (BS c) (bc s) (nxt s') (inuse s') sz align v /\
     (forall w, search_from_0 (data s) (BS c) (bc s) (nxt s') (inuse s') sz align w -> w = v) /\
     follows c s' sz align ans v) /\
  (~ alignment_within_reach (data s) (bc s * BS c) align -> follows c s' sz align ans (Some Ends)).
Proof. exact search_exact. Qed.
Print Assumptions C53_search_exact_partial.

(** a history after which the links are inconsistent (block 3 follows both block 1 and block 2),
    and all that the search can come upon *)
Example C53_search_instance :
  let c := conf 8 true in
  let ops := [get 5; get 1; get 1; get 1; ODeallocate 4104; get 5; ODeallocate 4100] in
  let s := after c (fresh 4096 8 false) ops in
  let ops2 := [get 5; get 1; get 1; ODeallocate 4104; get 5; ODeallocate 4096] in
  let s2 := after c (fresh 4096 8 false) ops2 in
  (exists es, run c 60 (fresh 4096 8 false) ops = Ok (s, es)) /\
  nxt s 1 = 3 /\ nxt s 2 = 3 /\
  (exists es, run c 60 (fresh 4096 8 false) ops2 = Ok (s2, es)) /\
  search_from_0 4096 4 8 (nxt s) (inuse s) 3 1 (Some (Holds 2)) /\
  search_from_0 4096 4 8 (nxt s) (inuse s) 4 1 (Some (Holds 2)) /\
  search_from_0 4096 4 8 (nxt s) (inuse s) 5 1 (Some (Holds 1)) /\
  search_from_0 4096 4 8 (nxt s) (inuse s) 9 1 None /\
  search_from_0 4096 4 8 (nxt s2) (inuse s2) 13 1 (Some Ends) /\
  (exists s', allocate_impl c 60 s 3 1 (fun _ _ => 0) = Ok (s', 4104, [])) /\
  allocate_impl c 60 s 4 1 (fun _ _ => 0) = Abort /\
  (exists s', allocate_impl c 60 s 5 1 (fun _ _ => 0) = Ok (s', 4100, [])) /\
  allocate_impl c 60 s 9 1 (fun _ _ => 0) = Hang /\
  allocate_impl c 60 s2 13 1 (fun _ _ => 0) = Ok (s2, 0, []).
Proof. exact search_instance. Qed.

(** C54 *)
Theorem C54_upstream_partial : forall c s rs fuel size align ans, cfg_ok c -> wf c s rs ->
  ordinary_buffer (data s) (bc s * BS c) -> (Z.to_nat (bc s) < fuel)%nat ->
  0 < size -> pow2 align -> careful (data s) (BS c) (bc s) rs size align ->
  (has_up s = true -> answer_fits (BS c) (ans size align)) ->
  exists s' p calls, allocate_impl c fuel s size align ans = Ok (s', p, calls) /\
    (nothing_fits (data s) (BS c) rs size align ->
       s' = s /\ (if has_up s then calls = [UpAllocate size align] /\ p = ans size align
                  else calls = [] /\ p = 0)) /\
    (~ nothing_fits (data s) (BS c) rs size align -> calls = [] /\ p <> 0).
Proof. exact upstream_used. Qed.
Print Assumptions C54_upstream_partial.

Example C54_instance : careful 4096 4 8 [Reg 0 8 false] 33 1 /\ nothing_fits 4096 4 [Reg 0 8 false] 33 1 /\
  allocate_impl (conf 8 true) 50 (fresh 4096 8 true) 33 1 (fun _ _ => 512) =
    Ok (fresh 4096 8 true, 512, [UpAllocate 33 1]).
Proof. split; [apply large_request|]. split; [apply large_request|]. vm_compute. reflexivity. Qed.

(** the search that goes to block 1 and finds too few blocks there, up to the end of the
    buffer, asks the upstream *)
Theorem C54_long_partial : forall c s r0 rs fuel size align ans, cfg_ok c -> wf c s (r0 :: rs) -> 2 <= rlen r0 ->
  nxt s 1 = 0 -> (Z.to_nat (bc s) < fuel)%nat ->
  0 < size /\ pow2 align /\ size + align <= 2 ^ 64 -> ordinary_buffer (data s) (bc s * BS c) ->
  alignment_within_reach (data s) (bc s * BS c) align ->
  passes_first_free (data s) (BS c) (r0 :: rs) size align ->
  ~ can_hold (data s) (BS c) (from_block_1 (nxt s) (bc s)) size align ->
  (has_up s = true -> answer_fits (BS c) (ans size align)) ->
  allocate_impl c fuel s size align ans =
    Ok (if has_up s then (s, ans size align, [UpAllocate size align]) else (s, 0, [])).
Proof. exact astray_refused. Qed.
Print Assumptions C54_long_partial.

Example C54_long_instance : forall dbg,
  let s := after (conf 8 dbg) (fresh 4096 8 false) busy_ops in
  ~ can_hold 4096 4 (from_block_1 (nxt s) (bc s)) 29 1 /\
  allocate_impl (conf 8 dbg) 50 s 29 1 (fun _ _ => 0) = Ok (s, 0, []).
Proof.
  intros dbg. split.
  - intros [q [Q1 [_ Q2]]]. replace (from_block_1 _ _) with (Reg 1 7 false) in *
      by (destruct dbg; vm_compute; reflexivity). unfold region_addr in *. cbn [rstart rlen] in *. lia.
  - destruct dbg; vm_compute; reflexivity.
Qed.

(** a buffer too small for a block *)
Theorem C54_no_block : forall c s fuel size align ans, data s = 0 -> 0 < size ->
  DBG c = false \/ pow2 align /\ align < 2 ^ 64 ->
  (DBG c = true -> cfg_ok c /\ (has_up s = true -> answer_fits (BS c) (ans size align))) ->
  allocate_impl c fuel s size align ans =
    Ok (if has_up s then (s, ans size align, [UpAllocate size align]) else (s, 0, [])).
Proof. exact empty_allocate. Qed.
Print Assumptions C54_no_block.

(** In debug builds, after any history: upstream is asked exactly when the alignment is out
    of reach or the search described by [search_from_0] ends without a region; nothing
    then changes, and the answer is the one of upstream. *)
Theorem C54_exact_partial : forall c buffer size s fuel ops s' es sz align ans,
  made c buffer size true s -> DBG c = true -> Forall sane_op ops -> run c fuel s ops = Ok (s', es) ->
  0 < sz /\ pow2 align /\ sz + align <= 2 ^ 64 -> answer_fits (BS c) (ans sz align) ->
  ((exists f s2 p calls, allocate_impl c f s' sz align ans = Ok (s2, p, calls) /\ calls <> []) <->
   ~ alignment_within_reach (data s) (bc s * BS c) align \/
   search_from_0 (data s) (BS c) (bc s) (nxt s') (inuse s') sz align (Some Ends)) /\
  forall f s2 p calls, allocate_impl c f s' sz align ans = Ok (s2, p, calls) -> calls <> [] ->
    s2 = s' /\ p = ans sz align /\ calls = [UpAllocate sz align].
Proof. exact upstream_exact. Qed.
Print Assumptions C54_exact_partial.

Example C54_exact_instance :
  let c := conf 8 true in
  let ops := [get 5; get 1; get 1; ODeallocate 4104; get 5; ODeallocate 4096] in
  let s := after c (fresh 4096 8 true) ops in
  made c 4096 32 true (fresh 4096 8 true) /\
  (exists es, run c 60 (fresh 4096 8 true) ops = Ok (s, es)) /\
  search_from_0 4096 4 8 (nxt s) (inuse s) 13 1 (Some Ends) /\
  allocate_impl c 60 s 13 1 (fun _ _ => 8192) = Ok (s, 8192, [UpAllocate 13 1]).
Proof. exact upstream_instance. Qed.

(** the upstream is asked although the request fits *)
Theorem C54_alignment_refuted : forall dbg, exists c buffer size s, DBG c = dbg /\ made c buffer size true s /\
  can_hold (data s) (BS c) (Reg 0 (bc s) false) 8 64 /\
  forall ans fuel, answer_fits (BS c) (ans 8 64) ->
    allocate_impl c fuel s 8 64 ans = Ok (s, ans 8 64, [UpAllocate 8 64]).
Proof. exact gate_refuted. Qed.
Print Assumptions C54_alignment_refuted.

(** the request is served although nothing fits *)
Theorem C54_served_refuted : forall dbg, exists c s ops s' es rs s2 p, DBG c = dbg /\
  history c false s ops s' es /\ wf c s' rs /\ nothing_fits (data s) (BS c) rs 9 1 /\
  allocate_impl c 50 s' 9 1 (fun _ _ => 0) = Ok (s2, p, []) /\ p <> 0.
Proof. exact served_from_nowhere. Qed.
Print Assumptions C54_served_refuted.

(** C55: a request that fills the first free region to its last byte aborts in debug
    builds, always *)
Theorem C55_exact_fill_refuted : forall c s l r t fuel size align ans, cfg_ok c -> DBG c = true ->
  wf c s (l ++ r :: t) -> (forall x, In x l -> rbusy x = true) -> rbusy r = false ->
  0 < size /\ pow2 align /\ size + align <= 2 ^ 64 -> ordinary_buffer (data s) (bc s * BS c) ->
  alignment_within_reach (data s) (bc s * BS c) align ->
  can_hold (data s) (BS c) r size align -> ~ can_hold_spare (data s) (BS c) r size align ->
  (length l < fuel)%nat ->
  allocate_impl c fuel s size align ans = Abort.
Proof. exact exact_fill. Qed.
Print Assumptions C55_exact_fill_refuted.

(** In release builds (see also C50_release_outside_refuted and its neighbours): when the
    last region is the free one and the arrays end with the buffer, or one entry later,
    they are overrun. *)
Theorem C55_exact_fill_release_refuted : forall c s l r fuel align ans, cfg_ok c -> DBG c = false ->
  wf c s (l ++ [r]) -> (forall x, In x l -> rbusy x = true) -> rbusy r = false ->
  ordinary_buffer (data s) (bc s * BS c) -> (length l < fuel)%nat ->
  pow2 align -> align <= BS c -> MB c <= bc s + 1 ->
  (forall w, In w [8; 16; 32; 64] -> bc s <> 2 ^ w /\ bc s + 1 <> 2 ^ w) ->
  allocate_impl c fuel s (rlen r * BS c) align ans = UB.
Proof. exact release_ub. Qed.
Print Assumptions C55_exact_fill_release_refuted.

Example C55_exact_fill_release_instance :
  wf (conf 8 false) (fresh 4096 8 false) [Reg 0 8 false] /\
  run (conf 8 false) 50 (fresh 4096 8 false) [get 32] = UB.
Proof. split; [exact wf_8|vm_compute; reflexivity]. Qed.

(** With one block fewer than BIndex can count, the resource then shows a single region
    in use, whatever was allocated before, and still counts a free one; giving back
    the first allocation makes the whole buffer free. *)
Theorem C55_forgets_refuted : forall c s l r w fuel align ans, cfg_ok c -> DBG c = false ->
  wf c s (l ++ [r]) -> (forall x, In x l -> rbusy x = true) -> rbusy r = false ->
  ordinary_buffer (data s) (bc s * BS c) -> (length l < fuel)%nat ->
  pow2 align -> align <= BS c -> In w [8; 16; 32] -> bc s + 1 = 2 ^ w -> MB c <= bc s + 1 ->
  exists s1,
    allocate_impl c fuel s (rlen r * BS c) align ans = Ok (s1, region_addr (data s) (BS c) r, []) /\
    regions_of s1 [Reg 0 (bc s) true] /\ freec s1 = freec s /\
    (l <> [] -> forall size align2 ans2, 0 < size < bc s * BS c -> pow2 align2 -> align2 <= BS c ->
       exists s2 s3, deallocate_impl c s1 (data s) = Ok (s2, []) /\
         allocate_impl c fuel s2 size align2 ans2 = Ok (s3, data s, [])).
Proof. exact release_forgets. Qed.
Print Assumptions C55_forgets_refuted.

(** three live allocations; the first is given back; then 1000 bytes on top of the others *)
Example C55_forgets_instance :
  wf (conf 256 false) (after (conf 256 false) (fresh 4096 255 false) [get 1; get 5])
    ([Reg 0 1 true; Reg 1 2 true] ++ [Reg 3 252 false]) /\
  exists s', run (conf 256 false) 50 (fresh 4096 255 false) [get 1; get 5; get 1008; ODeallocate 4096; get 1000] =
    Ok (s', [EAllocate 1 1 4096 []; EAllocate 5 1 4100 []; EAllocate 1008 1 4108 []; EDeallocate 4096 [];
             EAllocate 1000 1 4096 []]).
Proof. split; [exact forgets_wf|]. eexists. vm_compute. reflexivity. Qed.

(** Requests that leave a byte over: a request is given the blocks it needs exactly when
    its size is no multiple of BlockSize, and one block more otherwise *)
Theorem C55_blocks_exact_partial : forall c s rs fuel size align ans l f t, cfg_ok c -> wf c s rs ->
  ordinary_buffer (data s) (bc s * BS c) -> (Z.to_nat (bc s) < fuel)%nat ->
  0 < size -> pow2 align -> size + align <= 2 ^ 64 ->
  alignment_within_reach (data s) (bc s * BS c) align -> search_safe (data s) (BS c) rs size align ->
  first_fit (data s) (BS c) rs size align l f t ->
  exists s' q i k rs', allocate_impl c fuel s size align ans = Ok (s', q, []) /\ wf c s' rs' /\
    busy rs' = busy l ++ Reg i (if size mod BS c =? 0 then k + 1 else k) true :: busy t /\ blocks_for (BS c) size k.
Proof. exact blocks_used. Qed.
Print Assumptions C55_blocks_exact_partial.

(** the state and the request of 5 bytes of C53_instance *)
Example C55_blocks_instance : forall dbg,
  let s := after (conf 8 dbg) (fresh 4096 8 false) [get 5; get 1; ODeallocate 4096] in
  let rs := [Reg 0 2 false; Reg 2 1 true; Reg 3 5 false] in
  wf (conf 8 dbg) s rs /\ first_fit 4096 4 rs 5 1 [] (Reg 0 2 false) [Reg 2 1 true; Reg 3 5 false] /\
  search_safe 4096 4 rs 5 1 /\ blocks_for 4 5 2.
Proof.
  intros dbg. split; [apply fit_wf|]. split; [apply fit_request|]. split; [apply fit_request|].
  split; [lia|]. intros j H. lia.
Qed.

(** a request of one whole block is given two *)
Theorem C55_extra_block_refuted : forall dbg, exists c buffer size s s2 rs q, DBG c = dbg /\
  made c buffer size false s /\
  allocate_impl c 50 s 4 1 (fun _ _ => 0) = Ok (s2, q, []) /\ regions_of s2 rs /\
  BS c = 4 /\ busy rs = [Reg 0 2 true].
Proof. exact extra_block. Qed.
Print Assumptions C55_extra_block_refuted.

(** C56 *)
Theorem C56_deallocate : forall c s rs p, cfg_ok c -> wf c s rs -> data s <= p < data s + bc s * BS c ->
  (forall l r t, rs = l ++ r :: t -> rbusy r = true -> p = region_addr (data s) (BS c) r ->
     exists s' rs', deallocate_impl c s p = Ok (s', []) /\ wf c s' rs' /\ same_place s s' /\
       busy rs' = busy l ++ busy t) /\
  ((forall r, In r rs -> rbusy r = true -> p <> region_addr (data s) (BS c) r) ->
     deallocate_impl c s p = Abort).
Proof. exact dealloc_exact. Qed.
Print Assumptions C56_deallocate.

(** the state after get 5; get 1; deallocate the first is consistent *)
Example C56_instance : forall dbg,
  let s := after (conf 8 dbg) (fresh 4096 8 false) [get 5; get 1; ODeallocate 4096] in
  wf (conf 8 dbg) s [Reg 0 2 false; Reg 2 1 true; Reg 3 5 false] /\
  (exists s', deallocate_impl (conf 8 dbg) s 4104 = Ok (s', [])) /\
  deallocate_impl (conf 8 dbg) s 4096 = Abort /\ deallocate_impl (conf 8 dbg) s 4105 = Abort /\
  deallocate_impl (conf 8 dbg) s 4108 = Abort.
Proof.
  intros dbg. split; [apply fit_wf|]. destruct dbg;
  (split; [eexists; vm_compute; reflexivity|]; repeat split; vm_compute; reflexivity).
Qed.

(** C57: from consistent states *)
Theorem C57_coalesced_partial : forall c s rs p s', cfg_ok c -> wf c s rs ->
  data s <= p < data s + bc s * BS c -> deallocate_impl c s p = Ok (s', []) ->
  exists rs', wf c s' rs' /\ regions_of s' rs' /\ coalesced rs'.
Proof. exact dealloc_coalesces. Qed.
Print Assumptions C57_coalesced_partial.

Example C57_instance : forall dbg,
  let s := after (conf 8 dbg) (fresh 4096 8 false) [get 5; get 1; ODeallocate 4096] in
  wf (conf 8 dbg) s [Reg 0 2 false; Reg 2 1 true; Reg 3 5 false] /\
  exists s', deallocate_impl (conf 8 dbg) s 4104 = Ok (s', []) /\ regions_of s' [Reg 0 8 false].
Proof.
  intros dbg. split; [apply fit_wf|]. destruct dbg; eexists; (split; [vm_compute; reflexivity|]);
    vm_compute; repeat split; discriminate.
Qed.

(** not after every history: blocks i and j are neighbours and both free *)
Theorem C57_coalesced_refuted : forall dbg, exists c s ops s' es i j, DBG c = dbg /\
  history c false s (ops ++ [ODeallocate 4108]) s' es /\
  path (nxt s') 0 [0; i; j] /\ inuse s' i = false /\ inuse s' j = false.
Proof. exact coalescing_refuted. Qed.
Print Assumptions C57_coalesced_refuted.

(** C58 *)
Theorem C58_allocate_deallocate_partial : forall c s rs fuel size align ans l f t, cfg_ok c -> wf c s rs ->
  ordinary_buffer (data s) (bc s * BS c) -> (Z.to_nat (bc s) < fuel)%nat ->
  0 < size -> pow2 align -> size + align <= 2 ^ 64 ->
  alignment_within_reach (data s) (bc s * BS c) align -> search_safe (data s) (BS c) rs size align ->
  first_fit (data s) (BS c) rs size align l f t ->
  exists s1 q s2, allocate_impl c fuel s size align ans = Ok (s1, q, []) /\
    deallocate_impl c s1 q = Ok (s2, []) /\
    wf c s2 rs /\ freec s2 = freec s /\ busyc s2 = busyc s /\ same_place s s2.
Proof. exact alloc_dealloc. Qed.
Print Assumptions C58_allocate_deallocate_partial.

Example C58_instance : forall dbg,
  let s := after (conf 8 dbg) (fresh 4096 8 false) [get 5; get 1; ODeallocate 4096] in
  exists s1 s2, allocate_impl (conf 8 dbg) 50 s 5 1 (fun _ _ => 0) = Ok (s1, 4096, []) /\
    deallocate_impl (conf 8 dbg) s1 4096 = Ok (s2, []) /\
    regions_of s2 [Reg 0 2 false; Reg 2 1 true; Reg 3 5 false].
Proof.
  intros dbg. destruct dbg; do 2 eexists; (split; [vm_compute; reflexivity|]);
    (split; [vm_compute; reflexivity|]); vm_compute; repeat split; discriminate.
Qed.

(** not when the search goes astray *)
Theorem C58_allocate_deallocate_refuted : forall dbg, exists c s ops s1 es rs s2 q s3, DBG c = dbg /\
  history c false s ops s1 es /\ wf c s1 rs /\
  allocate_impl c 50 s1 9 1 (fun _ _ => 0) = Ok (s2, q, []) /\ q <> 0 /\
  deallocate_impl c s2 q = Ok (s3, []) /\
  freec s3 <> freec s1 /\ nxt s3 0 <> nxt s1 0.
Proof. exact alloc_dealloc_refuted. Qed.
Print Assumptions C58_allocate_deallocate_refuted.

(** C59, C60 *)
Theorem C59_counts_partial : forall c buffer size up s fuel ops, made c buffer size up s ->
  (Z.to_nat (bc s) < fuel)%nat -> careful_client (data s) (BS c) (bc s) up ops ->
  exists s' es rs, run c fuel s ops = Ok (s', es) /\ regions_of s' rs /\ tiling (bc s) rs /\
    freec s' = Z.of_nat (length (free rs)) /\ busyc s' = Z.of_nat (length (busy rs)) /\
    busyc s' = Z.of_nat (length (live es)) /\
    Permutation (map fst (live es)) (map (region_addr (data s) (BS c)) (busy rs)).
Proof. exact careful_counts. Qed.
Print Assumptions C59_counts_partial.

(** the client of C50_pool_instance *)
Example C59_instance : forall dbg, careful_client 4096 4 8 false pool_ops /\
  exists s' es, run (conf 8 dbg) 50 (fresh 4096 8 false) pool_ops = Ok (s', es) /\
    freec s' = 1 /\ busyc s' = 2 /\ live es = [(4096, 6); (4104, 7)].
Proof.
  intros dbg. split.
  - apply (pool_is_careful (conf 8 dbg) 4096 32 false (fresh 4096 8 false) 2); [apply made_8|lia|cbn; lia|exact pool_example].
  - destruct dbg; do 2 eexists; (split; [vm_compute; reflexivity|]); vm_compute; auto.
Qed.

Theorem C59_counts_refuted : forall dbg, exists c s ops s' es l, DBG c = dbg /\
  history c false s ops s' es /\ path (nxt s') 0 l /\
  freec s' <> Z.of_nat (length (filter (fun i => negb (inuse s' i)) l)) /\
  busyc s' <> Z.of_nat (length (filter (inuse s') l)).
Proof. exact counts_refuted. Qed.
Print Assumptions C59_counts_refuted.

(** busy_count() counts the live allocations after every history without release,
    safe or not (see C62) *)
Theorem C59_busy_count : forall c fuel buffer size up ops s s' es, cfg_ok c -> buffer_ok buffer size ->
  buffer + BS c + MB c * BS c <= 2 ^ 64 ->
  Forall (counted_op (buffer + BS c + MB c * BS c)) ops -> Z.of_nat (length ops) < 2 ^ 64 ->
  construct c buffer size up = Ok s -> run c fuel s ops = Ok (s', es) -> polite [] es ->
  busyc s' = Z.of_nat (length (live es)) /\
  destroy s' = (match live es with [] => Ok tt | _ => Abort end).
Proof. exact destructor. Qed.
Print Assumptions C59_busy_count.

Theorem C60_tiling_partial : forall c buffer size up s fuel ops, made c buffer size up s ->
  (Z.to_nat (bc s) < fuel)%nat -> careful_client (data s) (BS c) (bc s) up ops ->
  exists s' es rs, run c fuel s ops = Ok (s', es) /\ regions_of s' rs /\ tiling (bc s) rs /\
    freec s' = Z.of_nat (length (free rs)) /\ busyc s' = Z.of_nat (length (busy rs)) /\
    busyc s' = Z.of_nat (length (live es)) /\
    Permutation (map fst (live es)) (map (region_addr (data s) (BS c)) (busy rs)).
Proof. exact careful_counts. Qed.
Print Assumptions C60_tiling_partial.

Example C60_instance : forall dbg,
  exists s' es, run (conf 8 dbg) 50 (fresh 4096 8 false) pool_ops = Ok (s', es) /\
    regions_of s' [Reg 0 2 true; Reg 2 2 true; Reg 4 4 false] /\
    tiling 8 [Reg 0 2 true; Reg 2 2 true; Reg 4 4 false].
Proof.
  intros dbg. destruct dbg; do 2 eexists; (split; [vm_compute; reflexivity|]);
    (split; [vm_compute; repeat split; discriminate|]);
    (split; [cbn; lia|]); intros l r1 r2 t X; destruct l as [|x [|y [|z l]]]; cbn [app] in X;
    try (destruct l; discriminate X); try discriminate X; injection X as <- <- _; left; reflexivity.
Qed.

Theorem C60_lengths : forall n rs, tiling n rs -> fold_right Z.add 0 (map rlen rs) = n.
Proof. exact tiling_lengths. Qed.
Print Assumptions C60_lengths.

(** In debug builds, after every history, the walk by next_index() from every block goes up and
    ends, and block_size() is the number of blocks up to the next stop. *)
Theorem C60_walk_partial : forall c buffer size up s fuel ops s' es i,
  made c buffer size up s -> DBG c = true -> Forall sane_op ops -> run c fuel s ops = Ok (s', es) ->
  0 <= i < bc s ->
  (exists l, path (nxt s') i l /\ (forall x, In x l -> i <= x < bc s) /\ StronglySorted Z.lt l) /\
  exists n, 0 < n <= bc s - i /\ (nxt s' i = i + n \/ nxt s' i = 0 /\ i + n = bc s) /\
    next_index c s' i = Ok (nxt s' i) /\
    block_size c s' i = Ok n /\ block_size_in_bytes c s' i = Ok (n * BS c).
Proof. exact debug_walk. Qed.
Print Assumptions C60_walk_partial.

(** from block 1 of the state of C53_search_instance, which is in no region *)
Example C60_walk_instance :
  let c := conf 8 true in
  let s := after c (fresh 4096 8 false) [get 5; get 1; get 1; get 1; ODeallocate 4104; get 5; ODeallocate 4100] in
  path (nxt s) 1 [1; 3] /\ path (nxt s) 0 [0; 2; 3] /\ block_size c s 1 = Ok 2 /\ block_size_in_bytes c s 3 = Ok 20.
Proof. vm_compute. repeat split; discriminate. Qed.

(** Alignments up to BlockSize, no release: as long as no blocks are granted twice (release
    builds: or behind the buffer), everything stays right ([in_order]), whatever the sizes and
    the order of the calls. *)
Theorem C60_until_overlap_partial : forall c up s ops s' es, history c up s ops s' es ->
  Forall (plain_op (BS c)) ops ->
  (forall es1 es2, es = es1 ++ es2 -> well_granted c s (live es1)) ->
  in_order c s' es.
Proof. exact until_overlap. Qed.
Print Assumptions C60_until_overlap_partial.

(** Exactly: everything is right at every moment if and only if at no moment two live
    allocations have been granted the same blocks (release builds: or one a block behind the
    buffer). *)
Theorem C60_until_overlap_exact_partial : forall c buffer size up s fuel ops s' es, made c buffer size up s ->
  Forall (plain_op (BS c)) ops -> run c fuel s ops = Ok (s', es) -> polite [] es ->
  ((forall ops1 ops2 s1 es1, ops = ops1 ++ ops2 -> run c fuel s ops1 = Ok (s1, es1) -> in_order c s1 es1) <->
   (forall es1 es2, es = es1 ++ es2 -> well_granted c s (live es1))).
Proof. exact until_overlap_exact. Qed.
Print Assumptions C60_until_overlap_exact_partial.

(** a history whose last request makes the search go astray; nothing is found there *)
Definition kept_ops : list op := [get 9; get 1; get 9; ODeallocate 4108; get 29].
Definition kept_events : list event :=
  [EAllocate 9 1 4096 []; EAllocate 1 1 4108 []; EAllocate 9 1 4112 []; EDeallocate 4108 []; EAllocate 29 1 0 []].
Example C60_until_overlap_instance : forall dbg, exists s',
  history (conf 8 dbg) false (fresh 4096 8 false) kept_ops s' kept_events /\ Forall (plain_op 4) kept_ops /\
  (forall es1 es2, kept_events = es1 ++ es2 -> well_granted (conf 8 dbg) (fresh 4096 8 false) (live es1)) /\
  regions_of s' [Reg 0 3 true; Reg 3 1 false; Reg 4 3 true; Reg 7 1 false] /\
  passes_first_free 4096 4 [Reg 0 3 true; Reg 3 1 false; Reg 4 3 true; Reg 7 1 false] 29 1.
Proof.
  assert (P1 : pow2 1) by (exists 0; split; [lia|reflexivity]).
  intros dbg. eexists. split; [|split; [|split; [|split]]].
  - exists 4096, 32, 50%nat. split; [apply simple_made|]. split; [repeat constructor; cbn; auto; lia|].
    split; [destruct dbg; vm_compute; reflexivity|]. cbn. repeat split; auto.
  - repeat constructor; cbn; auto; lia.
  - intros es1 es2 E. split.
    2:{ intros _. unfold kept_events in E. destruct es1 as [|e1 [|e2 [|e3 [|e4 [|e5 [|e6 es1]]]]]]; cbn [app] in E;
        inversion E; subst; try discriminate; cbn; repeat constructor; unfold inside; cbn; lia. }
    change (BS (conf 8 dbg)) with 4. unfold kept_events in E.
    destruct es1 as [|e1 [|e2 [|e3 [|e4 [|e5 [|e6 es1]]]]]]; cbn [app] in E;
      inversion E; subst; try discriminate; cbn;
      repeat (apply pairwise_cons; split;
        [let Y := fresh in intros ? Y; cbn in Y;
         repeat (destruct Y as [<-|Y]; [unfold disjoint; cbn; lia|]); destruct Y|]);
      intros [|? [|]] ? ? ? ? X; discriminate X.
  - vm_compute. repeat split; intros X; discriminate X.
  - exists [Reg 0 3 true], (Reg 3 1 false), [Reg 4 3 true; Reg 7 1 false].
    split; [reflexivity|]. split; [intros x [<-|[]]; reflexivity|]. split; [reflexivity|].
    split; [|discriminate]. intros [q [Q1 [_ Q2]]]. unfold region_addr in *. cbn in *. lia.
Qed.

(** The bound on the alignments is needed: with a larger one the links can go wrong although
    nothing has been granted twice. *)
Theorem C60_large_alignment_refuted : forall dbg, exists c s ops s' es, DBG c = dbg /\
  history c false s ops s' es /\ ~ In ORelease ops /\
  (forall es1 es2, es = es1 ++ es2 -> well_granted c s (live es1)) /\ ~ in_order c s' es.
Proof. exact large_alignment_refuted. Qed.
Print Assumptions C60_large_alignment_refuted.

Theorem C60_tiling_refuted : forall dbg, exists c s ops s' es i j, DBG c = dbg /\
  history c false s ops s' es /\ path (nxt s') 0 [0; i; j] /\ prv s' j <> i /\ forall rs, ~ regions_of s' rs.
Proof. exact tiling_refuted. Qed.
Print Assumptions C60_tiling_refuted.

(** C61 *)
Theorem C61_release_partial : forall c buffer size up s fuel ops, made c buffer size up s ->
  (enough (bc s) <= fuel)%nat -> 2 * BS c <= 2 ^ 64 ->
  single_block_client (data s) (BS c) (bc s) up ops ->
  exists s' es s2, run c fuel s ops = Ok (s', es) /\ release c fuel s' = Ok s2 /\
    regions_of s2 [Reg 0 (bc s) false] /\ freec s2 = 1 /\ busyc s2 = 0 /\ destroy s2 = Ok tt.
Proof. exact single_block_release. Qed.
Print Assumptions C61_release_partial.

Example C61_instance : forall dbg, single_block_client 4096 4 8 false single_ops /\
  exists s' es s2, run (conf 8 dbg) (enough 8) (fresh 4096 8 false) single_ops = Ok (s', es) /\ busyc s' = 1 /\
    release (conf 8 dbg) (enough 8) s' = Ok s2 /\ busyc s2 = 0.
Proof.
  intros dbg. split; [exact single_example|]. destruct dbg; do 3 eexists;
    (split; [vm_compute; reflexivity|]); (split; [reflexivity|]); (split; [vm_compute; reflexivity|reflexivity]).
Qed.

Theorem C61_release_refuted : forall dbg, exists c s ops s' es s2, DBG c = dbg /\
  history c false s ops s' es /\ release c 50 s' = Ok s2 /\ busyc s2 = 1 /\ destroy s2 = Abort.
Proof. exact release_refuted. Qed.
Print Assumptions C61_release_refuted.

(** every consistent state whose first region is a single block *)
Theorem C61_one_block_partial : forall c s r0 rs fuel, cfg_ok c -> wf c s (r0 :: rs) -> rlen r0 = 1 ->
  (enough (bc s) <= fuel)%nat ->
  exists s', release c fuel s = Ok s' /\ regions_of s' [Reg 0 (bc s) false] /\ freec s' = 1 /\ busyc s' = 0 /\
    destroy s' = Ok tt.
Proof. exact one_block_release. Qed.
Print Assumptions C61_one_block_partial.

Example C61_one_block_instance : forall dbg,
  let s := after (conf 4 dbg) (fresh 4096 4 false) [get 1; get 1; get 1; ODeallocate 4100] in
  wf (conf 4 dbg) s (Reg 0 1 true :: [] ++ Reg 1 1 false :: [Reg 2 1 true; Reg 3 1 false]) /\ busyc s = 2 /\
  exists s', release (conf 4 dbg) (enough 4) s = Ok s' /\ busyc s' = 0.
Proof.
  intros dbg. split; [apply hang_wf|]. destruct dbg; (split; [vm_compute; reflexivity|]);
    eexists; (split; vm_compute; reflexivity).
Qed.

(** every history of a client that takes block 0 first and keeps it, in debug builds *)
Theorem C61_pinned_partial : forall c buffer size up s fuel sz align ans ops s' es, made c buffer size up s ->
  DBG c = true -> 0 < sz < BS c -> pow2 align -> align <= BS c -> sz + align <= 2 ^ 64 ->
  pinned_client (data s) (BS c) (bc s) up ops ->
  run c fuel s (OAllocate sz align ans :: ops) = Ok (s', es) ->
  exists s2, release c (enough (bc s)) s' = Ok s2 /\ regions_of s2 [Reg 0 (bc s) false] /\ freec s2 = 1 /\
    busyc s2 = 0 /\ destroy s2 = Ok tt.
Proof. exact pinned_release. Qed.
Print Assumptions C61_pinned_partial.

Example C61_pinned_instance : pinned_client 4096 4 8 false pinned_ops /\
  exists s' es s2, run (conf 8 true) 50 (fresh 4096 8 false) (get 2 :: pinned_ops) = Ok (s', es) /\ busyc s' = 3 /\
    release (conf 8 true) (enough 8) s' = Ok s2 /\ busyc s2 = 0.
Proof.
  split; [exact pinned_example|]. do 3 eexists. split; [vm_compute; reflexivity|]. split; [reflexivity|].
  split; [vm_compute; reflexivity|reflexivity].
Qed.

(** every consistent state whose first region is longer and whose block 1 has no
    next_index(): only the first allocation is released *)
Theorem C61_first_only_refuted : forall c s r0 rs fuel, cfg_ok c -> wf c s (r0 :: rs) -> 2 <= rlen r0 ->
  nxt s 1 = 0 -> (2 < fuel)%nat ->
  exists s' rs', release c fuel s = Ok s' /\ regions_of s' rs' /\ busy rs' = tl (busy (r0 :: rs)) /\
    busyc s' = Z.of_nat (length (tl (busy (r0 :: rs)))).
Proof. exact first_only_release. Qed.
Print Assumptions C61_first_only_refuted.

(** every client whose requests all need [k] >= 2 blocks: one allocation is released *)
Theorem C61_pool_refuted : forall c buffer size up s k fuel ops, made c buffer size up s -> 2 <= k ->
  k * BS c + BS c <= 2 ^ 64 -> (Z.to_nat (bc s) < fuel)%nat -> (2 < fuel)%nat ->
  pool_client (data s) (BS c) (bc s) k up ops ->
  exists s' es s2, run c fuel s ops = Ok (s', es) /\ busyc s' = Z.of_nat (length (live es)) /\
    release c fuel s' = Ok s2 /\ busyc s2 = Z.of_nat (length (tl (live es))).
Proof. exact pool_release. Qed.
Print Assumptions C61_pool_refuted.

Example C61_pool_instance : forall dbg, pool_client 4096 4 8 2 false pool_ops /\
  let s := after (conf 8 dbg) (fresh 4096 8 false) pool_ops in
  wf (conf 8 dbg) s [Reg 0 2 true; Reg 2 2 true; Reg 4 4 false] /\ nxt s 1 = 0 /\ busyc s = 2 /\
  exists s2, release (conf 8 dbg) 50 s = Ok s2 /\ busyc s2 = 1.
Proof.
  intros dbg. split; [exact pool_example|]. split; [apply pool_wf|].
  destruct dbg; (split; [vm_compute; reflexivity|]); (split; [vm_compute; reflexivity|]);
    eexists; (split; vm_compute; reflexivity).
Qed.

(** release() of a resource without blocks aborts in debug builds *)
Theorem C61_no_block_refuted : forall c s fuel, DBG c = true -> bc s = 0 -> (0 < fuel)%nat ->
  release c fuel s = Abort.
Proof. exact empty_release. Qed.
Print Assumptions C61_no_block_refuted.

(** Exactly, in debug builds after every history: release() gives back the blocks [js] that
    [sweeps] names, in that order and as deallocate would, and no others; it ends, and the
    destructor is content afterwards if and only if they were all that was allocated. *)
Theorem C61_release_exact_partial : forall c buffer size up s fuel ops s' es, made c buffer size up s -> DBG c = true ->
  Forall sane_op ops -> Z.of_nat (length ops) < 2 ^ 64 -> run c fuel s ops = Ok (s', es) ->
  exists js r, sweeps c s' 0 js r /\ (forall js' r', sweeps c s' 0 js' r' -> js' = js /\ r' = r) /\
    (forall fuel', (enough (bc s) <= fuel')%nat -> release c fuel' s' = r) /\
    NoDup js /\ (forall j, In j js -> 0 <= j < bc s /\ inuse s' j = true) /\
    (r = Abort \/ exists s2, r = Ok s2 /\ same_place s s2 /\ busyc s2 = busyc s' - Z.of_nat (length js) /\
       (forall i, inuse s2 i = true <-> inuse s' i = true /\ ~ In i js) /\
       (destroy s2 = Ok tt <-> busyc s' = Z.of_nat (length js))).
Proof. exact release_exact. Qed.
Print Assumptions C61_release_exact_partial.

(** four live blocks, of which three are given back *)
Example C61_release_exact_instance :
  let c := conf 8 true in
  let ops := [get 1; get 5; get 1; ODeallocate 4096; ODeallocate 4100; get 5; get 1; get 1] in
  let s := after c (fresh 4096 8 false) ops in
  history c false (fresh 4096 8 false) ops s (seen c (fresh 4096 8 false) ops) /\
  map fst (live (seen c (fresh 4096 8 false) ops)) = [4112; 4104; 4096; 4108] /\
  exists s2, sweeps c s 0 [0; 3; 4] (Ok s2) /\ release c (enough 8) s = Ok s2 /\ busyc s2 = 1 /\
    inuse s2 2 = true /\ destroy s2 = Abort.
Proof. exact release_instance. Qed.

(** five, all of which are *)
Example C61_release_all_instance :
  let c := conf 8 true in
  let ops := [get 1; get 1; get 5; get 1; ODeallocate 4096; ODeallocate 4100; get 5; get 1; get 1] in
  let s := after c (fresh 4096 8 false) ops in
  history c false (fresh 4096 8 false) ops s (seen c (fresh 4096 8 false) ops) /\ busyc s = 5 /\
  exists s2, sweeps c s 0 [0; 2; 4; 5; 6] (Ok s2) /\ release c (enough 8) s = Ok s2 /\ destroy s2 = Ok tt.
Proof. exact release_all_instance. Qed.

(** and a history after which release() aborts *)
Example C61_release_abort_instance :
  let c := conf 8 true in
  let ops := [get 5; get 21; ODeallocate 4096; get 25; get 5] in
  let s := after c (fresh 4096 8 false) ops in
  history c false (fresh 4096 8 false) ops s (seen c (fresh 4096 8 false) ops) /\
  sweeps c s 0 [0] Abort /\ release c (enough 8) s = Abort.
Proof. exact release_abort_instance. Qed.

(** C62: every history without release *)
Theorem C62_destructor_partial : forall c fuel buffer size up ops s s' es, cfg_ok c -> buffer_ok buffer size ->
  buffer + BS c + MB c * BS c <= 2 ^ 64 ->
  Forall (counted_op (buffer + BS c + MB c * BS c)) ops -> Z.of_nat (length ops) < 2 ^ 64 ->
  construct c buffer size up = Ok s -> run c fuel s ops = Ok (s', es) -> polite [] es ->
  busyc s' = Z.of_nat (length (live es)) /\
  destroy s' = (match live es with [] => Ok tt | _ => Abort end).
Proof. exact destructor. Qed.
Print Assumptions C62_destructor_partial.

Theorem C62_destructor_refuted : forall dbg, exists c s ops s' es, DBG c = dbg /\
  history c false s (ops ++ [ORelease]) s' es /\ live es = [] /\ destroy s' = Abort.
Proof. exact destructor_release_refuted. Qed.
Print Assumptions C62_destructor_refuted.

(** every debug history that comes to an end, releases and misused pointers included:
    what is left is what was served, less what was returned and what the calls of
    release() gave back *)
Theorem C62_exact_partial : forall c buffer size up s fuel ops s' es, made c buffer size up s -> DBG c = true ->
  Forall (countable (buffer + BS c + MB c * BS c)) ops -> Z.of_nat (length ops) < 2 ^ 64 ->
  run c fuel s ops = Ok (s', es) ->
  exists g, released c fuel s ops g /\ (forall g', released c fuel s ops g' -> g' = g) /\
    let left := count is_served es - count is_returned es - Z.of_nat (length (concat g)) in
    busyc s' = left /\ destroy s' = (if left =? 0 then Ok tt else Abort).
Proof. exact destructor_exact. Qed.
Print Assumptions C62_exact_partial.

(** every history of every build that comes to an end; what a call of release() gave back
    is what in_use() shows for it *)
Theorem C62_every_partial : forall c buffer size up s fuel ops s' es, cfg_ok c -> buffer_ok buffer size ->
  construct c buffer size up = Ok s ->
  Forall (countable (buffer + BS c + MB c * BS c)) ops -> Z.of_nat (length ops) < 2 ^ 64 ->
  run c fuel s ops = Ok (s', es) ->
  exists g, freed c fuel s ops g /\
    (forall g', freed c fuel s ops g' -> length (concat g') = length (concat g)) /\
    let left := count is_served es - count is_returned es - Z.of_nat (length (concat g)) in
    0 <= left /\ busyc s' = left /\ destroy s' = (if left =? 0 then Ok tt else Abort).
Proof. exact destructor_any. Qed.
Print Assumptions C62_every_partial.

(** a release build and a request that fills the buffer, where the debug build aborts *)
Example C62_every_instance :
  let c := conf 16 false in
  let ops := [get 1; get 28; get 1; ORelease; get 1] in
  let s := fresh 4096 8 false in
  construct c 4096 32 false = Ok s /\ Forall (countable (4096 + BS c + MB c * BS c)) ops /\
  run c (enough 8) s ops = Ok (after c s ops, seen c s ops) /\
  run (conf 16 true) (enough 8) s ops = Abort /\
  count is_served (seen c s ops) = 4 /\ count is_returned (seen c s ops) = 0 /\
  freed c (enough 8) s ops [[0; 1; 9]] /\ busyc (after c s ops) = 1.
Proof. exact balance_any_instance. Qed.

Example C62_exact_instance :
  let c := conf 8 true in
  let before := [get 1; get 5; get 1; ODeallocate 4096; ODeallocate 4100; get 5; get 1; get 1] in
  let ops := before ++ [ORelease; get 1] in
  let s := fresh 4096 8 false in
  made c 4096 32 false s /\ Forall (countable (4096 + BS c + MB c * BS c)) ops /\
  run c (enough 8) s ops = Ok (after c s ops, seen c s ops) /\
  count is_served (seen c s ops) = 7 /\ count is_returned (seen c s ops) = 2 /\
  released c (enough 8) s ops [[0; 3; 4]] /\ busyc (after c s ops) = 2 /\ destroy (after c s ops) = Abort.
Proof. exact balance_instance. Qed.

Example C62_instance : forall dbg,
  let ops := [get 5; get 1; ODeallocate 4096; get 9] in
  Forall (counted_op (4096 + 4 + 4 * 4)) ops /\
  history (conf 4 dbg) false (fresh 4096 4 false) ops
    (after (conf 4 dbg) (fresh 4096 4 false) ops) (seen (conf 4 dbg) (fresh 4096 4 false) ops).
Proof.
  intros dbg. split; [|apply overlap_history].
  repeat constructor; try lia; try exact pow2_1.
Qed.

(** C63 *)
Theorem C63_pointers_returned_partial : forall c buffer size up s fuel ops, made c buffer size up s ->
  (Z.to_nat (bc s) < fuel)%nat -> careful_client (data s) (BS c) (bc s) up ops ->
  exists s' es, run c fuel s ops = Ok (s', es) /\
    (forall p, In p (map fst (live es)) -> exists s2, deallocate_impl c s' p = Ok (s2, [])) /\
    (forall p, up = true -> 0 < p < 2 ^ 64 -> (BS c | p) -> ~ data s <= p < data s + bc s * BS c ->
       deallocate_impl c s' p = Ok (s', [UpDeallocate p])).
Proof. exact live_pointer_returned. Qed.
Print Assumptions C63_pointers_returned_partial.

(** a live pointer of the client of C50_pool_instance; a foreign pointer *)
Example C63_instance : forall dbg,
  (exists s', deallocate_impl (conf 8 dbg) (after (conf 8 dbg) (fresh 4096 8 false) pool_ops) 4104 = Ok (s', [])) /\
  deallocate_impl (conf 8 dbg) (fresh 4096 8 true) 8192 = Ok (fresh 4096 8 true, [UpDeallocate 8192]).
Proof.
  intros dbg. destruct dbg; (split; [eexists; vm_compute; reflexivity|vm_compute; reflexivity]).
Qed.

(** a pointer from the upstream that is aligned as asked for, but not to BlockSize *)
Theorem C63_pointers_returned_refuted : exists c buffer size s s2 p, DBG c = false /\
  made c buffer size true s /\
  (8 | p) /\ allocate_impl c 50 s 100 8 (fun _ _ => p) = Ok (s2, p, [UpAllocate 100 8]) /\
  deallocate_impl c s2 p = Abort.
Proof. exact upstream_pointer_refuted. Qed.
Print Assumptions C63_pointers_returned_refuted.

Theorem C63_debug_refuted : exists c buffer size s p, DBG c = true /\ made c buffer size true s /\
  (8 | p) /\ allocate_impl c 50 s 100 8 (fun _ _ => p) = Abort.
Proof. exact upstream_pointer_debug_refuted. Qed.
Print Assumptions C63_debug_refuted.

(** a client that takes block 0 first and keeps it, in debug builds *)
Theorem C63_pinned_partial : forall c buffer size up s fuel sz align ans ops s' es, made c buffer size up s ->
  DBG c = true -> 0 < sz < BS c -> pow2 align -> align <= BS c -> sz + align <= 2 ^ 64 ->
  pinned_client (data s) (BS c) (bc s) up ops ->
  run c fuel s (OAllocate sz align ans :: ops) = Ok (s', es) ->
  forall p, In p (map fst (live es)) -> exists s2, deallocate_impl c s' p = Ok (s2, []).
Proof. exact pinned_returned. Qed.
Print Assumptions C63_pinned_partial.

Example C63_pinned_instance :
  let s := after (conf 8 true) (fresh 4096 8 false) (get 2 :: pinned_ops) in
  exists s1 s2 s3, deallocate_impl (conf 8 true) s 4096 = Ok (s1, []) /\
    deallocate_impl (conf 8 true) s1 4108 = Ok (s2, []) /\ deallocate_impl (conf 8 true) s2 4100 = Ok (s3, []) /\
    busyc s3 = 0.
Proof.
  do 3 eexists. split; [vm_compute; reflexivity|]. split; [vm_compute; reflexivity|].
  split; [vm_compute; reflexivity|reflexivity].
Qed.

(** pointers outside the buffer, after every history: they are passed on exactly when they
    are multiples of BlockSize and there is an upstream *)
Theorem C63_foreign_exact_partial : forall c up s ops s' es p, history c up s ops s' es ->
  0 < p < 2 ^ 64 -> ~ data s <= p < data s + bc s * BS c ->
  deallocate_impl c s' p = (if (p mod BS c =? 0) && up then Ok (s', [UpDeallocate p]) else Abort).
Proof. exact foreign_pointer. Qed.
Print Assumptions C63_foreign_exact_partial.

(** every state: if a request is passed on, the answer of the upstream is handed out, except
    that debug builds abort unless it is a multiple of BlockSize *)
Theorem C63_answer_exact_partial : forall c fuel s size align ans ans' s' p, cfg_ok c -> size <> 0 ->
  allocate_impl c fuel s size align ans = Ok (s', p, [UpAllocate size align]) ->
  0 <= ans' size align < 2 ^ 64 ->
  allocate_impl c fuel s size align ans' =
    if negb (DBG c) || (ans' size align mod BS c =? 0) then Ok (s', ans' size align, [UpAllocate size align]) else Abort.
Proof. exact upstream_answer. Qed.
Print Assumptions C63_answer_exact_partial.

(** 8192 and 8193 outside the buffer *)
Example C63_exact_instance : forall dbg,
  history (conf 8 dbg) true (fresh 4096 8 true) [get 2; get 5] (after (conf 8 dbg) (fresh 4096 8 true) [get 2; get 5])
    (seen (conf 8 dbg) (fresh 4096 8 true) [get 2; get 5]) /\
  deallocate_impl (conf 8 dbg) (after (conf 8 dbg) (fresh 4096 8 true) [get 2; get 5]) 8193 = Abort /\
  allocate_impl (conf 8 dbg) 50 (fresh 4096 8 true) 100 1 (fun _ _ => 8192) =
    Ok (fresh 4096 8 true, 8192, [UpAllocate 100 1]) /\
  allocate_impl (conf 8 dbg) 50 (fresh 4096 8 true) 100 1 (fun _ _ => 8193) =
    (if dbg then Abort else Ok (fresh 4096 8 true, 8193, [UpAllocate 100 1])).
Proof.
  intros dbg. split.
  - destruct dbg; hist made_8_up.
  - destruct dbg; (split; [vm_compute; reflexivity|split; vm_compute; reflexivity]).
Qed.

(** Exactly, in debug builds after every history: giving back block [i] returns if and only if it
    is in use, free_count() is not 2^64-1, and free_count() is not 0 where both neighbours shown
    by prev_index() and next_index() are free; otherwise it aborts. *)
Theorem C63_deallocate_exact_partial : forall c buffer size up s fuel ops s' es i, made c buffer size up s -> DBG c = true ->
  Forall sane_op ops -> Z.of_nat (length ops) < 2 ^ 64 -> run c fuel s ops = Ok (s', es) -> 0 <= i < bc s ->
  let before := gap_before (prv s') (inuse s') i in
  let after := gap_after (nxt s') (inuse s') i in
  let first := joined (prv s') (inuse s') i in
  (inuse s' i = true -> freec s' <> 2 ^ 64 - 1 -> (freec s' = 0 -> before && after = false) ->
   exists s2, deallocate_impl c s' (data s + i * BS c) = Ok (s2, []) /\ same_place s s2 /\
     (forall j, inuse s2 j = if j =? i then false else inuse s' j) /\ busyc s2 = busyc s' - 1 /\
     freec s2 = freec s' + 1 - (if before then 1 else 0) - (if after then 1 else 0) /\
     (forall j, nxt s2 j = if j =? first then (if after then nxt s' (nxt s' i) else nxt s' i) else nxt s' j) /\
     (forall j, j <> 0 -> prv s2 j = if after && (j =? nxt s' (nxt s' i)) then first
                                     else if before && (j =? nxt s' i) then prv s' i else prv s' j)) /\
  (inuse s' i = false \/ freec s' = 2 ^ 64 - 1 \/ freec s' = 0 /\ before && after = true ->
   deallocate_impl c s' (data s + i * BS c) = Abort).
Proof. exact deallocate_exact. Qed.
Print Assumptions C63_deallocate_exact_partial.

(** live pointers, where alignments are at most BlockSize *)
Theorem C63_live_exact_partial : forall c up s ops s' es p, history c up s ops s' es -> DBG c = true ->
  Forall (small_alignment (BS c)) ops -> Z.of_nat (length ops) < 2 ^ 64 -> In p (map fst (live es)) ->
  exists i, p = data s + i * BS c /\
  ((freec s' <> 2 ^ 64 - 1 /\ (freec s' = 0 -> gap_before (prv s') (inuse s') i && gap_after (nxt s') (inuse s') i = false) ->
    exists s2, deallocate_impl c s' p = Ok (s2, [])) /\
   (freec s' = 2 ^ 64 - 1 \/ freec s' = 0 /\ gap_before (prv s') (inuse s') i && gap_after (nxt s') (inuse s') i = true ->
    deallocate_impl c s' p = Abort)).
Proof. exact live_back. Qed.
Print Assumptions C63_live_exact_partial.

(** two live pointers, one of which can be given back *)
Example C63_given_back_instance :
  let c := conf 8 true in
  let ops := [get 1; get 13; ODeallocate 4096; ODeallocate 4100; get 9; get 17; ODeallocate 4096; get 13] in
  let s := after c (fresh 4096 8 false) ops in
  history c false (fresh 4096 8 false) ops s (seen c (fresh 4096 8 false) ops) /\
  Forall (small_alignment (BS c)) ops /\
  map fst (live (seen c (fresh 4096 8 false) ops)) = [4100; 4108] /\ freec s = 0 /\
  gap_before (prv s) (inuse s) 1 && gap_after (nxt s) (inuse s) 1 = true /\
  deallocate_impl c s 4100 = Abort /\
  gap_before (prv s) (inuse s) 3 && gap_after (nxt s) (inuse s) 3 = false /\
  exists s2, deallocate_impl c s 4108 = Ok (s2, []) /\ freec s2 = 0 /\ busyc s2 = 1.
Proof. exact free_instance. Qed.

(** five calls after which free_count() is 2^64-1 and none of the three live pointers can be given back *)
Theorem C63_live_refuted : exists c s ops s' es, DBG c = true /\ history c false s ops s' es /\
  Forall (small_alignment (BS c)) ops /\ live es = [(4096, 5); (4100, 25); (4104, 21)] /\ freec s' = 2 ^ 64 - 1 /\
  forall p, In p (map fst (live es)) -> deallocate_impl c s' p = Abort.
Proof. exact live_stuck. Qed.
Print Assumptions C63_live_refuted.

(** as long as no blocks are granted twice (see C60_until_overlap_partial) *)
Theorem C63_until_overlap_partial : forall c up s ops s' es, history c up s ops s' es ->
  Forall (plain_op (BS c)) ops ->
  (forall es1 es2, es = es1 ++ es2 -> well_granted c s (live es1)) ->
  forall p, In p (map fst (live es)) -> exists s2, deallocate_impl c s' p = Ok (s2, []).
Proof. exact until_overlap_returned. Qed.
Print Assumptions C63_until_overlap_partial.

(** C64: [spec_run] is the ideal first-fit allocator *)
Theorem C64_single_block : forall c buffer size up s fuel ops, made c buffer size up s ->
  (enough (bc s) <= fuel)%nat -> 2 * BS c <= 2 ^ 64 ->
  single_block_client (data s) (BS c) (bc s) up ops ->
  exists s' rs es, run c fuel s ops = Ok (s', es) /\
    spec_run (data s) (BS c) (bc s) up [Reg 0 (bc s) false] ops rs es /\
    regions_of s' rs /\ tiling (bc s) rs /\ (forall r, In r (busy rs) -> rlen r = 1) /\
    pairwise_disjoint (live es) /\ (forall a, In a (live es) -> in_bounds (data s) (data s + bc s * BS c) a) /\
    freec s' = Z.of_nat (length (free rs)) /\ busyc s' = Z.of_nat (length (live es)) /\
    destroy s' = (match live es with [] => Ok tt | _ => Abort end).
Proof. exact single_block_contract. Qed.
Print Assumptions C64_single_block.

Example C64_instance : single_block_client 4096 4 8 false single_ops /\
  exists s', run (conf 8 true) (enough 8) (fresh 4096 8 false) single_ops =
    Ok (s', [EAllocate 1 1 4096 []; EAllocate 3 1 4100 []; EDeallocate 4096 [];
             EAllocate 2 1 4096 []; ERelease; EAllocate 1 1 4096 []]).
Proof. split; [exact single_example|]. eexists. vm_compute. reflexivity. Qed.

(** C65: debug builds, after every history *)
Theorem C65_oversized_partial : forall c buffer size up s fuel ops s' es,
  cfg_ok c -> DBG c = true -> buffer_ok buffer size ->
  construct c buffer size up = Ok s -> Forall sane_op ops -> run c fuel s ops = Ok (s', es) ->
  forall sz align ans s2 p calls, bc s * BS c < sz < 2 ^ 64 -> pow2 align -> align < 2 ^ 64 ->
  allocate_impl c fuel s' sz align ans = Ok (s2, p, calls) ->
  s2 = s' /\ ((has_up s = true /\ calls = [UpAllocate sz align] /\ p = ans sz align) \/
              (has_up s = false /\ calls = [] /\ p = 0)).
Proof. exact oversized. Qed.
Print Assumptions C65_oversized_partial.

(** sizes near 2^64 are accepted by the release build *)
Theorem C65_oversized_refuted : exists c buffer size s s2 p, DBG c = false /\ made c buffer size false s /\
  allocate_impl c 50 s (2 ^ 64 - 48) 64 (fun _ _ => 0) = Ok (s2, p, []) /\ p <> 0 /\
  bc s * BS c < 2 ^ 64 - 48 /\ busyc s2 = 1.
Proof. exact oversized_refuted. Qed.
Print Assumptions C65_oversized_refuted.

(** release builds, after every history that the debug build passes, below the
    wraparound *)
Theorem C65_release_partial : forall m b buffer size up s fuel ops s' es,
  cfg_ok (Cfg m b true) -> buffer_ok buffer size ->
  construct (Cfg m b true) buffer size up = Ok s -> Forall sane_op ops ->
  run (Cfg m b true) fuel s ops = Ok (s', es) ->
  run (Cfg m b false) fuel s ops = Ok (s', es) /\
  forall sz align ans s2 p calls, bc s * b < sz -> pow2 align -> sz + align <= 2 ^ 64 ->
  allocate_impl (Cfg m b false) fuel s' sz align ans = Ok (s2, p, calls) ->
  s2 = s' /\ ((has_up s = true /\ calls = [UpAllocate sz align] /\ p = ans sz align) \/
              (has_up s = false /\ calls = [] /\ p = 0)).
Proof. exact oversized_release. Qed.
Print Assumptions C65_release_partial.

(** after a history that the debug build does not pass (the buffer is filled to the
    last byte), 33 bytes are served behind a buffer of 32 bytes *)
Theorem C65_after_fill_refuted : exists c buffer size s s1 s2 e, DBG c = false /\ made c buffer size false s /\
  run c 50 s [get 32] = Ok (s1, e) /\ allocate_impl c 50 s1 33 1 (fun _ _ => 0) = Ok (s2, 4132, []) /\
  bc s * BS c = 32 /\ buffer = 4096.
Proof. exact oversized_fill_refuted. Qed.
Print Assumptions C65_after_fill_refuted.

Example C65_instance : allocate_impl (conf 8 true) 50 (fresh 4096 8 false) 33 1 (fun _ _ => 0) =
  Ok (fresh 4096 8 false, 0, []).
Proof. vm_compute. reflexivity. Qed.
