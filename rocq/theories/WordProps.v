(** Properties C128, C129: platforms with 32-bit addresses and sizes. *)

Require Import ZArith List Bool Lia.
Require Import Verif.Outcome Verif.TypeListModel Verif.BitsModel Verif.BitsSpec Verif.SimpleSpec Verif.MonoSpec Verif.MonoModel
  Verif.MonoProofs Verif.WordSpec Verif.WordModel Verif.WordProofs.
Import ListNotations.
Open Scope Z_scope.

(** C128: for addresses and sizes of any width *)
Theorem C128_power : forall w, 0 < w -> forall v, 0 <= v < 2 ^ w ->
  (w_is_power_of_2 w v = true <-> exists k, 0 <= k < w /\ v = 2 ^ k).
Proof. exact w_is_power_of_2_spec. Qed.
Print Assumptions C128_power.

Theorem C128_next_multiple : forall w, 0 < w -> forall dbg m v, pow2 m -> m < 2 ^ w -> 0 <= v < 2 ^ w ->
  exists r, least_multiple m v r /\
    (r < 2 ^ w -> w_next_multiple_of w dbg m v = Ok r) /\
    (2 ^ w <= r -> w_next_multiple_of w dbg m v = Ok 0).
Proof. exact w_next_multiple_of_correct. Qed.
Print Assumptions C128_next_multiple.

Theorem C128_skip : forall w, 0 < w -> forall dbg p a, pow2 a -> a < 2 ^ w -> 0 <= p < 2 ^ w ->
  exists k, w_skip_to_align w dbg p a = Ok k /\ least_skip_in w a p k /\ k < a /\ (k = 0 <-> (a | p)).
Proof. exact w_skip_to_align_correct. Qed.
Print Assumptions C128_skip.

Theorem C128_aligned : forall w, 0 < w -> forall dbg p a, pow2 a -> a < 2 ^ w -> 0 <= p < 2 ^ w ->
  exists b, w_is_aligned w dbg p a = Ok b /\ (b = true <-> (a | p)).
Proof. exact w_is_aligned_correct. Qed.
Print Assumptions C128_aligned.

Theorem C128_misuse : forall w, 0 < w -> forall m v, 0 <= m < 2 ^ w -> ~ pow2 m ->
  w_next_multiple_of w true m v = Abort /\ w_skip_to_align w true v m = Abort /\
  w_is_aligned w true v m = Abort.
Proof. exact w_not_power_asserts. Qed.
Print Assumptions C128_misuse.

(** the strongest alignment of an address; [t] is std::uintptr_t, [supported] the types
    the compiler has an intrinsic for *)
Theorem C128_get_alignment : forall w dbg sz supported t ptr, platform w -> (length supported < sz)%nat ->
  8 * Z.of_nat (sizeof t) = w -> (exists u, In u supported /\ (sizeof t <= sizeof u)%nat) ->
  0 < ptr < 2 ^ w ->
  exists a, w_get_alignment w dbg sz supported t ptr = Some (Ok a) /\
    pow2 a /\ (a | ptr) /\ forall b, pow2 b -> (b | ptr) -> b <= a.
Proof. exact w_get_alignment_correct. Qed.
Print Assumptions C128_get_alignment.

(** with 32 bits max_alignment_inside_block is right whenever there is an answer; with 64
    bits it is not (C06) *)
Theorem C128_block : forall dbg a n m, pow2 a -> 0 < n -> best_alignment_in 32 a n m ->
  w_max_alignment_inside_block 32 dbg a n = Ok m.
Proof. exact max_align_32_all. Qed.
Print Assumptions C128_block.

Theorem C128_block_answer : forall dbg a n, pow2 a -> 0 < n -> a + n <= 2 ^ 32 ->
  exists m, w_max_alignment_inside_block 32 dbg a n = Ok m /\ best_alignment_in 32 a n m.
Proof. exact max_align_32. Qed.
Print Assumptions C128_block_answer.

(** the properties about 64 bits are about the same functions *)
Theorem C128_same : forall dbg,
  (forall v, w_is_power_of_2 64 v = is_power_of_2 v) /\
  (forall m v, w_next_multiple_of 64 dbg m v = next_multiple_of dbg m v) /\
  (forall p a, w_skip_to_align 64 dbg p a = skip_to_align dbg p a) /\
  (forall p a, w_is_aligned 64 dbg p a = is_aligned dbg p a) /\
  (forall a n, w_max_alignment_inside_block 64 dbg a n = max_alignment_inside_block dbg a n) /\
  (forall sz supported t p, w_get_alignment 64 dbg sz supported t p = get_alignment dbg sz supported t p) /\
  (forall s ops, w_mono_run 64 dbg s ops = mono_run dbg s ops).
Proof. exact same_64. Qed.
Print Assumptions C128_same.

Example C128_instance :
  w_is_power_of_2 32 (2 ^ 31) = true /\ w_next_multiple_of 32 true 16 (2 ^ 32 - 17) = Ok (2 ^ 32 - 16) /\
  w_next_multiple_of 32 true 16 (2 ^ 32 - 1) = Ok 0 /\ w_skip_to_align 32 true (2 ^ 32 - 3) 16 = Ok 3 /\
  w_is_aligned 32 true (2 ^ 31) (2 ^ 31) = Ok true /\ w_is_aligned 32 true (2 ^ 31 + 4) 8 = Ok false /\
  w_next_multiple_of 32 true 24 17 = Abort /\
  w_max_alignment_inside_block 32 true 16 (2 ^ 31) = Ok (2 ^ 31) /\ pow2 16 /\ 16 + 2 ^ 31 <= 2 ^ 32 /\
  w_get_alignment 32 true 100 [TAtom 1 4; TAtom 2 8] (TAtom 9 4) (2 ^ 31) = Some (Ok (2 ^ 31)) /\ platform 32.
Proof. repeat split; try lia; [exists 4; split; [lia|reflexivity]|left; reflexivity]. Qed.

(** C129: a monotonic buffer, for requests that do not lead out of the address space *)
Theorem C129_partial : forall w, 0 < w -> forall dbg buffer size up ops, buffer_in w buffer size ->
  Forall (fair_in w (buffer + size)) ops ->
  exists s es, w_mono_run w dbg (mono_construct buffer size up) ops = Ok (s, es) /\
    ascending (handed es) /\ pairwise_disjoint (handed es) /\
    (forall a, In a (handed es) -> in_bounds buffer (buffer + size) a) /\
    (forall sz al p, In (EAllocate sz al p []) es -> p <> 0 -> (al | p)).
Proof. exact w_mono_contract. Qed.
Print Assumptions C129_partial.

(** a request for all but 4 bytes of the address space is served by a buffer of 32 bytes,
    and later memory overlaps *)
Theorem C129_refuted : forall w dbg, platform w -> exists s es,
  w_mono_run w dbg (mono_construct 4096 32 false) [ask 8; ask (2 ^ w - 4); ask 4] = Ok (s, es) /\
  Forall (legal_in w) [ask 8; ask (2 ^ w - 4); ask 4] /\ ~ pairwise_disjoint (handed es).
Proof. exact w_mono_overlap. Qed.
Print Assumptions C129_refuted.

(** requests of every size, if every alignment leaves room for an aligned address
    behind the buffer: right exactly when nothing handed out since the last release runs past the last address *)
Theorem C129_exact_partial : forall w, 0 < w -> forall dbg buffer size up ops, buffer_in w buffer size ->
  Forall (roomy_in w (buffer + size)) ops ->
  exists s es, w_mono_run w dbg (mono_construct buffer size up) ops = Ok (s, es) /\
    (forall sz al p, In (EAllocate sz al p []) es -> p <> 0 -> (al | p)) /\
    (ascending (handed es) /\ pairwise_disjoint (handed es) /\
     (forall a, In a (handed es) -> in_bounds buffer (buffer + size) a) <->
     forall a, In a (handed es) -> fst a + snd a < 2 ^ w).
Proof. exact w_mono_contract_exact. Qed.
Print Assumptions C129_exact_partial.

(** a request is served exactly when it fits behind what was handed out *)
Theorem C129_served_partial : forall w, 0 < w -> forall dbg buffer size up ops s es sz align ans, buffer_in w buffer size ->
  Forall (fair_in w (buffer + size)) ops -> w_mono_run w dbg (mono_construct buffer size up) ops = Ok (s, es) ->
  0 < sz -> pow2 align -> buffer + size + align + sz <= 2 ^ w ->
  exists s' p calls, w_mono_allocate w dbg s sz align ans = Ok (s', p, calls) /\
    (calls = [] /\ p <> 0 <-> fits_behind buffer size (handed es) sz align) /\
    (calls = [] -> p <> 0 -> least_multiple align (top buffer (handed es)) p).
Proof. exact w_mono_served. Qed.
Print Assumptions C129_served_partial.

(** the exact rule: besides those that fit, the buffer serves the requests whose end wraps
    around to an address up to the end of the buffer; others go to the upstream *)
Theorem C129_upstream_partial : forall w, 0 < w -> forall dbg buffer size up ops s es sz align ans, buffer_in w buffer size ->
  Forall (roomy_in w (buffer + size)) ops ->
  w_mono_run w dbg (mono_construct buffer size up) ops = Ok (s, es) ->
  (forall a, In a (handed es) -> fst a + snd a < 2 ^ w) ->
  0 < sz < 2 ^ w -> pow2 align -> align < 2 ^ w ->
  exists s' p calls, w_mono_allocate w dbg s sz align ans = Ok (s', p, calls) /\
    (calls = [] \/ calls = [UpAllocate sz align] /\ up = true /\ p = ans sz align) /\
    (calls = [UpAllocate sz align] \/ up = false /\ p = 0 <->
       ~ exists q, wrapped_fits_in w buffer size (handed es) sz align q) /\
    (buffer + size + align <= 2 ^ w -> calls <> [] \/ p = 0 -> s' = s).
Proof. exact w_mono_upstream_exact. Qed.
Print Assumptions C129_upstream_partial.

(** release starts over *)
Theorem C129_rewind : forall w, 0 < w -> forall dbg buffer size up before s1 es1 later,
  w_mono_run w dbg (mono_construct buffer size up) before = Ok (s1, es1) ->
  w_mono_run w dbg (mono_construct buffer size up) (before ++ ORelease :: later) =
  bind (w_mono_run w dbg (mono_construct buffer size up) later)
    (fun r => let (s2, es2) := r in Ok (s2, es1 ++ ERelease :: es2)).
Proof. exact w_mono_rewind. Qed.
Print Assumptions C129_rewind.

(** deallocate changes nothing *)
Theorem C129_deallocate : forall w, 0 < w -> forall dbg ops s s' es, w_mono_run w dbg s ops = Ok (s', es) ->
  w_mono_run w dbg s (filter (fun o => negb (is_dealloc_op o)) ops) =
    Ok (s', filter (fun e => negb (is_dealloc_event e)) es).
Proof. exact w_mono_ignore. Qed.
Print Assumptions C129_deallocate.

(** allocate(count): room for count objects of sz bytes, if their size is one *)
Theorem C129_count_partial : forall w, 0 < w -> forall dbg buffer size up ops s es count sz align ans, buffer_in w buffer size ->
  Forall (fair_in w (buffer + size)) ops -> w_mono_run w dbg (mono_construct buffer size up) ops = Ok (s, es) ->
  0 < count -> 0 < sz -> count * sz < 2 ^ w -> pow2 align -> buffer + size + align + count * sz <= 2 ^ w ->
  exists s' p calls, w_allocate_count w dbg s count sz align ans = Ok (s', p, calls) /\
    (calls = [] /\ p <> 0 <-> fits_behind buffer size (handed es) (count * sz) align) /\
    (calls = [] -> p <> 0 -> least_multiple align (top buffer (handed es)) p).
Proof. exact w_count_room. Qed.
Print Assumptions C129_count_partial.

(** room for 2^29 + 1 objects of 8 bytes is "found" in a buffer of 32 bytes *)
Theorem C129_count_refuted : forall dbg, exists s',
  w_allocate_count 32 dbg (mono_construct 4096 32 false) (2 ^ 29 + 1) 8 8 (fun _ _ => 0) = Ok (s', 4096, []) /\
  4096 + 32 < 4096 + (2 ^ 29 + 1) * 8.
Proof. exact count_32_wraps. Qed.
Print Assumptions C129_count_refuted.

(** a buffer near the end of the address space *)
Example C129_instance : buffer_in 32 (2 ^ 32 - 4096) 32 /\
  let ops := [ask 3; OAllocate 5 8 (fun _ _ => 0); ask 40; ORelease; ask 30] in
  Forall (fair_in 32 (2 ^ 32 - 4096 + 32)) ops /\
  exists s, w_mono_run 32 true (mono_construct (2 ^ 32 - 4096) 32 false) ops =
    Ok (s, [EAllocate 3 1 (2 ^ 32 - 4096) []; EAllocate 5 8 (2 ^ 32 - 4088) []; EAllocate 40 1 0 []; ERelease;
            EAllocate 30 1 (2 ^ 32 - 4096) []]).
Proof.
  split; [unfold buffer_in; lia|]. split; [|eexists; vm_compute; reflexivity].
  assert (pow2 1) by (exists 0; split; [lia|reflexivity]). assert (pow2 8) by (exists 3; split; [lia|reflexivity]).
  repeat constructor; auto; lia.
Qed.

(** a buffer in the upper half, where programs of 32 bits have their stack *)
Example C129_exact_instance : buffer_in 32 (2 ^ 32 - 4096) 32 /\
  Forall (roomy_in 32 (2 ^ 32 - 4096 + 32)) [ask 8; ask (2 ^ 32 - 4)] /\
  exists s, w_mono_run 32 true (mono_construct (2 ^ 32 - 4096) 32 false) [ask 8; ask (2 ^ 32 - 4)] =
    Ok (s, [EAllocate 8 1 (2 ^ 32 - 4096) []; EAllocate (2 ^ 32 - 4) 1 (2 ^ 32 - 4088) []]).
Proof.
  split; [unfold buffer_in; lia|]. split; [|eexists; vm_compute; reflexivity].
  assert (pow2 1) by (exists 0; split; [lia|reflexivity]). repeat constructor; auto; lia.
Qed.
