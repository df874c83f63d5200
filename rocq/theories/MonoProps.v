(** Properties C66-C70, C80: memory/monotonic_buffer_resource.h. *)

Require Import ZArith List Bool Lia.
Require Import Verif.Outcome Verif.BitsSpec Verif.SimpleSpec Verif.MonoSpec Verif.MonoModel Verif.MonoProofs
  Verif.MonoExactProofs.
Import ListNotations.
Open Scope Z_scope.

(** C66: for requests that do not lead out of the address space ([fair_op]) *)
Theorem C66_disjoint_partial : forall dbg buffer size up ops, mono_made buffer size ->
  Forall (fair_op (buffer + size)) ops ->
  exists s es, mono_run dbg (mono_construct buffer size up) ops = Ok (s, es) /\
    ascending (handed es) /\ pairwise_disjoint (handed es) /\
    (forall a, In a (handed es) -> in_bounds buffer (buffer + size) a) /\
    (forall sz al p, In (EAllocate sz al p []) es -> p <> 0 -> (al | p)).
Proof. exact mono_contract. Qed.
Print Assumptions C66_disjoint_partial.

(** a request of 2^64 - 4 bytes is served and later memory overlaps *)
Theorem C66_disjoint_refuted : forall dbg, exists s es,
  mono_run dbg (mono_construct 4096 32 false) [ask 8; ask (2 ^ 64 - 4); ask 4] = Ok (s, es) /\
  ~ pairwise_disjoint (handed es).
Proof. exact mono_overlap. Qed.
Print Assumptions C66_disjoint_refuted.

(** for requests of every size, and of every alignment that leaves room for an aligned
    address behind the buffer ([roomy_op]; every one does for a buffer in the lower half
    of the address space, see C66_lower_half): alignment always holds; the rest holds
    exactly when nothing handed out since the last release runs past the last address *)
Theorem C66_exact_partial : forall dbg buffer size up ops, mono_made buffer size ->
  Forall (roomy_op (buffer + size)) ops ->
  exists s es, mono_run dbg (mono_construct buffer size up) ops = Ok (s, es) /\
    (forall sz al p, In (EAllocate sz al p []) es -> p <> 0 -> (al | p)) /\
    (ascending (handed es) /\ pairwise_disjoint (handed es) /\
     (forall a, In a (handed es) -> in_bounds buffer (buffer + size) a) <->
     forall a, In a (handed es) -> fst a + snd a < 2 ^ 64).
Proof. exact mono_contract_exact. Qed.
Print Assumptions C66_exact_partial.

Theorem C66_lower_half : forall e o, e <= 2 ^ 63 -> legal_op o -> roomy_op e o.
Proof. exact lower_half. Qed.
Print Assumptions C66_lower_half.

(** without that room an answer can lie outside although nothing handed out runs past
    the last address *)
Theorem C66_no_room_refuted : forall dbg, exists s es,
  mono_run dbg (mono_construct (2 ^ 63 + 8) 32 false)
    [OAllocate 8 (2 ^ 63) (fun _ _ => 0); OAllocate 4 4 (fun _ _ => 0)] = Ok (s, es) /\
  handed es = [(8, 4)] /\ ~ in_bounds (2 ^ 63 + 8) (2 ^ 63 + 8 + 32) (8, 4).
Proof. exact mono_no_room. Qed.
Print Assumptions C66_no_room_refuted.

(** both sides of the condition occur; release makes all well again *)
Example C66_exact_instance :
  (exists s, mono_run true (mono_construct 4096 32 false) [ask 8; ask (2 ^ 64 - 4)] =
     Ok (s, [EAllocate 8 1 4096 []; EAllocate (2 ^ 64 - 4) 1 4104 []])) /\
  (exists s, mono_run true (mono_construct 4096 32 false) [ask 8; ask (2 ^ 64 - 4); ORelease; ask (2 ^ 64 - 8192); ask 32] =
     Ok (s, [EAllocate 8 1 4096 []; EAllocate (2 ^ 64 - 4) 1 4104 []; ERelease;
             EAllocate (2 ^ 64 - 8192) 1 0 []; EAllocate 32 1 4096 []])) /\
  Forall (roomy_op (4096 + 32)) [ask 8; ask (2 ^ 64 - 4); ORelease; ask (2 ^ 64 - 8192); ask 32] /\
  (* the same at the end of the address space *)
  exists s, mono_run true (mono_construct (2 ^ 64 - 64) 32 false) [OAllocate 8 16 (fun _ _ => 0); OAllocate 8 16 (fun _ _ => 0); ask 48] =
     Ok (s, [EAllocate 8 16 (2 ^ 64 - 64) []; EAllocate 8 16 (2 ^ 64 - 48) []; EAllocate 48 1 (2 ^ 64 - 40) []]) /\
  Forall (roomy_op (2 ^ 64 - 64 + 32)) [OAllocate 8 16 (fun _ _ => 0); OAllocate 8 16 (fun _ _ => 0); ask 48].
Proof.
  split; [eexists; vm_compute; reflexivity|]. split; [eexists; vm_compute; reflexivity|].
  assert (pow2 1) by (exists 0; split; [lia|reflexivity]). assert (pow2 16) by (exists 4; split; [lia|reflexivity]).
  split; [repeat constructor; auto; lia|]. eexists. split; [vm_compute; reflexivity|].
  repeat constructor; auto; lia.
Qed.

Example C66_instance : mono_made 4097 31 /\
  let ops := [ask 3; OAllocate 5 8 (fun _ _ => 0); ODeallocate 4097; ask 20; ask 2; ORelease; ask 30] in
  Forall (fair_op (4097 + 31)) ops /\
  exists s, mono_run true (mono_construct 4097 31 false) ops =
    Ok (s, [EAllocate 3 1 4097 []; EAllocate 5 8 4104 []; EDeallocate 4097 []; EAllocate 20 1 0 [];
            EAllocate 2 1 4109 []; ERelease; EAllocate 30 1 4097 []]).
Proof.
  split; [unfold mono_made; lia|]. split; [|eexists; vm_compute; reflexivity].
  assert (pow2 1) by (exists 0; split; [lia|reflexivity]). assert (pow2 8) by (exists 3; split; [lia|reflexivity]).
  repeat constructor; auto; lia.
Qed.

(** C67: after every such history a request is served exactly when it fits behind
    what was handed out, at the least suitable address *)
Theorem C67_least_padding_partial : forall dbg buffer size up ops s es sz align ans, mono_made buffer size ->
  Forall (fair_op (buffer + size)) ops -> mono_run dbg (mono_construct buffer size up) ops = Ok (s, es) ->
  0 < sz -> pow2 align -> buffer + size + align + sz <= 2 ^ 64 ->
  exists s' p calls, mono_allocate dbg s sz align ans = Ok (s', p, calls) /\
    (calls = [] /\ p <> 0 <-> fits_behind buffer size (handed es) sz align) /\
    (calls = [] -> p <> 0 -> least_multiple align (top buffer (handed es)) p).
Proof. exact mono_served. Qed.
Print Assumptions C67_least_padding_partial.

Theorem C67_least_padding_refuted : forall dbg, exists s,
  mono_allocate dbg (Mono 4096 32 true 4104) (2 ^ 64 - 4) 1 (fun _ _ => 0) = Ok (s, 4104, []) /\
  mono_run dbg (mono_construct 4096 32 true) [ask 8] = Ok (Mono 4096 32 true 4104, [EAllocate 8 1 4096 []]) /\
  ~ fits_behind 4096 32 [(4096, 8)] (2 ^ 64 - 4) 1.
Proof. exact mono_nowhere. Qed.
Print Assumptions C67_least_padding_refuted.

(** the exact rule for requests of every size: besides those that fit, the buffer
    serves those whose end wraps around to an address up to the end of the buffer *)
Theorem C67_exact_partial : forall dbg buffer size up ops s es sz align ans, mono_made buffer size ->
  Forall (fair_op (buffer + size)) ops -> mono_run dbg (mono_construct buffer size up) ops = Ok (s, es) ->
  0 < sz < 2 ^ 64 -> pow2 align -> align < 2 ^ 64 ->
  exists s' p calls, mono_allocate dbg s sz align ans = Ok (s', p, calls) /\
    (forall q, calls = [] /\ p = q /\ q <> 0 <-> wrapped_fits buffer size (handed es) sz align q) /\
    (~ (exists q, wrapped_fits buffer size (handed es) sz align q) ->
       if up then calls = [UpAllocate sz align] /\ p = ans sz align else calls = [] /\ p = 0).
Proof. exact mono_exact. Qed.
Print Assumptions C67_exact_partial.

(** the same rule after histories of requests of every size, as long as nothing
    handed out since the last release runs past the last address (see C66_exact_partial) *)
Theorem C67_exact_any_partial : forall dbg buffer size up ops s es sz align ans, mono_made buffer size ->
  Forall (roomy_op (buffer + size)) ops ->
  mono_run dbg (mono_construct buffer size up) ops = Ok (s, es) ->
  (forall a, In a (handed es) -> fst a + snd a < 2 ^ 64) ->
  0 < sz < 2 ^ 64 -> pow2 align -> align < 2 ^ 64 ->
  exists s' p calls, mono_allocate dbg s sz align ans = Ok (s', p, calls) /\
    (forall q, calls = [] /\ p = q /\ q <> 0 <-> wrapped_fits buffer size (handed es) sz align q) /\
    (~ (exists q, wrapped_fits buffer size (handed es) sz align q) ->
       if up then calls = [UpAllocate sz align] /\ p = ans sz align else calls = [] /\ p = 0).
Proof. exact mono_exact_any. Qed.
Print Assumptions C67_exact_any_partial.

(** a request for exactly the rest of the buffer is served *)
Example C67_instance : fits_behind 4096 32 [(4096, 8)] 24 8 /\
  mono_allocate true (Mono 4096 32 true 4104) 24 8 (fun _ _ => 0) = Ok (Mono 4096 32 true 4128, 4104, []).
Proof.
  split; [|vm_compute; reflexivity]. split; [lia|]. exists 4104. cbn. split; [lia|]. split; [exists 513; lia|lia].
Qed.

(** C68: the calls after release are answered as by a fresh resource, whatever came
    before *)
Theorem C68_rewind : forall dbg buffer size up before s1 es1 later,
  mono_run dbg (mono_construct buffer size up) before = Ok (s1, es1) ->
  mono_run dbg (mono_construct buffer size up) (before ++ ORelease :: later) =
  bind (mono_run dbg (mono_construct buffer size up) later)
    (fun r => let (s2, es2) := r in Ok (s2, es1 ++ ERelease :: es2)).
Proof. exact mono_rewind. Qed.
Print Assumptions C68_rewind.

Example C68_instance : exists s1,
  mono_run true (mono_construct 4096 32 true) [ask 8; ask 30] =
    Ok (s1, [EAllocate 8 1 4096 []; EAllocate 30 1 0 [UpAllocate 30 1]]).
Proof. eexists. vm_compute. reflexivity. Qed.

(** C69: leaving out the calls of deallocate changes nothing else *)
Theorem C69_deallocate_ignored : forall dbg ops s s' es, mono_run dbg s ops = Ok (s', es) ->
  mono_run dbg s (filter (fun o => negb (is_dealloc_op o)) ops) =
    Ok (s', filter (fun e => negb (is_dealloc_event e)) es).
Proof. exact mono_ignore. Qed.
Print Assumptions C69_deallocate_ignored.

Example C69_instance : exists s,
  mono_run true (mono_construct 4096 32 false) [ask 8; ODeallocate 4096; ask 8] =
    Ok (s, [EAllocate 8 1 4096 []; EDeallocate 4096 []; EAllocate 8 1 4104 []]).
Proof. eexists. vm_compute. reflexivity. Qed.

(** C70 *)
Theorem C70_upstream_partial : forall dbg buffer size up ops s es sz align ans, mono_made buffer size ->
  Forall (fair_op (buffer + size)) ops -> mono_run dbg (mono_construct buffer size up) ops = Ok (s, es) ->
  0 <= sz -> pow2 align -> buffer + size + align + sz <= 2 ^ 64 ->
  exists s' p calls, mono_allocate dbg s sz align ans = Ok (s', p, calls) /\
    (sz = 0 -> p = 0 /\ calls = [] /\ s' = s) /\
    (0 < sz -> fits_behind buffer size (handed es) sz align -> calls = []) /\
    (0 < sz -> ~ fits_behind buffer size (handed es) sz align ->
       s' = s /\ (up = true -> calls = [UpAllocate sz align] /\ p = ans sz align) /\
       (up = false -> calls = [] /\ p = 0)).
Proof. exact mono_upstream. Qed.
Print Assumptions C70_upstream_partial.

Theorem C70_upstream_refuted : forall dbg, exists s,
  mono_allocate dbg (Mono 4096 32 true 4104) (2 ^ 64 - 4) 1 (fun _ _ => 0) = Ok (s, 4104, []) /\
  mono_run dbg (mono_construct 4096 32 true) [ask 8] = Ok (Mono 4096 32 true 4104, [EAllocate 8 1 4096 []]) /\
  ~ fits_behind 4096 32 [(4096, 8)] (2 ^ 64 - 4) 1.
Proof. exact mono_nowhere. Qed.
Print Assumptions C70_upstream_refuted.

(** requests and histories of every size: the upstream is asked (or null returned,
    without one) exactly when the request does not fit with the wraparound of C67, and
    then nothing changes if the alignment leaves room behind the buffer *)
Theorem C70_exact_partial : forall dbg buffer size up ops s es sz align ans, mono_made buffer size ->
  Forall (roomy_op (buffer + size)) ops ->
  mono_run dbg (mono_construct buffer size up) ops = Ok (s, es) ->
  (forall a, In a (handed es) -> fst a + snd a < 2 ^ 64) ->
  0 < sz < 2 ^ 64 -> pow2 align -> align < 2 ^ 64 ->
  exists s' p calls, mono_allocate dbg s sz align ans = Ok (s', p, calls) /\
    (calls = [] \/ calls = [UpAllocate sz align] /\ up = true /\ p = ans sz align) /\
    (calls = [UpAllocate sz align] \/ up = false /\ p = 0 <->
       ~ exists q, wrapped_fits buffer size (handed es) sz align q) /\
    (buffer + size + align <= 2 ^ 64 -> calls <> [] \/ p = 0 -> s' = s).
Proof. exact mono_upstream_exact. Qed.
Print Assumptions C70_exact_partial.

(** without that room a request passed to the upstream can change the buffer: its next
    answer is address 8, far from the buffer of 32 bytes at 2^63 + 8 *)
Theorem C70_state_refuted : forall dbg, exists s es,
  mono_run dbg (mono_construct (2 ^ 63 + 8) 32 true)
    [OAllocate 8 (2 ^ 63) (fun _ _ => 0); OAllocate 4 4 (fun _ _ => 0)] = Ok (s, es) /\
  es = [EAllocate 8 (2 ^ 63) 0 [UpAllocate 8 (2 ^ 63)]; EAllocate 4 4 8 []].
Proof. exact mono_upstream_moves. Qed.
Print Assumptions C70_state_refuted.

(** 24 bytes are left: 30 are asked of the upstream, 20 are not *)
Example C70_instance : mono_made 4096 32 /\ Forall (fair_op (4096 + 32)) [ask 8] /\
  mono_run true (mono_construct 4096 32 true) [ask 8] = Ok (Mono 4096 32 true 4104, [EAllocate 8 1 4096 []]) /\
  mono_allocate true (Mono 4096 32 true 4104) 30 1 (fun _ _ => 65536) =
    Ok (Mono 4096 32 true 4104, 65536, [UpAllocate 30 1]) /\
  mono_allocate true (Mono 4096 32 true 4104) 20 1 (fun _ _ => 65536) = Ok (Mono 4096 32 true 4124, 4104, []).
Proof.
  split; [unfold mono_made; lia|]. split; [|repeat split; vm_compute; reflexivity].
  repeat constructor; try lia. exists 0. split; [lia|reflexivity].
Qed.

(** C80: memory of the upstream is never given back, in no history *)
Theorem C80_upstream_memory_refuted : forall dbg ops s s' es, mono_run dbg s ops = Ok (s', es) ->
  forall e p, In e es -> ~ In (UpDeallocate p) (calls_of e).
Proof. exact mono_keeps. Qed.
Print Assumptions C80_upstream_memory_refuted.

Example C80_instance : exists s,
  mono_run true (mono_construct 4096 32 true) [OAllocate 64 8 (fun _ _ => 65536); ODeallocate 65536; ORelease] =
    Ok (s, [EAllocate 64 8 65536 [UpAllocate 64 8]; EDeallocate 65536 []; ERelease]).
Proof. eexists. vm_compute. reflexivity. Qed.
