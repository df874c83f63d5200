(** The theorems about pointer arithmetic in the buffer resources.  [lo] and [hi] are the
    begin and the end of the array that contains the buffer. *)

Require Import ZArith List Bool.
Require Import Verif.Outcome Verif.Machine Verif.BitsSpec.
Require Import Verif.SimpleSpec Verif.SimpleModel Verif.SimpleView Verif.SimpleRefuted.
Require Import Verif.MonoSpec Verif.MonoModel.
Require Import Verif.StrictSpec Verif.StrictModel Verif.StrictProofs.
Import ListNotations.
Open Scope Z_scope.

(** * C118: a monotonic buffer forms no pointer outside the array of its buffer *)

(** Every request of every defined history, with any size: a request that ends inside the
    buffer is served, one that ends behind it is passed on only if the array still goes on
    there, and any other is undefined. *)
Theorem C118_exact_partial : forall dbg lo hi buffer size up ops s es sz align ans q,
  part_of_array lo hi buffer size -> Forall word_op ops ->
  strict_mono_run dbg lo hi (mono_construct buffer size up) ops = Ok (s, es) ->
  0 < sz < 2 ^ 64 -> pow2 align -> align < 2 ^ 64 -> least_multiple align (top buffer (handed es)) q ->
  (q + sz <= buffer + size -> exists s', strict_mono_allocate dbg lo hi s sz align ans = Ok (s', q, [])) /\
  (buffer + size < q + sz <= hi -> strict_mono_allocate dbg lo hi s sz align ans =
     Ok (s, fst (passed_on up sz align ans), snd (passed_on up sz align ans))) /\
  (hi < q + sz -> strict_mono_allocate dbg lo hi s sz align ans = UB).
Proof. exact strict_mono_exact. Qed.
Print Assumptions C118_exact_partial.

Example C118_instance : part_of_array 4096 4160 4096 16 /\
  (exists s, strict_mono_run true 4096 4160 (mono_construct 4096 16 true) [get 3] = Ok (s, [EAllocate 3 1 4096 []]) /\
   (exists s', strict_mono_allocate true 4096 4160 s 12 4 (fun _ _ => 9000) = Ok (s', 4100, [])) /\
   strict_mono_allocate true 4096 4160 s 13 4 (fun _ _ => 9000) = Ok (s, 9000, [UpAllocate 13 4]) /\
   strict_mono_allocate true 4096 4160 s 61 4 (fun _ _ => 9000) = UB).
Proof.
  split; [repeat split; reflexivity || discriminate|]. eexists. split; [vm_compute; reflexivity|].
  split; [eexists; vm_compute; reflexivity|]. split; vm_compute; reflexivity.
Qed.

(** A defined history is the one of the flat addresses, and in it what is handed out is
    disjoint, ascending, inside the buffer and aligned: no bound on the sizes is needed, as
    the sizes that would wrap around are undefined. *)
Theorem C118_defined_partial : forall dbg lo hi buffer size up ops s es, part_of_array lo hi buffer size ->
  Forall word_op ops -> strict_mono_run dbg lo hi (mono_construct buffer size up) ops = Ok (s, es) ->
  mono_run dbg (mono_construct buffer size up) ops = Ok (s, es) /\
  ascending (handed es) /\ pairwise_disjoint (handed es) /\
  (forall a, In a (handed es) -> in_bounds buffer (buffer + size) a) /\
  (forall sz al p, In (EAllocate sz al p []) es -> p <> 0 -> (al | p)).
Proof. exact strict_mono_contract. Qed.
Print Assumptions C118_defined_partial.

Example C118_defined_instance : exists s es,
  strict_mono_run false 4096 4128 (mono_construct 4096 32 false) [get 3; OAllocate 8 8 (fun _ _ => 0); get 1] = Ok (s, es) /\
  handed es = [(4112, 1); (4104, 8); (4096, 3)].
Proof. eexists. eexists. split; vm_compute; reflexivity. Qed.

(** Without a buffer no pointer is formed: every history, whatever its alignments, ends as
    with flat addresses, and each request of at least a byte goes to the upstream or fails. *)
Theorem C118_null_partial : forall dbg lo hi buffer size up ops, buffer = 0 \/ size = 0 ->
  strict_mono_run dbg lo hi (mono_construct buffer size up) ops = mono_run dbg (mono_construct buffer size up) ops /\
  (forall s es, strict_mono_run dbg lo hi (mono_construct buffer size up) ops = Ok (s, es) ->
   forall sz al p calls, In (EAllocate sz al p calls) es ->
     (sz = 0 /\ p = 0 /\ calls = []) \/
     (sz <> 0 /\ exists ans, In (OAllocate sz al ans) ops /\ (p, calls) = passed_on up sz al ans)).
Proof. exact strict_mono_null_all. Qed.
Print Assumptions C118_null_partial.

Example C118_null_instance :
  (exists s, strict_mono_run true 0 0 (mono_construct 0 16 true) [OAllocate 8 4 (fun _ _ => 9000); get 0] =
     Ok (s, [EAllocate 8 4 9000 [UpAllocate 8 4]; EAllocate 0 1 0 []])) /\
  strict_mono_run true 0 0 (mono_construct 0 16 true) [OAllocate 8 3 (fun _ _ => 9000)] = Abort /\
  (exists s, strict_mono_run false 0 0 (mono_construct 0 16 false) [OAllocate 8 3 (fun _ _ => 9000)] =
     Ok (s, [EAllocate 8 3 0 []])).
Proof. split; [eexists; vm_compute; reflexivity|]. split; [vm_compute; reflexivity|]. eexists; vm_compute; reflexivity. Qed.

(** With a buffer that is a whole array, as made by the constructors for arrays, no defined
    program ever reaches the upstream: each request that does not fit is undefined. *)
Theorem C118_refuted : forall dbg lo hi buffer size up ops s es, part_of_array lo hi buffer size ->
  hi = buffer + size -> Forall word_op ops ->
  strict_mono_run dbg lo hi (mono_construct buffer size up) ops = Ok (s, es) ->
  forall sz al p calls, In (EAllocate sz al p calls) es -> calls = [].
Proof. exact strict_mono_alone. Qed.
Print Assumptions C118_refuted.

Example C118_refuted_instance :
  strict_mono_run false 4096 4112 (mono_construct 4096 16 true) [get 16; get 1] = UB /\
  mono_run false (mono_construct 4096 16 true) [get 16; get 1] =
    Ok (Mono 4096 16 true 4112, [EAllocate 16 1 4096 []; EAllocate 1 1 0 [UpAllocate 1 1]]).
Proof. split; vm_compute; reflexivity. Qed.

(** * C119: simple_resource forms no pointer outside the array of its buffer *)

(** a defined history, in any build and with requests of any size, is the one of the flat
    addresses *)
Theorem C119_defined_partial : forall c lo hi buffer size up s fuel ops s' es, cfg_ok c ->
  part_of_array lo hi buffer size -> strict_construct c lo hi buffer size up = Ok s -> Forall word_op ops ->
  strict_run c lo hi fuel s ops = Ok (s', es) ->
  construct c buffer size up = Ok s /\ run c fuel s ops = Ok (s', es).
Proof. exact strict_sound. Qed.
Print Assumptions C119_defined_partial.

Example C119_defined_instance : exists s', strict_construct (conf 8 false) 4094 4128 4094 34 false = Ok (fresh 4096 8 false) /\
  strict_run (conf 8 false) 4094 4128 50 (fresh 4096 8 false) [get 5; ODeallocate 4096] =
    Ok (s', [EAllocate 5 1 4096 []; EDeallocate 4096 []]).
Proof. eexists. split; vm_compute; reflexivity. Qed.

(** making a resource forms no pointer outside, also with a null buffer or an empty one *)
Theorem C119_construct_partial : forall c lo hi buffer size up, cfg_ok c ->
  part_of_array lo hi buffer size \/ buffer = 0 \/ size = 0 ->
  strict_construct c lo hi buffer size up = construct c buffer size up.
Proof. exact strict_made. Qed.
Print Assumptions C119_construct_partial.

Example C119_construct_instance : part_of_array 4094 4128 4094 34 /\
  strict_construct (conf 8 true) 4094 4128 4094 34 false = Ok (fresh 4096 8 false).
Proof. split; [repeat split; reflexivity || discriminate|vm_compute; reflexivity]. Qed.

(** debug builds on an array that has room for MaxBlockCount blocks: whatever the calls do,
    no pointer leaves the array *)
Theorem C119_whole_partial : forall c lo hi buffer size up s fuel ops, made c buffer size up s -> DBG c = true ->
  part_of_array lo hi buffer size -> data s + MB c * BS c <= hi -> Forall small_op ops ->
  strict_run c lo hi fuel s ops = run c fuel s ops.
Proof. exact strict_whole. Qed.
Print Assumptions C119_whole_partial.

Example C119_whole_instance : exists s', part_of_array 4096 4128 4096 32 /\
  data (fresh 4096 8 false) + MB (conf 8 true) * BS (conf 8 true) <= 4128 /\
  strict_run (conf 8 true) 4096 4128 50 (fresh 4096 8 false) [get 5; get 9; ODeallocate 4096] =
    Ok (s', [EAllocate 5 1 4096 []; EAllocate 9 1 4104 []; EDeallocate 4096 []]).
Proof. eexists. split; [repeat split; reflexivity || discriminate|]. split; [discriminate|vm_compute; reflexivity]. Qed.

(** release builds, with any array: every history that the debug build would pass *)
Theorem C119_release_partial : forall m b lo hi buffer size up s fuel ops s' es,
  made (Cfg m b true) buffer size up s -> part_of_array lo hi buffer size -> Forall small_op ops ->
  run (Cfg m b true) fuel s ops = Ok (s', es) ->
  strict_run (Cfg m b false) lo hi fuel s ops = Ok (s', es).
Proof. exact strict_release. Qed.
Print Assumptions C119_release_partial.

Example C119_release_instance : exists s', part_of_array 4096 4112 4096 16 /\
  run (conf 8 true) 50 (fresh 4096 4 false) [get 5; ODeallocate 4096] = Ok (s', [EAllocate 5 1 4096 []; EDeallocate 4096 []]) /\
  strict_run (conf 8 false) 4096 4112 50 (fresh 4096 4 false) [get 5; ODeallocate 4096] =
    Ok (s', [EAllocate 5 1 4096 []; EDeallocate 4096 []]).
Proof. eexists. split; [repeat split; reflexivity || discriminate|]. split; vm_compute; reflexivity. Qed.

(** debug builds on an array with room for fewer than MaxBlockCount blocks: no defined
    program is ever served from the buffer, or gives memory back to it *)
Theorem C119_debug_refuted : forall c lo hi buffer size up s fuel ops s' es, made c buffer size up s -> DBG c = true ->
  part_of_array lo hi buffer size -> hi < data s + MB c * BS c -> Forall small_op ops ->
  strict_run c lo hi fuel s ops = Ok (s', es) ->
  forall e, In e es -> ~ touches (data s) (data s + bc s * BS c) e.
Proof. exact strict_short. Qed.
Print Assumptions C119_debug_refuted.

(** and exactly these calls are the undefined ones *)
Theorem C119_debug_exact_partial : forall c lo hi buffer size up s fuel ops s' es o s2 e,
  made c buffer size up s -> DBG c = true ->
  part_of_array lo hi buffer size -> hi < data s + MB c * BS c -> Forall small_op ops ->
  strict_run c lo hi fuel s ops = Ok (s', es) -> small_op o -> step c fuel s' o = Ok (s2, e) ->
  (touches (data s) (data s + bc s * BS c) e -> strict_step c lo hi fuel s' o = UB) /\
  (~ touches (data s) (data s + bc s * BS c) e -> strict_step c lo hi fuel s' o = Ok (s2, e)).
Proof. exact strict_short_exact. Qed.
Print Assumptions C119_debug_exact_partial.

Example C119_debug_instance : part_of_array 4096 4112 4096 16 /\
  4112 < data (fresh 4096 4 true) + MB (conf 8 true) * BS (conf 8 true) /\
  strict_run (conf 8 true) 4096 4112 50 (fresh 4096 4 true) [get 17; ODeallocate 8000] =
    Ok (fresh 4096 4 true, [EAllocate 17 1 0 [UpAllocate 17 1]; EDeallocate 8000 [UpDeallocate 8000]]) /\
  strict_step (conf 8 true) 4096 4112 50 (fresh 4096 4 true) (get 5) = UB /\
  exists s', step (conf 8 true) 50 (fresh 4096 4 true) (get 5) = Ok (s', EAllocate 5 1 4096 []).
Proof.
  split; [repeat split; reflexivity || discriminate|]. split; [reflexivity|]. split; [vm_compute; reflexivity|].
  split; [vm_compute; reflexivity|]. eexists. vm_compute. reflexivity.
Qed.

(** requests whose padding and size wrap around are undefined too, in every build; flat
    addresses would serve this one *)
Theorem C119_size_refuted : exists c lo hi buffer size s s2 p, DBG c = false /\ made c buffer size false s /\
  part_of_array lo hi buffer size /\
  allocate_impl c 50 s (2 ^ 64 - 48) 64 (fun _ _ => 0) = Ok (s2, p, []) /\ p <> 0 /\
  strict_allocate_impl c lo hi 50 s (2 ^ 64 - 48) 64 (fun _ _ => 0) = UB.
Proof. exact strict_size. Qed.
Print Assumptions C119_size_refuted.
