(** Properties C71-C74, C82-C83: memory/memory.h and memory/allocator.h. *)

Require Import ZArith List Bool Lia Permutation.
Require Import Verif.Outcome Verif.BitsSpec Verif.SimpleSpec Verif.SimpleModel Verif.SimpleView
  Verif.MonoSpec Verif.MonoModel Verif.AllocSpec Verif.AllocModel Verif.AllocView Verif.AllocProofs
  Verif.AllocStackProofs Verif.AllocObjProofs Verif.SimpleRefuted Verif.AllocExamples.
Import ListNotations.
Open Scope Z_scope.

(** C71: with every safe resource, at every point of a history, for products below
    2^64 *)
Theorem C71_room_partial : forall R s0 ok mem, safe R s0 ok mem ->
  forall qs s tr count size align, res_run R s0 qs = Ok (s, tr) -> fair_trace ok [] tr ->
    0 <= count -> 0 <= size -> count * size < 2 ^ 64 -> ok (count * size) align ->
  exists s' p, allocate_count R s count size align = Ok (s', p) /\
    (p <> 0 -> (align | p) /\ (forall x, p <= x < p + count * size -> mem x) /\
       forall a, In a (owned tr) -> disjoint (p, count * size) a).
Proof. exact room_for. Qed.
Print Assumptions C71_room_partial.

(** 2^61 + 1 objects of 8 bytes are "found" in a buffer of 32 bytes *)
Theorem C71_room_refuted : exists s' p,
  allocate_count (mono_resource true null_resource) (mono_construct 4096 32 false, tt) (2 ^ 61 + 1) 8 8 = Ok (s', p) /\
  p = 4096 /\ 4096 + 32 < p + (2 ^ 61 + 1) * 8.
Proof. exact room_refuted. Qed.
Print Assumptions C71_room_refuted.

(** exactly: for every count there is room for the product modulo 2^64, which is the
    product only below 2^64 *)
Theorem C71_exact_partial : forall R s0 ok mem, safe R s0 ok mem ->
  forall qs s tr count size align, res_run R s0 qs = Ok (s, tr) -> fair_trace ok [] tr ->
    0 <= count -> 0 <= size -> ok ((count * size) mod 2 ^ 64) align ->
  exists s' p, allocate_count R s count size align = Ok (s', p) /\
    (p <> 0 -> (align | p) /\ (forall x, p <= x < p + (count * size) mod 2 ^ 64 -> mem x) /\
       forall a, In a (owned tr) -> disjoint (p, (count * size) mod 2 ^ 64) a) /\
    ((count * size) mod 2 ^ 64 = count * size <-> count * size < 2 ^ 64).
Proof. exact room_any. Qed.
Print Assumptions C71_exact_partial.

Example C71_instance : safe (system_resource bump) 65536 (fun size align => 0 < size /\ pow2 align /\ align < 2 ^ 64) bump_mem /\
  exists s', res_run (system_resource bump) 65536 [Ask 3 4; Ask 2 16; Give 65536] =
    Ok (s', [Got 3 4 65536; Got 2 16 65552; Gave 65536]) /\
  allocate_count (system_resource bump) s' 5 8 8 = Ok (65600, 65560).
Proof. split; [apply system_safe; exact bump_ok|]. eexists. split; [vm_compute; reflexivity|vm_compute; reflexivity]. Qed.

(** C72: with every safe resource, for every sequence of calls that deletes only
    living objects *)
Theorem C72_objects : forall R s0 (ok : Z -> Z -> Prop) mem, safe R s0 ok mem ->
  (forall size align, ok size align -> 0 < size < 2 ^ 64) ->
  forall ops s tr, obj_run R s0 ops = Ok (s, tr) -> fair_life ok [] tr ->
    proper_life [] [] tr /\
    length (constructions tr) = (length (destructions tr) + length (alive tr))%nat /\
    NoDup (alive tr) /\ Permutation (map fst (storage tr)) (alive tr) /\ pairwise_disjoint (storage tr) /\
    (forall a x, In a (storage tr) -> fst a <= x < fst a + snd a -> mem x) /\
    (forall sz al p, In (AAsk sz al p) tr -> p <> 0 -> (al | p)) /\
    (forall size align, ok size align -> exists s' acts, obj_step R s (New size align) = Ok (s', acts)) /\
    (forall p, p = 0 \/ In p (alive tr) -> exists s' acts, obj_step R s (Delete p) = Ok (s', acts)).
Proof. exact objects. Qed.
Print Assumptions C72_objects.

(** with any resource at all: new_object asks once, for sizeof and alignof, and
    constructs one object at the answer unless it is null; delete_object destroys
    once and then gives back the same pointer, and does nothing for null *)
Theorem C72_new_one : forall R s size align s1 p, 0 <= size < 2 ^ 64 -> r_allocate R s size align = Ok (s1, p) ->
  new_object R s size align = Ok (s1, p, if p =? 0 then [AAsk size align 0] else [AAsk size align p; AConstruct p]).
Proof. exact new_one. Qed.
Print Assumptions C72_new_one.

Theorem C72_delete_one : forall R s p s1, p <> 0 -> r_deallocate R s p = Ok s1 ->
  delete_object R s p = Ok (s1, [ADestroy p; AGive p]) /\ delete_object R s 0 = Ok (s, []).
Proof. exact delete_one. Qed.
Print Assumptions C72_delete_one.

Example C72_instance : exists s tr,
  obj_run (system_resource bump) 65536 [New 3 4; New 24 8; Delete 65536; Delete 0; New 1 1] = Ok (s, tr) /\
  fair_life (fun size align => 0 < size < 2 ^ 64 /\ pow2 align /\ align < 2 ^ 64) [] tr /\
  alive tr = [65568; 65544] /\ length (constructions tr) = 3%nat.
Proof.
  eexists _, _. split; [vm_compute; reflexivity|].
  assert (pow2 1) by (exists 0; split; [lia|reflexivity]). assert (pow2 4) by (exists 2; split; [lia|reflexivity]).
  assert (pow2 8) by (exists 3; split; [lia|reflexivity]).
  split; [|split; reflexivity]. cbn [fair_life alive_after remove_one Z.eqb Pos.eqb In]. intuition lia.
Qed.

(** C73: whatever the C library does *)
Theorem C73_aligned_malloc : forall L h size align, pow2 align -> align < 2 ^ 64 ->
  exists a, posix_legal a /\ align <= a /\ (align | a) /\
    (forall h' p, posix_memalign L h a size = (h', 0, p) -> aligned_malloc L h size align = (h', p)) /\
    (forall h' err p, posix_memalign L h a size = (h', err, p) -> err <> 0 -> aligned_malloc L h size align = (h', 0)).
Proof. exact aligned_malloc_call. Qed.
Print Assumptions C73_aligned_malloc.

(** so the system resource is safe for all power-of-two alignments if the C library
    is for the legal ones *)
Theorem C73_system : forall L h mem, libc_ok L h mem ->
  safe (system_resource L) h (fun size align => 0 < size /\ pow2 align /\ align < 2 ^ 64) mem.
Proof. exact system_safe. Qed.
Print Assumptions C73_system.

(** a library that stores a pointer although it fails; alignment 2 is raised to 8 *)
Example C73_instance : libc_ok bump 65536 bump_mem /\ pow2 2 /\
  aligned_malloc bump 65537 5 2 = (65549, 65544) /\
  let L := Libc unit (fun h a n => (h, 12, 77)) (fun h p => h) in aligned_malloc L tt 5 2 = (tt, 0).
Proof. split; [exact bump_ok|]. split; [exists 1; split; [lia|reflexivity]|]. split; vm_compute; reflexivity. Qed.

(** C74: for all threads, programs and schedules *)
Theorem C74_register : forall sched v prog v' es, reg_run v prog sched = (v', es) ->
  (forall es1 t o r es2, es = es1 ++ (t, o, r) :: es2 -> r = reg_value v es1) /\
  v' = reg_value v es /\ v :: installed es = handed_back es ++ [v'] /\
  forall t, exists rest, prog t = ops_of t es ++ rest.
Proof. exact register. Qed.
Print Assumptions C74_register.

Example C74_instance :
  reg_run 1 (fun t => match t with 0%nat => [RSet 2; RGet] | 1%nat => [RSet 3; RSet 4] | _ => [] end) [1; 0; 1; 0; 2]%nat =
  (4, [(1%nat, RSet 3, 1); (0%nat, RSet 2, 3); (1%nat, RSet 4, 2); (0%nat, RGet, 4)]).
Proof. vm_compute. reflexivity. Qed.

(** C82: stacks of resources.  A monotonic buffer on a safe upstream is safe *)
Theorem C82_mono_over_partial : forall dbg has up u0 (ok : Z -> Z -> Prop) (mem : Z -> Prop) buffer size,
  safe up u0 ok mem -> mono_made buffer size -> (forall x, buffer <= x < buffer + size -> ~ mem x) ->
  safe (mono_resource dbg up) (mono_construct buffer size has, u0)
    (fun sz al => 0 <= sz /\ pow2 al /\ buffer + size + al + sz <= 2 ^ 64 /\ (0 < sz -> ok sz al))
    (fun x => buffer <= x < buffer + size \/ mem x).
Proof. exact mono_safe. Qed.
Print Assumptions C82_mono_over_partial.

(** and so is a simple_resource, with or without upstream, for requests that all need the same
    number [k] of blocks (below the last byte of the last one) and no alignment beyond
    BlockSize; with an upstream, whose answers must be aligned to BlockSize, exactly that one *)
Theorem C82_simple_over_partial : forall c fuel up u0 (ok : Z -> Z -> Prop) (mem : Z -> Prop) buffer size k has s0,
  safe up u0 ok mem -> made c buffer size has s0 -> (Z.to_nat (bc s0) < fuel)%nat -> 0 < k -> (k + 1) * BS c <= 2 ^ 64 ->
  (forall x, data s0 <= x < data s0 + bc s0 * BS c -> ~ mem x) ->
  safe (simple_memory c fuel up) (s0, u0)
    (fun sz al => (sz = 0 \/ (k - 1) * BS c < sz < k * BS c) /\ pow2 al /\ al <= BS c /\
                  (has = true -> al = BS c) /\ (0 < sz -> ok sz al))
    (fun x => data s0 <= x < data s0 + bc s0 * BS c \/ mem x).
Proof. exact simple_safe. Qed.
Print Assumptions C82_simple_over_partial.

(** neither is safe for every class: not a simple_resource for all requests below ten bytes,
    nor a monotonic buffer for requests of every size, whatever memory is meant *)
Theorem C82_simple_mixed_refuted : forall dbg mem, exists c buffer size s0, DBG c = dbg /\ made c buffer size false s0 /\
  ~ safe (simple_memory c 50 null_resource) (s0, tt) (fun sz al => 0 < sz < 10 /\ al = 1) mem.
Proof. exact simple_unsafe. Qed.
Print Assumptions C82_simple_mixed_refuted.
Theorem C82_mono_huge_refuted : forall dbg mem, mono_made 4096 32 /\
  ~ safe (mono_resource dbg null_resource) (mono_construct 4096 32 false, tt) (fun sz al => 0 < sz < 2 ^ 64 /\ al = 1) mem.
Proof. exact mono_unsafe. Qed.
Print Assumptions C82_mono_huge_refuted.

(** the null resource is safe for every request *)
Theorem C82_null : forall ok, safe null_resource tt ok (fun _ => False).
Proof. exact null_safe. Qed.
Print Assumptions C82_null.

(** three levels: the fourth answer comes from the monotonic buffer, the last from
    the system *)
Example C82_instance : safe stack stack_start stack_class stack_space /\ exists s,
  res_run stack stack_start [Ask 9 16; Ask 1 16; Ask 15 16; Give 48; Ask 3 16; Ask 15 16; Ask 15 16; Ask 15 16; Ask 15 16] =
  Ok (s, [Got 9 16 48; Got 1 16 64; Got 15 16 4096; Gave 48; Got 3 16 48; Got 15 16 4112; Got 15 16 4128; Got 15 16 4144;
          Got 15 16 65536]).
Proof. split; [exact stack_safe|]. eexists. vm_compute. reflexivity. Qed.

(** requests of two blocks of 16 bytes each in a buffer of six, without upstream *)
Example C82_pool_instance : safe (simple_memory (Cfg 6 16 true) 40 null_resource) (fresh 48 6 false, tt)
    (fun sz al => 16 < sz < 32 /\ pow2 al /\ al <= 16) (fun x => 48 <= x < 144) /\
  exists s, res_run (simple_memory (Cfg 6 16 true) 40 null_resource) (fresh 48 6 false, tt)
    [Ask 20 4; Ask 31 16; Ask 17 1; Ask 18 2; Give 80; Ask 30 8] =
    Ok (s, [Got 20 4 48; Got 31 16 80; Got 17 1 112; Got 18 2 0; Gave 80; Got 30 8 80]).
Proof. split; [exact pool_safe|]. eexists. vm_compute. reflexivity. Qed.

(** C83: is_equal compares identities, and allocators are equal iff their resources are *)
Theorem C83_equality_partial : forall a b, (is_equal a b = true <-> a = b) /\ (allocator_eq a b = true <-> a = b).
Proof. exact equality. Qed.
Print Assumptions C83_equality_partial.

(** the system resource of one translation unit is not that of another *)
Theorem C83_equality_refuted : forall i j, i <> j ->
  is_equal (system_memory_resource i) (system_memory_resource j) = false.
Proof. exact units_differ. Qed.
Print Assumptions C83_equality_refuted.

(** exactly: two units see one system resource only when they are the same unit *)
Theorem C83_units_exact_partial : forall i j,
  is_equal (system_memory_resource i) (system_memory_resource j) = true <-> i = j.
Proof. exact units_exact. Qed.
Print Assumptions C83_units_exact_partial.

Example C83_instance : is_equal (system_memory_resource 0) (system_memory_resource 0) = true.
Proof. reflexivity. Qed.
