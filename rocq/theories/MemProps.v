(** Properties C22 - C30: array helpers and raw memory helpers. *)

Require Import ZArith List Bool Lia.
Require Import Verif.Outcome Verif.Machine Verif.MemModel Verif.MemSpec Verif.MemProofs Verif.MemEdgeProofs.
Import ListNotations.
Open Scope Z_scope.

(** * C22 *)

Theorem C22_concatenate_arrays : forall T (arrays : list (list T)), arrays <> [] ->
  concatenate_arrays T arrays = Some (concat arrays).
Proof. exact concatenate_arrays_correct. Qed.
Print Assumptions C22_concatenate_arrays.

Example C22_example : concatenate_arrays Z [[1; 2]; []; [3]; [4; 5; 6]] = Some [1; 2; 3; 4; 5; 6].
Proof. reflexivity. Qed.

(** * C23 *)

(** Copies, when moving from the value leaves it as it was (every trivially
    copyable type). *)
Theorem C23_make_array_value_partial : forall T (mv : T -> T * T) v n, mv v = (v, v) ->
  make_array_value T mv v n = repeat v n.
Proof. exact fill_copies. Qed.
Print Assumptions C23_make_array_value_partial.

Theorem C23_make_zero_array_partial : forall T (mv : T -> T * T) zero n, mv zero = (zero, zero) ->
  make_zero_array T mv zero n = repeat zero n.
Proof. exact fill_copies. Qed.
Print Assumptions C23_make_zero_array_partial.

(** Integer arguments of any mixture of types: if the call compiles, the array
    holds exactly their values, in order. *)
Theorem C23_make_array_args : forall args l,
  (forall a, In a args -> std_ity (fst a) /\ inty (fst a) (snd a)) ->
  make_array_ints args = Some l -> l = map snd args.
Proof. exact make_array_ints_values. Qed.
Print Assumptions C23_make_array_args.

Theorem C23_make_array_args_same_type : forall t vs, std_ity t -> (forall v, In v vs -> inty t v) ->
  make_array_ints (map (fun v => (t, v)) vs) = Some vs.
Proof. exact make_array_ints_same. Qed.
Print Assumptions C23_make_array_args_same_type.

(** mixed signedness is refused, mixed width is not *)
Example C23_example_mixed : make_array_ints [(i8, -5); (u16, 65535); (i64, 7)] = Some [-5; 65535; 7] /\
  make_array_ints [(i32, -1); (u32, 1)] = None.
Proof. split; reflexivity. Qed.

(** For any move constructor the second element is built from what the first
    move left behind. *)
Theorem C23_moved_from_value_refuted : forall T (mv : T -> T * T) v n, (1 < n)%nat ->
  fst (mv (snd (mv v))) <> fst (mv v) ->
  nth_error (make_array_value T mv v n) 0 <> nth_error (make_array_value T mv v n) 1 /\
  make_array_value T mv v n <> repeat v n.
Proof.
  intros T mv v n H N. destruct (fill_moved_from T mv v n H) as [H0 H1].
  unfold make_array_value. split; [congruence|]. intros E. rewrite E in H0, H1.
  destruct n as [|[|n]]; try lia. cbn in H0, H1. congruence.
Qed.
Print Assumptions C23_moved_from_value_refuted.

(** Exactly when the array holds copies: each element is moved from what the moves
    before it have left. *)
Theorem C23_make_array_value_exact_partial : forall T (mv : T -> T * T) v n,
  length (make_array_value T mv v n) = n /\
  (forall k, (k < n)%nat ->
     nth_error (make_array_value T mv v n) k = Some (fst (mv (Nat.iter k (fun x => snd (mv x)) v)))) /\
  (make_array_value T mv v n = repeat v n <->
   forall k, (k < n)%nat -> fst (mv (Nat.iter k (fun x => snd (mv x)) v)) = v).
Proof. exact fill_exact. Qed.
Print Assumptions C23_make_array_value_exact_partial.

Theorem C23_make_array_sv : forall T U (cast : T -> U) dbg n sv, (n <= length sv)%nat ->
  make_array_sv T cast dbg n sv = Ok (map cast (firstn n sv)).
Proof. exact make_array_sv_correct. Qed.
Print Assumptions C23_make_array_sv.

Theorem C23_make_array_sv_short : forall T U (cast : T -> U) n sv, (length sv < n)%nat ->
  make_array_sv T cast true n sv = Abort /\ make_array_sv T cast false n sv = UB.
Proof. exact make_array_sv_short. Qed.
Print Assumptions C23_make_array_sv_short.

Theorem C23_sv_to_array : forall T is (sv : list T), (forall i, In i is -> (i < length sv)%nat) ->
  exists l, sv_to_array T is sv = Ok l /\ length l = length is /\
    forall k i, nth_error is k = Some i -> nth_error l k = nth_error sv i.
Proof. exact sv_to_array_correct. Qed.
Print Assumptions C23_sv_to_array.

(** a std::string-like move: the source becomes empty *)
Definition string_move (v : list Z) : list Z * list Z := (v, []).
Example C23_example_ints : make_array_value Z (fun v => (v, v)) 7 3 = [7; 7; 7].
Proof. reflexivity. Qed.
Example C23_example_strings :
  make_array_value (list Z) string_move [104; 105] 3 = [[104; 105]; []; []].
Proof. reflexivity. Qed.
Example C23_example_strings_hypothesis :
  fst (string_move (snd (string_move [104; 105]))) <> fst (string_move [104; 105]).
Proof. discriminate. Qed.
Example C23_example_sv : sv_to_array Z [2; 0; 2]%nat [10; 11; 12; 13] = Ok [12; 10; 12].
Proof. reflexivity. Qed.

(** * C24 *)

Theorem C24_is_equal : forall T eqb dbg (lhs rhs : list T) count,
  (count <= length lhs)%nat -> length rhs = length lhs ->
  exists b, is_equal T eqb dbg lhs rhs count = Ok b /\
    (b = true <-> forall j x y, (j < count)%nat -> nth_error lhs j = Some x ->
       nth_error rhs j = Some y -> eqb x y = true).
Proof. exact is_equal_correct. Qed.
Print Assumptions C24_is_equal.

Theorem C24_later_elements_irrelevant : forall T eqb dbg (lhs rhs lhs' rhs' : list T) count,
  (count <= length lhs)%nat -> length rhs = length lhs ->
  length lhs' = length lhs -> length rhs' = length lhs ->
  firstn count lhs' = firstn count lhs -> firstn count rhs' = firstn count rhs ->
  is_equal T eqb dbg lhs' rhs' count = is_equal T eqb dbg lhs rhs count.
Proof. exact is_equal_local. Qed.
Print Assumptions C24_later_elements_irrelevant.

Theorem C24_count_too_big_aborts : forall T eqb (lhs rhs : list T) count,
  (length lhs < count)%nat -> is_equal T eqb true lhs rhs count = Abort.
Proof. exact is_equal_misuse. Qed.
Print Assumptions C24_count_too_big_aborts.

Example C24_example : is_equal Z Z.eqb true [1; 2; 3] [1; 2; 4] 2 = Ok true /\
  is_equal Z Z.eqb true [1; 2; 3] [1; 2; 4] 3 = Ok false.
Proof. split; reflexivity. Qed.

(** * C25 *)

(** Only [p, p+size) is assumed accessible: a read outside it would be UB. *)
Theorem C25_memvcmp : forall m p val size, accessible m p size ->
  exists b, memvcmp m p val size = Ok b /\
    (b = true <-> p <> 0 /\ (0 < size)%nat /\
       forall i, 0 <= i < Z.of_nat size -> m (p + i) = Some val).
Proof. exact memvcmp_correct. Qed.
Print Assumptions C25_memvcmp.

Theorem C25_memvcmp_local : forall m m' p val size, accessible m p size ->
  (forall i, 0 <= i < Z.of_nat size -> m' (p + i) = m (p + i)) ->
  memvcmp m' p val size = memvcmp m p val size.
Proof. exact memvcmp_local. Qed.
Print Assumptions C25_memvcmp_local.

(** Exactly when it reads what it must not: the first byte is always read, the others
    (all of them) only if the first one is [val]. *)
Theorem C25_memvcmp_reads : forall m p val size, p <> 0 -> (0 < size)%nat ->
  (memvcmp m p val size = UB <->
   m p = None \/ (m p = Some val /\ exists i, 0 <= i < Z.of_nat size /\ m (p + i) = None)).
Proof. exact memvcmp_reads. Qed.
Print Assumptions C25_memvcmp_reads.

Theorem C25_memvcmp_first_byte : forall m p val size b, m p = Some b -> b <> val ->
  memvcmp m p val size = Ok false.
Proof. exact memvcmp_first. Qed.
Print Assumptions C25_memvcmp_first_byte.

(** bytes [l] at address [p], nothing else accessible *)
Definition buffer (p : Z) (l : list Z) : mem :=
  fun a => if a <? p then None else nth_error l (Z.to_nat (a - p)).
Example C25_example : memvcmp (buffer 100 [7; 7; 7]) 100 7 3 = Ok true /\
  memvcmp (buffer 100 [7; 8; 7]) 100 7 3 = Ok false /\
  memvcmp (buffer 100 [7; 7; 7]) 100 7 0 = Ok false.
Proof. repeat split; reflexivity. Qed.
Example C25_example_hypothesis : accessible (buffer 100 [7; 8; 7]) 100 3.
Proof.
  intros i Hi. assert (i = 0 \/ i = 1 \/ i = 2) as [->|[->| ->]] by lia; discriminate.
Qed.

(** * C26 *)

Theorem C26_secure_zero_memory : forall m p size, accessible m p size ->
  exists m', secure_zero_memory m p size = Ok m' /\ range_replaced m m' p size (fun _ => Some 0).
Proof. exact secure_zero_correct. Qed.
Print Assumptions C26_secure_zero_memory.

Theorem C26_secure_zero_memory_safe : forall m p size,
  (p = 0 -> secure_zero_memory_safe m p size = Ok (-1, m)) /\
  (p <> 0 -> size = O -> secure_zero_memory_safe m p size = Ok (-2, m)) /\
  (p <> 0 -> (0 < size)%nat -> accessible m p size ->
   exists m', secure_zero_memory_safe m p size = Ok (0, m') /\
     range_replaced m m' p size (fun _ => Some 0)).
Proof. exact secure_zero_safe_correct. Qed.
Print Assumptions C26_secure_zero_memory_safe.

(** undefined exactly when the range is not all accessible *)
Theorem C26_undefined : forall m p size,
  (secure_zero_memory m p size = UB <-> ~ accessible m p size) /\
  (secure_zero_memory_safe m p size = UB <-> p <> 0 /\ ~ accessible m p size).
Proof. intros m p size. split; [apply secure_zero_undefined|apply secure_zero_safe_undefined]. Qed.
Print Assumptions C26_undefined.

Example C26_example :
  match secure_zero_memory (buffer 100 [1; 2; 3; 4; 5]) 101 3 with
  | Ok m' => map m' [99; 100; 101; 102; 103; 104; 105] =
      [None; Some 1; Some 0; Some 0; Some 0; Some 5; None]
  | _ => False
  end.
Proof. reflexivity. Qed.

(** * C27 *)

Theorem C27_memmove_runtime : forall m dst src n, accessible m dst n -> accessible m src n ->
  exists m', memmove_runtime m dst src n = Ok (dst, m') /\
    range_replaced m m' dst n (fun i => m (src + i)).
Proof. exact memmove_runtime_correct. Qed.
Print Assumptions C27_memmove_runtime.

(** Compile-time evaluation is right unless dst lies strictly inside [src, src+n). *)
Theorem C27_memmove_constant_partial : forall m dst src n,
  accessible m dst n -> accessible m src n -> ~ (src < dst < src + Z.of_nat n) ->
  exists m', memmove_constant m dst src n = Ok (dst, m') /\
    range_replaced m m' dst n (fun i => m (src + i)).
Proof. exact memmove_constant_correct. Qed.
Print Assumptions C27_memmove_constant_partial.

(** There it repeats the first dst-src bytes of the source instead. *)
Theorem C27_memmove_constant_overlap_refuted : forall m dst src n,
  accessible m src n -> accessible m dst n -> src < dst < src + Z.of_nat n ->
  exists m', memmove_constant m dst src n = Ok (dst, m') /\
    range_replaced m m' dst n (fun i => m (src + i mod (dst - src))).
Proof. exact memmove_constant_repeats. Qed.
Print Assumptions C27_memmove_constant_overlap_refuted.

(** Exactly: it is right if and only if, whenever dst lies above src, the source repeats
    itself with period dst-src. *)
Theorem C27_memmove_constant_exact_partial : forall m dst src n, accessible m dst n -> accessible m src n ->
  exists m', memmove_constant m dst src n = Ok (dst, m') /\
    (range_replaced m m' dst n (fun i => m (src + i)) <->
     (src < dst -> forall i, 0 <= i -> i + (dst - src) < Z.of_nat n ->
        m (src + i + (dst - src)) = m (src + i))).
Proof. exact memmove_constant_exact. Qed.
Print Assumptions C27_memmove_constant_exact_partial.

(** undefined exactly when one of the ranges is not all accessible; with dst = src the
    constant evaluated call touches nothing *)
Theorem C27_undefined : forall m dst src n,
  (memmove_runtime m dst src n = UB <-> ~ (accessible m dst n /\ accessible m src n)) /\
  (memmove_constant m dst src n = UB <-> dst <> src /\ ~ (accessible m dst n /\ accessible m src n)).
Proof. intros m dst src n. split; [apply memmove_runtime_undefined|apply memmove_constant_undefined]. Qed.
Print Assumptions C27_undefined.

Example C27_example_periodic :
  match memmove_constant (buffer 100 [7; 8; 7; 8; 7; 1]) 102 100 3 with
  | Ok (_, mc) => map mc [100; 101; 102; 103; 104; 105] = [Some 7; Some 8; Some 7; Some 8; Some 7; Some 1]
  | _ => False
  end.
Proof. reflexivity. Qed.

Example C27_example :
  match memmove_constant (buffer 100 [1; 2; 3; 4]) 101 100 3,
        memmove_runtime (buffer 100 [1; 2; 3; 4]) 101 100 3 with
  | Ok (_, mc), Ok (_, mr) =>
    map mc [100; 101; 102; 103] = [Some 1; Some 1; Some 1; Some 1] /\
    map mr [100; 101; 102; 103] = [Some 1; Some 1; Some 2; Some 3]
  | _, _ => False
  end.
Proof. split; reflexivity. Qed.
Example C27_example_backward :
  match memmove_constant (buffer 100 [1; 2; 3; 4]) 100 101 3 with
  | Ok (_, mc) => map mc [100; 101; 102; 103] = [Some 2; Some 3; Some 4; Some 4]
  | _ => False
  end.
Proof. reflexivity. Qed.

(** * C28 *)

Theorem C28_memcpy_runtime : forall dbg m dst src n, dst <> 0 -> src <> 0 ->
  accessible m dst n -> accessible m src n -> disjoint_ranges dst src n ->
  exists m', memcpy_runtime dbg m dst src n = Ok m' /\
    range_replaced m m' dst n (fun i => m (src + i)).
Proof. exact memcpy_runtime_correct. Qed.
Print Assumptions C28_memcpy_runtime.

(** Compile time and run time agree, except that a bool destination must only
    receive bytes 0 and 1. *)
Theorem C28_memcpy_modes_agree_partial : forall dbg to from m dst src n, dst <> 0 -> src <> 0 ->
  to <> BVoid -> from <> BVoid ->
  (to = BBool -> forall i, 0 <= i < Z.of_nat n -> m (src + i) = Some 0 \/ m (src + i) = Some 1) ->
  accessible m dst n -> accessible m src n -> disjoint_ranges dst src n ->
  exists mc mr, memcpy_constant dbg to from m dst src n = Some (Ok mc) /\
    memcpy_runtime dbg m dst src n = Ok mr /\
    range_replaced m mc dst n (fun i => m (src + i)) /\
    range_replaced m mr dst n (fun i => m (src + i)) /\ forall a, mc a = mr a.
Proof. exact memcpy_agree. Qed.
Print Assumptions C28_memcpy_modes_agree_partial.

(** With a bool destination the constant evaluated copy writes 1 for every
    nonzero byte. *)
Theorem C28_memcpy_bool_refuted : forall dbg from m dst src n, dst <> 0 -> src <> 0 ->
  from <> BVoid ->
  accessible m dst n -> accessible m src n -> disjoint_ranges dst src n ->
  exists mc mr, memcpy_constant dbg BBool from m dst src n = Some (Ok mc) /\
    memcpy_runtime dbg m dst src n = Ok mr /\
    forall i b, 0 <= i < Z.of_nat n -> m (src + i) = Some b -> b <> 0 -> b <> 1 ->
      mc (dst + i) = Some 1 /\ mr (dst + i) = Some b.
Proof.
  intros dbg from m dst src n Nd Ns Nf Ad As D.
  destruct (memcpy_constant_correct dbg BBool from m dst src n) as [mc [Ec [C1 _]]]; auto; [discriminate|].
  destruct (memcpy_runtime_correct dbg m dst src n) as [mr [Er [R1 _]]]; auto.
  exists mc, mr. split; auto. split; auto. intros i b Hi Hb N0 N1.
  rewrite C1, R1, Hb by auto. cbn. destruct (Z.eqb_spec b 0); [contradiction|]. auto.
Qed.
Print Assumptions C28_memcpy_bool_refuted.

(** the exact condition under which the modes agree *)
Theorem C28_memcpy_modes_exact_partial : forall dbg to from m dst src n, dst <> 0 -> src <> 0 ->
  to <> BVoid -> from <> BVoid ->
  accessible m dst n -> accessible m src n -> disjoint_ranges dst src n ->
  exists mc mr, memcpy_constant dbg to from m dst src n = Some (Ok mc) /\
    memcpy_runtime dbg m dst src n = Ok mr /\
    ((forall a, mc a = mr a) <->
     (to = BBool -> forall i, 0 <= i < Z.of_nat n -> m (src + i) = Some 0 \/ m (src + i) = Some 1)).
Proof. exact memcpy_modes_exact. Qed.
Print Assumptions C28_memcpy_modes_exact_partial.

(** Run time: undefined exactly when a range is not accessible or the two overlap.
    Compile time: overlapping is accepted, and the copy is right unless dst lies
    strictly inside the source. *)
Theorem C28_memcpy_undefined : forall dbg m dst src n, dst <> 0 -> src <> 0 ->
  (memcpy_runtime dbg m dst src n = UB <->
   ~ (accessible m dst n /\ accessible m src n /\ disjoint_ranges dst src n)).
Proof. exact memcpy_runtime_undefined. Qed.
Print Assumptions C28_memcpy_undefined.

Theorem C28_memcpy_constant_undefined : forall dbg to from m dst src n, dst <> 0 -> src <> 0 ->
  to <> BVoid -> from <> BVoid ->
  (memcpy_constant dbg to from m dst src n = Some UB <-> ~ (accessible m dst n /\ accessible m src n)).
Proof. exact memcpy_constant_undefined. Qed.
Print Assumptions C28_memcpy_constant_undefined.

Theorem C28_memcpy_constant_overlap_partial : forall dbg to from m dst src n, dst <> 0 -> src <> 0 ->
  to <> BVoid -> from <> BVoid -> accessible m dst n -> accessible m src n -> ~ (src < dst < src + Z.of_nat n) ->
  exists m', memcpy_constant dbg to from m dst src n = Some (Ok m') /\
    range_replaced m m' dst n (fun i => option_map (byte_cast to) (m (src + i))).
Proof. exact memcpy_constant_forward. Qed.
Print Assumptions C28_memcpy_constant_overlap_partial.

Example C28_example_overlap :
  memcpy_runtime true (buffer 100 [1; 2; 3; 4]) 100 101 3 = UB /\
  match memcpy_constant true BChar BChar (buffer 100 [1; 2; 3; 4]) 100 101 3 with
  | Some (Ok mc) => map mc [100; 101; 102; 103] = [Some 2; Some 3; Some 4; Some 4]
  | _ => False
  end /\
  memcpy_runtime true (buffer 100 [1; 2; 3; 4]) 100 102 3 = UB.
Proof. repeat split; reflexivity. Qed.

Example C28_example :
  match memcpy_constant true BChar BChar (buffer 100 [1; 2; 3; 4; 5; 6]) 103 100 2,
        memcpy_constant true BBool BChar (buffer 100 [1; 2; 3; 4; 5; 6]) 103 100 2,
        memcpy_runtime true (buffer 100 [1; 2; 3; 4; 5; 6]) 103 100 2 with
  | Some (Ok mc), Some (Ok mb), Ok mr =>
    map mc [100; 101; 102; 103; 104; 105] = [Some 1; Some 2; Some 3; Some 1; Some 2; Some 6] /\
    map mb [103; 104] = [Some 1; Some 1] /\
    map mr [100; 101; 102; 103; 104; 105] = [Some 1; Some 2; Some 3; Some 1; Some 2; Some 6]
  | _, _, _ => False
  end.
Proof. repeat split; reflexivity. Qed.

(** * C29 *)

Theorem C29_bit_cast : forall m dst src n, accessible m dst n -> accessible m src n ->
  disjoint_ranges dst src n ->
  exists l, bit_cast m dst src n n = Some (Ok l) /\ length l = n /\
    forall i, (i < n)%nat -> nth_error l i = m (src + Z.of_nat i).
Proof.
  intros m dst src n Ad As D. destruct (bit_cast_correct m dst src n Ad As D) as [l [E [E2 L]]].
  exists l. split; auto. split; auto.
  destruct (load_range_ok n m src As) as [l2 [E3 [_ H]]]. assert (l2 = l) by congruence. subst; auto.
Qed.
Print Assumptions C29_bit_cast.

(** [m2]: any later memory holding the object returned by the first cast at [src2]. *)
Theorem C29_round_trip : forall m dst src n l m2 dst2 src2 l2,
  accessible m dst n -> accessible m src n -> disjoint_ranges dst src n ->
  bit_cast m dst src n n = Some (Ok l) ->
  (forall i, (i < n)%nat -> m2 (src2 + Z.of_nat i) = nth_error l i) ->
  accessible m2 dst2 n -> disjoint_ranges dst2 src2 n ->
  bit_cast m2 dst2 src2 n n = Some (Ok l2) ->
  length l2 = n /\ forall i, (i < n)%nat -> nth_error l2 i = m (src + Z.of_nat i).
Proof.
  intros m dst src n l m2 dst2 src2 l2 Ad As D E E2 Ad2 D2 E3.
  destruct (C29_bit_cast m dst src n Ad As D) as [x [X [XL XH]]].
  assert (x = l) by congruence. subst x.
  assert (As2 : accessible m2 src2 n).
  { intros i Hi. replace i with (Z.of_nat (Z.to_nat i)) by lia. rewrite E2 by lia.
    rewrite XH by lia. apply As. lia. }
  destruct (C29_bit_cast m2 dst2 src2 n Ad2 As2 D2) as [y [Y [YL YH]]].
  assert (y = l2) by congruence. subst y. split; auto.
  intros i Hi. rewrite YH, E2 by auto. apply XH; auto.
Qed.
Print Assumptions C29_round_trip.

Theorem C29_undefined : forall m dst src n, accessible m dst n -> disjoint_ranges dst src n ->
  ~ accessible m src n -> bit_cast m dst src n n = Some UB.
Proof. exact bit_cast_undefined. Qed.
Print Assumptions C29_undefined.

Theorem C29_sizes_must_match : forall m dst src n k, n <> k -> bit_cast m dst src n k = None.
Proof.
  intros m dst src n k H. unfold bit_cast. destruct (Nat.eqb_spec n k); [contradiction|reflexivity].
Qed.
Print Assumptions C29_sizes_must_match.

Example C29_example : bit_cast (buffer 100 [1; 2; 3; 4; 0; 0; 0; 0]) 104 100 4 4 = Some (Ok [1; 2; 3; 4]).
Proof. reflexivity. Qed.

(** * C30 *)

Theorem C30_for_each_arg : forall S A O (f : S -> A -> S * O) ts s s' log,
  for_each_arg f ts s = (s', log) ->
  map fst log = ts /\ chain f s ts s' (map snd log).
Proof. exact for_each_arg_correct. Qed.
Print Assumptions C30_for_each_arg.

Theorem C30_for_each_in_tuple : forall S A O (f : S -> A -> S * O) ts s,
  exists s' log, for_each_in_tuple f ts s = Some (s', log) /\
    map fst log = ts /\ chain f s ts s' (map snd log).
Proof. exact for_each_in_tuple_correct. Qed.
Print Assumptions C30_for_each_in_tuple.

(** the calls determine the final state and the results *)
Theorem C30_run_unique : forall S A O (f : S -> A -> S * O) s ts s1 o1,
  chain f s ts s1 o1 -> forall s2 o2, chain f s ts s2 o2 -> s1 = s2 /\ o1 = o2.
Proof. exact chain_deterministic. Qed.
Print Assumptions C30_run_unique.

(** a running sum *)
Example C30_example : for_each_in_tuple (fun s t => (s + t, s)) [5; 6; 7] 0 = Some (18, [(5, 0); (6, 5); (7, 11)]).
Proof. reflexivity. Qed.
