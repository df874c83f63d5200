(** Property C151: laws by which the memory and array functions combine. *)

Require Import ZArith List Bool Lia.
Require Import Verif.Outcome Verif.Machine Verif.MemModel Verif.MemSpec Verif.StoreProofs.
Import ListNotations.
Open Scope Z_scope.

(** Memory that was zeroed compares equal to zero. *)
Theorem C151_zero_then_compare : forall m p size, p <> 0 -> (0 < size)%nat -> accessible m p size ->
  exists m', secure_zero_memory m p size = Ok m' /\ memvcmp m' p 0 size = Ok true.
Proof. exact zero_then_compare. Qed.
Print Assumptions C151_zero_then_compare.

(** Zeroing twice is zeroing once. *)
Theorem C151_zero_twice : forall m p size, accessible m p size ->
  exists m1 m2, secure_zero_memory m p size = Ok m1 /\ secure_zero_memory m1 p size = Ok m2 /\
    forall a, m2 a = m1 a.
Proof. exact zero_twice. Qed.
Print Assumptions C151_zero_twice.

(** Zeroing a range in two pieces is zeroing it at once. *)
Theorem C151_zero_pieces : forall m p a b, accessible m p (a + b) ->
  exists m1 m2 m3, secure_zero_memory m p a = Ok m1 /\
    secure_zero_memory m1 (p + Z.of_nat a) b = Ok m2 /\
    secure_zero_memory m p (a + b) = Ok m3 /\ forall x, m2 x = m3 x.
Proof. exact zero_pieces. Qed.
Print Assumptions C151_zero_pieces.

(** A range holds one value throughout exactly when both of its pieces do. *)
Theorem C151_compare_pieces : forall m p v a b, p <> 0 -> p + Z.of_nat a <> 0 -> (0 < a)%nat -> (0 < b)%nat ->
  accessible m p (a + b) ->
  exists x y z, memvcmp m p v a = Ok x /\ memvcmp m (p + Z.of_nat a) v b = Ok y /\
    memvcmp m p v (a + b) = Ok z /\ z = x && y.
Proof. exact compare_pieces. Qed.
Print Assumptions C151_compare_pieces.

(** No range compares equal to two values. *)
Theorem C151_compare_one_value : forall m p v w size, accessible m p size ->
  memvcmp m p v size = Ok true -> memvcmp m p w size = Ok true -> v = w.
Proof. exact compare_one_value. Qed.
Print Assumptions C151_compare_one_value.

(** Moving a range onto itself changes nothing. *)
Theorem C151_move_same : forall m p n, accessible m p n ->
  exists m', memmove_runtime m p p n = Ok (p, m') /\ forall a, m' a = m a.
Proof. exact move_same. Qed.
Print Assumptions C151_move_same.

(** Moving a range away and back restores every byte of it, however the two places overlap,
    and touches nothing else on the way back. *)
Theorem C151_move_back : forall m p q n, accessible m p n -> accessible m q n ->
  exists m1 m2, memmove_runtime m q p n = Ok (q, m1) /\ memmove_runtime m1 p q n = Ok (p, m2) /\
    (forall i, 0 <= i < Z.of_nat n -> m2 (p + i) = m (p + i)) /\
    (forall a, (a < p \/ p + Z.of_nat n <= a) -> m2 a = m1 a).
Proof. exact move_back. Qed.
Print Assumptions C151_move_back.

(** Moving in two steps arrives at the same bytes as moving in one, even when the middle
    place overlaps the others. *)
Theorem C151_move_twice : forall m p q r n, accessible m p n -> accessible m q n -> accessible m r n ->
  exists m1 m2 m3, memmove_runtime m q p n = Ok (q, m1) /\ memmove_runtime m1 r q n = Ok (r, m2) /\
    memmove_runtime m r p n = Ok (r, m3) /\
    (forall i, 0 <= i < Z.of_nat n -> m2 (r + i) = m3 (r + i)).
Proof. exact move_twice. Qed.
Print Assumptions C151_move_twice.

(** Wherever memcpy is defined memmove does the same. *)
Theorem C151_move_copy : forall dbg m dst src n m', dst <> 0 -> src <> 0 ->
  memcpy_runtime dbg m dst src n = Ok m' ->
  exists m2, memmove_runtime m dst src n = Ok (dst, m2) /\ forall a, m2 a = m' a.
Proof. exact move_copy. Qed.
Print Assumptions C151_move_copy.

(** Copying twice is copying once. *)
Theorem C151_copy_twice : forall dbg m dst src n, dst <> 0 -> src <> 0 ->
  accessible m dst n -> accessible m src n -> disjoint_ranges dst src n ->
  exists m1 m2, memcpy_runtime dbg m dst src n = Ok m1 /\ memcpy_runtime dbg m1 dst src n = Ok m2 /\
    forall a, m2 a = m1 a.
Proof. exact copy_twice. Qed.
Print Assumptions C151_copy_twice.

(** Two copies neither of which writes what the other reads or writes can be done in
    either order. *)
Theorem C151_copies_commute : forall dbg m d1 s1 d2 s2 n1 n2,
  d1 <> 0 -> s1 <> 0 -> d2 <> 0 -> s2 <> 0 ->
  accessible m d1 n1 -> accessible m s1 n1 -> accessible m d2 n2 -> accessible m s2 n2 ->
  disjoint_ranges d1 s1 n1 -> disjoint_ranges d2 s2 n2 ->
  (d1 + Z.of_nat n1 <= d2 \/ d2 + Z.of_nat n2 <= d1) ->
  (d1 + Z.of_nat n1 <= s2 \/ s2 + Z.of_nat n2 <= d1) ->
  (d2 + Z.of_nat n2 <= s1 \/ s1 + Z.of_nat n1 <= d2) ->
  exists a b c d,
    memcpy_runtime dbg m d1 s1 n1 = Ok a /\ memcpy_runtime dbg a d2 s2 n2 = Ok b /\
    memcpy_runtime dbg m d2 s2 n2 = Ok c /\ memcpy_runtime dbg c d1 s1 n1 = Ok d /\
    forall x, b x = d x.
Proof. exact copies_commute. Qed.
Print Assumptions C151_copies_commute.

(** An object and its copy made by memcpy cast to the same bytes. *)
Theorem C151_cast_copy : forall dbg m dst src n tmp1 tmp2, dst <> 0 -> src <> 0 ->
  accessible m dst n -> accessible m src n -> disjoint_ranges dst src n ->
  accessible m tmp1 n -> disjoint_ranges tmp1 src n ->
  exists m' l, memcpy_runtime dbg m dst src n = Ok m' /\
    bit_cast m tmp1 src n n = Some (Ok l) /\
    (accessible m' tmp2 n -> disjoint_ranges tmp2 dst n -> bit_cast m' tmp2 dst n n = Some (Ok l)).
Proof. exact cast_copy. Qed.
Print Assumptions C151_cast_copy.

(** Joining arrays is associative, and joining three at once is the same. *)
Theorem C151_arrays_associative : forall T (a b c : list T),
  match concatenate_arrays T [a; b], concatenate_arrays T [b; c] with
  | Some ab, Some bc =>
    concatenate_arrays T [ab; c] = concatenate_arrays T [a; bc] /\
    concatenate_arrays T [ab; c] = concatenate_arrays T [a; b; c]
  | _, _ => False
  end.
Proof. exact cat_assoc. Qed.
Print Assumptions C151_arrays_associative.

(** An empty array changes nothing. *)
Theorem C151_arrays_empty : forall T (a : list T),
  concatenate_arrays T [a; []] = Some a /\ concatenate_arrays T [[]; a] = Some a /\
  concatenate_arrays T [a] = Some a.
Proof. exact cat_empty. Qed.
Print Assumptions C151_arrays_empty.

(** The arrays made from the two parts of a string view join to the array of the whole. *)
Theorem C151_arrays_views : forall T dbg k n (sv : list T), (k <= n)%nat -> (n <= length sv)%nat ->
  exists a b c,
    make_array_sv T (fun x => x) dbg k sv = Ok a /\
    make_array_sv T (fun x => x) dbg (n - k) (skipn k sv) = Ok b /\
    make_array_sv T (fun x => x) dbg n sv = Ok c /\
    concatenate_arrays T [a; b] = Some c.
Proof. exact cat_views. Qed.
Print Assumptions C151_arrays_views.

(** six bytes at address 100, nothing else accessible *)
Definition six (l : list Z) : mem := fun a => if a <? 100 then None else nth_error l (Z.to_nat (a - 100)).

(** Bytes 1..4 moved up by two over themselves and back: the four bytes are as they were,
    the two above were overwritten on the way up.  Zeroed, they compare equal to zero. *)
Example C151_instance :
  accessible (six [1; 2; 3; 4; 5; 6]) 100 4 /\ accessible (six [1; 2; 3; 4; 5; 6]) 102 4 /\
  match memmove_runtime (six [1; 2; 3; 4; 5; 6]) 102 100 4 with
  | Ok (_, m1) =>
    map m1 [100; 101; 102; 103; 104; 105] = [Some 1; Some 2; Some 1; Some 2; Some 3; Some 4] /\
    match memmove_runtime m1 100 102 4 with
    | Ok (_, m2) => map m2 [100; 101; 102; 103; 104; 105] = [Some 1; Some 2; Some 3; Some 4; Some 3; Some 4]
    | _ => False
    end
  | _ => False
  end /\
  match secure_zero_memory (six [1; 2; 3; 4; 5; 6]) 101 3 with
  | Ok m1 => memvcmp m1 101 0 3 = Ok true /\ memvcmp m1 101 0 4 = Ok false /\ memvcmp m1 100 0 4 = Ok false
  | _ => False
  end /\
  disjoint_ranges 103 100 3 /\
  bit_cast (six [1; 2; 3; 4; 5; 6]) 103 100 3 3 = Some (Ok [1; 2; 3]) /\
  concatenate_arrays Z [[1; 2]; [3]; []] = Some [1; 2; 3].
Proof.
  split; [|split].
  - intros i Hi. assert (i = 0 \/ i = 1 \/ i = 2 \/ i = 3) as [->|[->|[->| ->]]] by lia; discriminate.
  - intros i Hi. assert (i = 0 \/ i = 1 \/ i = 2 \/ i = 3) as [->|[->|[->| ->]]] by lia; discriminate.
  - split; [vm_compute; auto|]. split; [vm_compute; auto|]. split; [unfold disjoint_ranges; lia|].
    vm_compute; auto.
Qed.
