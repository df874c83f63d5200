(** C132: how long the lists may be before instantiations nest too deeply. *)

Require Import List Arith Bool String.
Require Import Verif.TypeListModel Verif.DepthSpec Verif.DepthModel Verif.DepthProofs.
Import ListNotations.

(** The claim fails for at<I, Predicate>: with a list of 512 times the same type, for which
    it has an answer, instantiations nest more than 1024 levels deep. *)
Theorem C132_refuted : forall t : ty, exists i l,
  List.length l = 512 /\
  at_with_predicate (ty_eqb t) i l = Some t /\
  ~ accepted (at_predicate_tree (fun _ => Inst "predicate"%string []) (ty_eqb t) i l).
Proof. exact at_predicate_too_deep. Qed.
Print Assumptions C132_refuted.

(** It can be used exactly as long as the element found is one of the first 511. *)
Theorem C132_predicate_exact_partial : forall (A : Type) (cost : A -> tree) p a u b,
  plain cost -> p u = true ->
  (accepted (at_predicate_tree cost p (List.length (filter p a)) (a ++ u :: b)) <-> List.length a <= 510).
Proof. exact @at_predicate_limit. Qed.
Print Assumptions C132_predicate_exact_partial.

(** Every other operation, for lists of up to 1000 elements. *)
Theorem C132_partial : forall (A : Type) (cost : A -> tree) p (l : list A) (ts : list ty) index sz i first count,
  plain cost -> index = min_sizeof_index \/ index = max_sizeof_index ->
  List.length l <= 1000 -> List.length ts <= 1000 -> List.length ts < sz ->
  i < 1000 -> first + count <= 1000 ->
  accepted (at_tree i) /\ accepted (index_of_tree cost p l) /\ accepted (concatenate_tree (List.length l)) /\
  accepted (filter_tree cost l) /\ accepted (list_all_of_tree (List.length l)) /\ accepted (min_tree (List.length l)) /\
  accepted (max_tree (List.length l)) /\ accepted (sublist_tree first count) /\
  (i < List.length l -> accepted (exclude_at_tree (List.length l) i)) /\
  accepted (sort_tree index sz (List.length ts) ts).
Proof. exact @operations_within_limit. Qed.
Print Assumptions C132_partial.

Theorem C132_product_partial : forall n1 n2 rest, 0 < n1 -> 0 < n2 -> Forall (fun n => 0 < n) rest ->
  Forall (fun n => n <= 1000) (n1 :: n2 :: rest) -> List.length rest <= 20 -> accepted (cartesian_tree n1 n2 rest).
Proof. exact products_within_limit. Qed.
Print Assumptions C132_product_partial.

(** How deep each goes, exactly. *)
Theorem C132_depths_partial : forall (A : Type) (cost : A -> tree) (p : A -> bool) a u b first count n i,
  plain cost -> p u = true -> 0 < count -> i < n ->
  depth (at_tree i) = i + 2 /\
  depth (at_predicate_tree cost p (List.length (filter p a)) (a ++ u :: b)) = 2 * List.length a + 3 /\
  (existsb p a = false -> depth (index_of_tree cost p (a ++ u :: b)) = List.length a + 2) /\
  (existsb p a = false -> depth (index_of_tree cost p a) = List.length a + 1) /\
  depth (concatenate_tree n) = n /\
  depth (filter_tree cost (a ++ u :: b)) = List.length (a ++ u :: b) + 2 /\
  depth (list_all_of_tree n) = n + 2 /\ depth (min_tree n) = n + 2 /\ depth (max_tree n) = n + 2 /\
  depth (sublist_tree first count) = first + count + 3 /\
  depth (exclude_at_tree n i) = (if i =? 0 then 3 else if i =? n - 1 then n + 5 else n + 6).
Proof. exact @all_depths. Qed.
Print Assumptions C132_depths_partial.

(** A sort nests at least as deep as the list is long and at most seven levels more; a
    product at most as deep as the longest list and the number of lists together. *)
Theorem C132_sort_partial : forall index sz l, index = min_sizeof_index \/ index = max_sizeof_index ->
  List.length l < sz ->
  List.length l <= depth (sort_tree index sz (List.length l) l) <= List.length l + 7.
Proof. exact sort_depths. Qed.
Print Assumptions C132_sort_partial.

Theorem C132_product_depth_partial : forall n1 n2 rest, 0 < n1 -> 0 < n2 -> Forall (fun n => 0 < n) rest ->
  depth (cartesian_tree n1 n2 rest) <= fold_right max 3 (n1 :: n2 :: rest) + List.length (n1 :: n2 :: rest).
Proof. exact product_depths. Qed.
Print Assumptions C132_product_depth_partial.

Example C132_instance :
  let l := [TAtom 1 4; TAtom 2 8; TAtom 1 4; TAtom 3 1] in
  let p := ty_eqb (TAtom 1 4) in
  let cost := fun _ : ty => Inst "is_same"%string [] in
  plain cost /\
  depth (at_predicate_tree cost p 1 l) = 7 /\
  at_with_predicate p 1 l = Some (TAtom 1 4) /\
  depth (index_of_tree cost (ty_eqb (TAtom 3 1)) l) = 5 /\
  sort_sizeof_ascending 64 l = Some [TAtom 3 1; TAtom 1 4; TAtom 1 4; TAtom 2 8] /\
  depth (sort_tree min_sizeof_index 64 4 l) = 10 /\
  depth (cartesian_tree 2 3 [2]) = 6.
Proof. repeat split; vm_compute; reflexivity. Qed.
