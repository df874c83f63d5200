(** The instantiations the operations of type_list.h, value_list.h and
    cartesian_product.h cause, for arguments for which they compile.

    Only class templates of the library (and predicates of the user) are counted; each of
    those of the standard library they use (conditional, enable_if, integral_constant) adds
    a constant number of levels at the leaves.  Operations that are only folds, or recursions
    inside the standard library (count_of, is_same, contains, contains_copies,
    first_index_of_type, min_sizeof_index, value_list::at) are left out.  [cost u] is the
    instantiation of Predicate<u>. *)

Require Import List Arith Bool String.
Require Import Verif.TypeListModel Verif.DepthSpec.
Import ListNotations.
Local Open Scope string_scope.

(** type_list.h:20-33 at_impl *)
Fixpoint at_impl_tree (i : nat) : tree :=
  Inst "at_impl" (match i with 0 => [] | S i' => [at_impl_tree i'] end).
(** type_list.h:149-156 at<I>, 191-192 *)
Definition at_tree (i : nat) : tree := Inst "at" [at_impl_tree i].

(** type_list.h:35-78 at_with_predicate and at_with_predicate_impl *)
Fixpoint at_with_predicate_tree {A} (cost : A -> tree) (p : A -> bool) (i : nat) (l : list A) : tree :=
  match l with
  | [] => Inst "at_with_predicate" []
  | u :: v =>
    Inst "at_with_predicate"
      [cost u;
       Inst "at_with_predicate_impl"
         (if p u then match i with 0 => [] | S i' => [at_with_predicate_tree cost p i' v] end
          else [at_with_predicate_tree cost p i v])]
  end.
(** type_list.h:158-162 at<I, Predicate> *)
Definition at_predicate_tree {A} (cost : A -> tree) (p : A -> bool) (i : nat) (l : list A) : tree :=
  Inst "at" [at_with_predicate_tree cost p i l].

(** type_list.h:112-138 index_of_impl: the base class is the next specialisation only if the
    predicate does not hold.  value_list.h:64-77 is the same with is_same_impl as predicate. *)
Fixpoint index_of_tree {A} (cost : A -> tree) (p : A -> bool) (l : list A) : tree :=
  Inst "index_of_impl"
    match l with
    | [] => []
    | u :: v => cost u :: if p u then [] else [index_of_tree cost p v]
    end.

(** cartesian_product.h:12-40 concatenate of [k] lists *)
Fixpoint concatenate_tree (k : nat) : tree :=
  Inst "concatenate" (match k with 0 | 1 => [] | S k' => [concatenate_tree k'] end).

(** type_list.h:164-184 list_of_predicate_compliant_impl, 240-251 list_of_predicate_compliant *)
Definition filter_tree {A} (cost : A -> tree) (l : list A) : tree :=
  Inst "list_of_predicate_compliant"
    [Inst "list_of_predicate_compliant_impl"
       (match l with [] => [] | _ => map cost l ++ [concatenate_tree (List.length l)] end)].

(** value_list.h:79-104 all_of, 180-184 list_all_of; 106-116 min_impl and 118-128 max_impl
    use all_of *)
Definition all_of_tree (n : nat) : tree :=
  Inst "all_of" (match n with 0 => [] | _ => repeat (Inst "all_of_impl" []) n ++ [concatenate_tree n] end).
Definition list_all_of_tree (n : nat) : tree := Inst "list_all_of" [all_of_tree n].
Definition min_tree (n : nat) : tree := Inst "min_impl" [all_of_tree n].
Definition max_tree (n : nat) : tree := Inst "max_impl" [all_of_tree n].

(** type_list.h:292-307 sublist_impl, 340-363 sublist *)
Definition sublist_tree (first count : nat) : tree :=
  Inst "sublist"
    (match count with
     | 0 => []
     | _ => [Inst "sublist_impl" (map (fun i => at_tree (first + i)) (seq 0 count))]
     end).

(** type_list.h:368-408 exclude_at_impl, exclude_at_helper, exclude_at, of a list of [n] *)
Definition exclude_at_impl_tree (n i : nat) : tree :=
  Inst "exclude_at_impl"
    (match i with
     | 0 => []
     | _ => if (i =? n - 1)%nat then [sublist_tree 0 (n - 1)]
            else [sublist_tree 0 i; sublist_tree (i + 1) (n - i - 1); concatenate_tree 2]
     end).
Definition exclude_at_tree (n i : nat) : tree :=
  Inst "exclude_at" [Inst "exclude_at_helper" [exclude_at_impl_tree n i]].

(** type_list.h:411-440 sort_sizeof_ascending and 442-466 _descending, [index] being
    min_sizeof_index or max_sizeof_index; [sz] and [fuel] as in TypeListModel.sort_by *)
Fixpoint sort_tree (index : list ty -> option nat) (sz fuel : nat) (l : list ty) : tree :=
  Inst "sort_sizeof"
    match l with
    | [] | [_] => []
    | _ =>
      match fuel, index l with
      | S fuel', Some k =>
        [Inst "sizeof_index" []; at_tree k; exclude_at_tree (List.length l) k;
         match exclude_at sz l k with
         | Some rest => sort_tree index sz fuel' rest
         | None => Inst "sort_sizeof" []
         end;
         concatenate_tree 2]
      | _, _ => []
      end
    end.

(** cartesian_product.h:45-68 one_element_mult; [m]: elements of the second list *)
Definition one_element_mult_tree (first_pair : bool) (m : nat) : tree :=
  Inst "one_element_mult" (if first_pair then [] else repeat (concatenate_tree 2) m).
(** cartesian_product.h:83-95: one list of [n] with one of [m] elements *)
Definition cartesian_pair_tree (first_pair : bool) (n m : nat) : tree :=
  Inst "cartesian_product_impl"
    (repeat (one_element_mult_tree first_pair m) n ++ [concatenate_tree n]).
(** cartesian_product.h:70-81, for lists of the given lengths *)
Fixpoint cartesian_impl_tree (n1 n2 : nat) (rest : list nat) : tree :=
  match rest with
  | [] => cartesian_pair_tree true n1 n2
  | n3 :: rest' =>
    Inst "cartesian_product_impl"
      [cartesian_impl_tree n2 n3 rest';
       cartesian_pair_tree false n1 (fold_right Nat.mul 1 (n2 :: n3 :: rest'))]
  end.
(** cartesian_product.h:98-114 *)
Definition cartesian_tree (n1 n2 : nat) (rest : list nat) : tree :=
  Inst "cartesian_product" [cartesian_impl_tree n1 n2 rest].
