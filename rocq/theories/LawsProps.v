(** Property C147: the list operations combine by the usual laws. *)

Require Import List Arith Bool Lia ZArith.
Require Import Verif.TypeListModel Verif.LawsProofs.
Import ListNotations.
Local Open Scope nat_scope.

Definition t_char := TAtom 1 1.
Definition t_int := TAtom 2 4.
Definition t_float := TAtom 3 4.
Definition t_long := TAtom 4 8.

(** C147: a list cut in two by sublist and joined by concatenate is the list again, wherever both
    parts compile: everywhere but behind the last type of a list that is not empty. *)
Theorem C147_cut_exact_partial : forall sz l k, length l < sz -> k <= length l ->
  ((exists a b, sublist sz l 0 k = Some a /\ sublist sz l k (length l - k) = Some b) <-> (k < length l \/ l = [])) /\
  (forall a b, sublist sz l 0 k = Some a -> sublist sz l k (length l - k) = Some b ->
     concatenate [TTypes a; TTypes b] = Some (TTypes l)).
Proof. exact cut_exactly. Qed.
Print Assumptions C147_cut_exact_partial.

(** so no list that is not empty can be cut behind its last type *)
Theorem C147_cut_at_end_refuted : forall sz l, length l < sz -> l <> [] -> sublist sz l (length l) 0 = None.
Proof. exact cut_at_end. Qed.
Print Assumptions C147_cut_at_end_refuted.

(** a window of a window is a window *)
Theorem C147_windows : forall sz l f n m f' n' r, length l < sz -> f < sz -> n < sz -> f' < sz -> n' < sz ->
  sublist sz l f n = Some m -> sublist sz m f' n' = Some r -> sublist sz l (f + f') n' = Some r.
Proof. exact window_of_window. Qed.
Print Assumptions C147_windows.

(** exclude_at joins what is before and what is behind, and two types can be taken out in either order *)
Theorem C147_exclude_joins : forall sz l i a b, length l < sz -> i < length l ->
  sublist sz l 0 i = Some a -> sublist sz l (i + 1) (length l - i - 1) = Some b ->
  exists r, exclude_at sz l i = Some r /\ concatenate [TTypes a; TTypes b] = Some (TTypes r).
Proof. exact exclude_joins. Qed.
Print Assumptions C147_exclude_joins.

Theorem C147_exclude_order : forall sz l i j li lj, length l < sz -> i < j ->
  exclude_at sz l i = Some li -> exclude_at sz l j = Some lj ->
  exclude_at sz li (j - 1) = exclude_at sz lj i /\ exclude_at sz lj i <> None.
Proof. exact exclude_swap. Qed.
Print Assumptions C147_exclude_order.

(** picking types and counting them in a joined list is picking and counting in its parts; picking
    twice is picking by both predicates; at<I, P> is at<I> of the types picked *)
Theorem C147_picking : forall p q a b,
  (exists pa pb, list_of_predicate_compliant p a = Some (TTypes pa) /\ list_of_predicate_compliant p b = Some (TTypes pb) /\
     list_of_predicate_compliant p (a ++ b) = concatenate [TTypes pa; TTypes pb] /\
     list_of_predicate_compliant p pa = Some (TTypes pa) /\
     list_of_predicate_compliant q pa = list_of_predicate_compliant (fun t => p t && q t) a /\
     count_of_predicate_compliant p a = length pa /\
     (forall i, at_with_predicate p i a = at_impl i pa)) /\
  count_of_predicate_compliant p (a ++ b) = count_of_predicate_compliant p a + count_of_predicate_compliant p b /\
  contains_predicate_compliant p (a ++ b) = contains_predicate_compliant p a || contains_predicate_compliant p b /\
  index_of p (a ++ b) = (if contains_predicate_compliant p a then index_of p a else length a + index_of p b) /\
  (forall t, count_of t (a ++ b) = count_of t a + count_of t b) /\
  (forall t, first_index_of_type t (a ++ b) =
     (if count_of t a =? 0 then length a + first_index_of_type t b else first_index_of_type t a)).
Proof. exact picking. Qed.
Print Assumptions C147_picking.

(** sorting changes no size and no count; sorting twice is sorting once, whatever the first order
    was; types may be picked before or after; the first type of the sorted list is the one at
    min_sizeof_index (max_sizeof_index) of the list *)
Theorem C147_sorting : forall sz l a d, length l < sz -> sort_sizeof_ascending sz l = Some a -> sort_sizeof_descending sz l = Some d ->
  length a = length l /\ length d = length l /\
  sort_sizeof_ascending sz a = Some a /\ sort_sizeof_descending sz d = Some d /\
  sort_sizeof_ascending sz d = Some a /\ sort_sizeof_descending sz a = Some d /\
  (forall p pl pa pd, list_of_predicate_compliant p l = Some (TTypes pl) ->
     list_of_predicate_compliant p a = Some (TTypes pa) -> list_of_predicate_compliant p d = Some (TTypes pd) ->
     sort_sizeof_ascending sz pl = Some pa /\ sort_sizeof_descending sz pl = Some pd) /\
  (forall t, count_of t a = count_of t l /\ count_of t d = count_of t l) /\
  (contains_copies a = contains_copies l /\ contains_copies d = contains_copies l) /\
  (is_same a = is_same l /\ is_same d = is_same l) /\
  (l <> [] -> exists i j, min_sizeof_index l = Some i /\ max_sizeof_index l = Some j /\
     at_impl 0 a = at_impl i l /\ at_impl 0 d = at_impl j l).
Proof. exact sorting. Qed.
Print Assumptions C147_sorting.

(** the parts of a list may be sorted before they are joined and sorted *)
Theorem C147_sorting_parts : forall sz a b a' b', length (a ++ b) < sz ->
  sort_sizeof_ascending sz a = Some a' -> sort_sizeof_ascending sz b = Some b' ->
  sort_sizeof_ascending sz (a ++ b) = sort_sizeof_ascending sz (a' ++ b').
Proof. exact sorting_parts. Qed.
Print Assumptions C147_sorting_parts.

Theorem C147_sorting_parts_down : forall sz a b a' b', length (a ++ b) < sz ->
  sort_sizeof_descending sz a = Some a' -> sort_sizeof_descending sz b = Some b' ->
  sort_sizeof_descending sz (a ++ b) = sort_sizeof_descending sz (a' ++ b').
Proof. exact sorting_parts_down. Qed.
Print Assumptions C147_sorting_parts_down.

(** the product of a joined list is the products of its parts, joined *)
Theorem C147_products : forall (a b : list ty) ls, a <> [] -> b <> [] -> ls <> [] -> (forall l, In l (removelast ls) -> l <> []) ->
  exists x y, cartesian_product (map TTypes (a :: ls)) = Some x /\ cartesian_product (map TTypes (b :: ls)) = Some y /\
    cartesian_product (map TTypes ((a ++ b) :: ls)) = concatenate [x; y].
Proof. exact product_join. Qed.
Print Assumptions C147_products.

(** values of a type, their minimum and maximum in a joined value_list *)
Theorem C147_values : forall t a b,
  (exists va vb, v_list_all_of t a = Some (TValues va) /\ v_list_all_of t b = Some (TValues vb) /\
     v_list_all_of t (a ++ b) = concatenate [TValues va; TValues vb] /\ v_list_all_of t va = Some (TValues va)) /\
  (forall m n, v_min t a = Some m -> v_min t b = Some n -> v_min t (a ++ b) = Some (Z.min m n)) /\
  (forall m n, v_max t a = Some m -> v_max t b = Some n -> v_max t (a ++ b) = Some (Z.max m n)) /\
  (v_min t a = None -> v_min t (a ++ b) = v_min t b) /\ (v_min t b = None -> v_min t (a ++ b) = v_min t a) /\
  (v_max t a = None -> v_max t (a ++ b) = v_max t b) /\ (v_max t b = None -> v_max t (a ++ b) = v_max t a).
Proof. exact values_join. Qed.
Print Assumptions C147_values.

(** a list cut, picked from and sorted; the descending order is not the ascending one backwards *)
Example C147_instance :
  sublist 100 [t_long; t_int; t_char; t_float] 0 1 = Some [t_long] /\
  sublist 100 [t_long; t_int; t_char; t_float] 1 3 = Some [t_int; t_char; t_float] /\
  sublist 100 [t_int; t_char; t_float] 1 2 = Some [t_char; t_float] /\
  exclude_at 100 [t_long; t_int; t_char; t_float] 1 = Some [t_long; t_char; t_float] /\
  exclude_at 100 [t_long; t_int; t_char; t_float] 3 = Some [t_long; t_int; t_char] /\
  sort_sizeof_ascending 100 [t_long; t_int; t_char; t_float] = Some [t_char; t_int; t_float; t_long] /\
  sort_sizeof_descending 100 [t_long; t_int; t_char; t_float] = Some [t_long; t_int; t_float; t_char] /\
  cartesian_product [TTypes [t_int; t_char]; TTypes [t_long]] = Some (TTypes [TTypes [t_int; t_long]; TTypes [t_char; t_long]]) /\
  v_min 2 [Val 2 7; Val 1 0; Val 2 (-3)] = Some (-3)%Z /\ v_min 2 [Val 1 0] = None.
Proof. repeat split. Qed.
