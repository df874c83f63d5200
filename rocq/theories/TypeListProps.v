(** Properties C31-C42, C103, C115: type_list.h, value_list.h, cartesian_product.h. *)

Require Import List Arith ZArith Permutation Sorted Lia.
Require Import Verif.TypeListModel Verif.ListSpec Verif.TypeListView Verif.TypeListProofs Verif.TypeListMoreProofs.
Import ListNotations.

(** Sample types: char, short, int, long, double and a value type. *)
Definition ty_char := TAtom 0 1.
Definition ty_short := TAtom 1 2.
Definition ty_int := TAtom 2 4.
Definition ty_long := TAtom 3 8.
Definition ty_double := TAtom 4 8.

(** C31 *)
Theorem C31_at_is_positional : forall l i,
  (forall t, at_impl i l = Some t <-> nth_error l i = Some t) /\
  (at_impl i l = None <-> length l <= i).
Proof. exact at_spec. Qed.
Print Assumptions C31_at_is_positional.

(** [t] is the i-th compliant type: it stands at some position with exactly [i]
    compliant types before it. *)
Theorem C31_at_with_predicate : forall p (P : ty -> Prop) l i,
  (forall x, p x = true <-> P x) ->
  (forall t, at_with_predicate p i l = Some t <->
     exists k, nth_error l k = Some t /\ P t /\ occurrences P (firstn k l) i) /\
  (at_with_predicate p i l = None <-> exists n, occurrences P l n /\ n <= i).
Proof. exact at_pred_spec. Qed.
Print Assumptions C31_at_with_predicate.

Example C31_instance :
  at_impl 2 [ty_char; ty_int; ty_long] = Some ty_long /\
  at_impl 3 [ty_char; ty_int; ty_long] = None /\
  at_with_predicate (fun t => sizeof t =? 8) 1 [ty_long; ty_int; ty_double] = Some ty_double /\
  (forall x, (sizeof x =? 8) = true <-> sizeof x = 8).
Proof. repeat split; intros; apply Nat.eqb_eq; auto. Qed.

(** C32 *)
Theorem C32_first_match : forall p (P : ty -> Prop) t l,
  (forall x, p x = true <-> P x) ->
  first_position P l (index_of p l) /\
  (index_of p l = length l <-> forall x, In x l -> ~ P x) /\
  first_position (fun x => x = t) l (first_index_of_type t l) /\
  (first_index_of_type t l = length l <-> ~ In t l).
Proof. exact index_queries. Qed.
Print Assumptions C32_first_match.

Example C32_instance :
  first_index_of_type ty_int [ty_char; ty_int; ty_int] = 1 /\
  first_index_of_type ty_long [ty_char; ty_int; ty_int] = 3.
Proof. split; reflexivity. Qed.

(** C33 *)
Theorem C33_counting_queries : forall p (P : ty -> Prop) t l,
  (forall x, p x = true <-> P x) ->
  occurrences (fun x => x = t) l (count_of t l) /\
  occurrences P l (count_of_predicate_compliant p l) /\
  (contains_predicate_compliant p l = true <-> exists x, In x l /\ P x) /\
  (contains_copies l = true <-> ~ NoDup l) /\
  (is_same l = true <-> forall a b, In a l -> In b l -> a = b).
Proof. exact count_queries. Qed.
Print Assumptions C33_counting_queries.

Theorem C33_contains_is_membership : forall l t,
  (forall us, t <> TTypes us) -> (contains l t = true <-> In t l).
Proof. exact contains_not_list. Qed.
Print Assumptions C33_contains_is_membership.

Theorem C33_contains_list_is_inclusion : forall l us,
  (forall u ws, In u us -> u <> TTypes ws) ->
  (contains l (TTypes us) = true <-> incl us l).
Proof. exact contains_atoms. Qed.
Print Assumptions C33_contains_list_is_inclusion.

(** in general contains_v<T> asks for every type written in T, at any depth *)
Theorem C33_contains_exact_partial : forall l t, contains l t = true <-> forall x, leaf x t -> In x l.
Proof. exact contains_leaves. Qed.
Print Assumptions C33_contains_exact_partial.

(** A type_list that is an element of the list is not found by contains_v,
    because a type_list argument is read as a set of types. *)
Theorem C33_contains_nested_refuted : exists l t,
  In t l /\ contains l t = false.
Proof. exists [TTypes [ty_int]], (TTypes [ty_int]). split; [left; reflexivity|reflexivity]. Qed.
Print Assumptions C33_contains_nested_refuted.

Example C33_instance :
  count_of ty_int [ty_int; ty_char; ty_int] = 2 /\
  contains [ty_int; ty_char] (TTypes [ty_char; ty_int]) = true /\
  contains [ty_int; ty_char] (TTypes [ty_char; TTypes [ty_int; TTypes []]]) = true /\
  leaf ty_int (TTypes [ty_char; TTypes [ty_int; TTypes []]]) /\
  contains_copies [ty_int; ty_char; ty_int] = true.
Proof.
  repeat split. apply leaf_inside with (TTypes [ty_int; TTypes []]); [right; left; reflexivity|].
  apply leaf_inside with ty_int; [left; reflexivity|]. constructor. discriminate.
Qed.

(** C34 *)
Theorem C34_predicate_compliant_is_filter : forall p l,
  list_of_predicate_compliant p l = Some (TTypes (filter p l)).
Proof. exact list_of_pred_filter. Qed.
Print Assumptions C34_predicate_compliant_is_filter.

Example C34_instance :
  list_of_predicate_compliant (fun t => sizeof t =? 8) [ty_long; ty_int; ty_double; ty_long]
  = Some (TTypes [ty_long; ty_double; ty_long]).
Proof. reflexivity. Qed.

(** C35: [sz] is SIZE_MAX + 1 *)
Theorem C35_sublist_window : forall sz l first count,
  length l < sz -> first < sz -> count < sz ->
  (forall r, sublist sz l first count = Some r <->
     r = firstn count (skipn first l) /\
     ((0 < count /\ first + count <= length l) \/
      (count = 0 /\ (first < length l \/ (l = [] /\ first = 0))))).
Proof. exact sublist_full. Qed.
Print Assumptions C35_sublist_window.

Example C35_instance :
  sublist 100 [ty_char; ty_short; ty_int; ty_long] 1 2 = Some [ty_short; ty_int] /\
  sublist 100 [ty_char; ty_short; ty_int; ty_long] 3 2 = None /\
  sublist 100 [ty_char; ty_short] 99 2 = None.
Proof. repeat split. Qed.

(** C36 *)
Theorem C36_exclude_at : forall sz l i, length l < sz ->
  (forall r, exclude_at sz l i = Some r <->
     exists a t b, l = a ++ t :: b /\ length a = i /\ r = a ++ b) /\
  (exclude_at sz l i = None <-> length l <= i).
Proof. exact exclude_full. Qed.
Print Assumptions C36_exclude_at.

Example C36_instance :
  exclude_at 100 [ty_char; ty_short; ty_int] 0 = Some [ty_short; ty_int] /\
  exclude_at 100 [ty_char; ty_short; ty_int] 1 = Some [ty_char; ty_int] /\
  exclude_at 100 [ty_char; ty_short; ty_int] 2 = Some [ty_char; ty_short].
Proof. repeat split. Qed.

(** C37 *)
Theorem C37_concatenate :
  (forall ls : list (list ty), ls <> [] ->
     concatenate (map TTypes ls) = Some (TTypes (concat ls))) /\
  (forall ls : list (list val), ls <> [] ->
     concatenate (map TValues ls) = Some (TValues (concat ls))) /\
  (forall ts, concatenate ts <> None <->
     ts <> [] /\ ((exists ls, ts = map TTypes ls) \/ (exists ls, ts = map TValues ls))).
Proof. exact concatenate_full. Qed.
Print Assumptions C37_concatenate.

Theorem C37_concatenate_associative : forall a b c ab bc,
  concatenate [a; b] = Some ab -> concatenate [b; c] = Some bc ->
  concatenate [ab; c] = concatenate [a; bc] /\ concatenate [a; b; c] = concatenate [ab; c].
Proof. exact concatenate_assoc. Qed.
Print Assumptions C37_concatenate_associative.

Theorem C37_concatenate_neutral : forall l v,
  concatenate [TTypes []; TTypes l] = Some (TTypes l) /\
  concatenate [TTypes l; TTypes []] = Some (TTypes l) /\
  concatenate [TValues []; TValues v] = Some (TValues v) /\
  concatenate [TValues v; TValues []] = Some (TValues v).
Proof. exact concatenate_neutral. Qed.
Print Assumptions C37_concatenate_neutral.

Example C37_instance :
  concatenate [TTypes [ty_int]; TTypes []; TTypes [ty_char; ty_int]]
  = Some (TTypes [ty_int; ty_char; ty_int]) /\
  concatenate [TTypes [ty_int]; TTypes []] = Some (TTypes [ty_int]) /\
  concatenate [TTypes []; TTypes [ty_char; ty_int]] = Some (TTypes [ty_char; ty_int]).
Proof. repeat split. Qed.

(** C38 *)
Theorem C38_extreme_index : forall l,
  (l = [] <-> min_sizeof_index l = None) /\ (l = [] <-> max_sizeof_index l = None) /\
  (forall k, min_sizeof_index l = Some k ->
     exists t, nth_error l k = Some t /\
       (forall u, In u l -> sizeof t <= sizeof u) /\
       (forall i u, i < k -> nth_error l i = Some u -> sizeof t < sizeof u)) /\
  (forall k, max_sizeof_index l = Some k ->
     exists t, nth_error l k = Some t /\
       (forall u, In u l -> sizeof u <= sizeof t) /\
       (forall i u, i < k -> nth_error l i = Some u -> sizeof u < sizeof t)).
Proof. exact extreme_index_full. Qed.
Print Assumptions C38_extreme_index.

Example C38_instance :
  min_sizeof_index [ty_int; ty_short; ty_long; ty_short] = Some 1 /\
  max_sizeof_index [ty_int; ty_short; ty_long; ty_double] = Some 2.
Proof. split; reflexivity. Qed.

(** C39 *)
Theorem C39_sort_is_stable : forall sz l, length l < sz ->
  (exists r, sort_sizeof_ascending sz l = Some r /\ stable_sort sizeof le l r) /\
  (exists r, sort_sizeof_descending sz l = Some r /\ stable_sort sizeof ge l r).
Proof. exact sort_full. Qed.
Print Assumptions C39_sort_is_stable.

(** The specification pins the result down. *)
Theorem C39_stable_sort_unique : forall (A : Type) (key : A -> nat) l r1 r2,
  (stable_sort key le l r1 -> stable_sort key le l r2 -> r1 = r2) /\
  (stable_sort key ge l r1 -> stable_sort key ge l r2 -> r1 = r2).
Proof. exact stable_sorts_unique. Qed.
Print Assumptions C39_stable_sort_unique.

Example C39_instance :
  sort_sizeof_ascending 100 [ty_double; ty_int; ty_long; ty_char]
  = Some [ty_char; ty_int; ty_double; ty_long] /\
  sort_sizeof_descending 100 [ty_int; ty_double; ty_char; ty_long]
  = Some [ty_double; ty_long; ty_int; ty_char].
Proof. split; reflexivity. Qed.

(** C40 *)
Theorem C40_value_queries : forall v l,
  first_position (fun x => x = v) l (v_index_of v l) /\
  (v_index_of v l = length l <-> ~ In v l) /\
  occurrences (fun x => x = v) l (v_count_of v l) /\
  (v_contains v l = true <-> In v l) /\
  (v_contains_copies l = true <-> ~ NoDup l) /\
  (v_is_all_same l = true <-> forall a b, In a l -> In b l -> a = b).
Proof. exact value_queries. Qed.
Print Assumptions C40_value_queries.

Example C40_instance :
  v_index_of (Val 3 1%Z) [Val 2 1%Z; Val 3 1%Z] = 1 /\
  v_contains (Val 4 1%Z) [Val 2 1%Z; Val 3 1%Z] = false /\
  v_count_of (Val 2 7%Z) [Val 2 7%Z; Val 3 7%Z; Val 2 7%Z] = 2.
Proof. repeat split. Qed.

(** C41 *)
Theorem C41_values_of_type : forall t l,
  v_list_all_of t l = Some (TValues (filter (fun v => vty v =? t) l)) /\
  (v_contains_type t l = true <-> exists x, In (Val t x) l) /\
  (forall m, v_min t l = Some m <->
     In (Val t m) l /\ forall x, In (Val t x) l -> (m <= x)%Z) /\
  (forall m, v_max t l = Some m <->
     In (Val t m) l /\ forall x, In (Val t x) l -> (x <= m)%Z) /\
  (v_min t l = None <-> forall x, ~ In (Val t x) l) /\
  (v_max t l = None <-> forall x, ~ In (Val t x) l).
Proof. exact value_all_of_full. Qed.
Print Assumptions C41_values_of_type.

Example C41_instance :
  v_min 2 [Val 2 7%Z; Val 3 (-9)%Z; Val 2 (-5)%Z] = Some (-5)%Z /\
  v_max 3 [Val 2 7%Z; Val 3 (-9)%Z; Val 2 (-5)%Z] = Some (-9)%Z /\
  v_max 4 [Val 2 7%Z; Val 3 (-9)%Z; Val 2 (-5)%Z] = None.
Proof. repeat split. Qed.

(** C42: the product has all tuples, in lexicographic order of positions; it
    exists exactly when every list but the last is non-empty. *)
Theorem C42_cartesian_product_types : forall ls : list (list ty), 2 <= length ls ->
  (In [] (removelast ls) -> cartesian_product (map TTypes ls) = None) /\
  ((forall l, In l (removelast ls) -> l <> []) ->
   exists r, cartesian_product (map TTypes ls) = Some (TTypes (map TTypes r)) /\
     length r = fold_right (fun l n => length l * n) 1 ls /\
     (forall t, In t r <-> Forall2 (fun x l => In x l) t ls) /\
     (forall ps t, length t = length ls ->
        Forall2 (fun p lx => nth_error (fst lx) p = Some (snd lx)) ps (combine ls t) ->
        nth_error r (lex_rank ls ps) = Some t)).
Proof. exact cartesian_full. Qed.
Print Assumptions C42_cartesian_product_types.

Theorem C42_cartesian_product_values : forall ls : list (list val), 2 <= length ls ->
  (In [] (removelast ls) -> cartesian_product (map TValues ls) = None) /\
  ((forall l, In l (removelast ls) -> l <> []) ->
   exists r, cartesian_product (map TValues ls) = Some (TTypes (map TValues r)) /\
     length r = fold_right (fun l n => length l * n) 1 ls /\
     (forall t, In t r <-> Forall2 (fun x l => In x l) t ls) /\
     (forall ps t, length t = length ls ->
        Forall2 (fun p lx => nth_error (fst lx) p = Some (snd lx)) ps (combine ls t) ->
        nth_error r (lex_rank ls ps) = Some t)).
Proof. exact cartesian_full_values. Qed.
Print Assumptions C42_cartesian_product_values.

(** exactly these lists have a product: lists of one kind, all but the last not empty; and
    lists of any kinds before a last one that is empty and of the kind of the one before
    it, whose product is empty *)
Theorem C42_accepts : forall ls,
  (cartesian_product ls <> None <->
   (exists ks : list (list ty), ls = map TTypes ks /\ 2 <= length ks /\ forall l, In l (removelast ks) -> l <> []) \/
   (exists ks : list (list val), ls = map TValues ks /\ 2 <= length ks /\ forall l, In l (removelast ks) -> l <> []) \/
   (exists front x e, ls = front ++ [x; e] /\ Forall non_empty_list front /\
      ((e = TTypes [] /\ exists y l, x = TTypes (y :: l)) \/ (e = TValues [] /\ exists y l, x = TValues (y :: l))))) /\
  (forall front x e, ls = front ++ [x; e] -> Forall non_empty_list front ->
      ((e = TTypes [] /\ exists y l, x = TTypes (y :: l)) \/ (e = TValues [] /\ exists y l, x = TValues (y :: l))) ->
      cartesian_product ls = Some (TTypes [])).
Proof. exact product_accepts. Qed.
Print Assumptions C42_accepts.

Example C42_example_mixed :
  cartesian_product [TValues [Val 2 7%Z]; TTypes [ty_int]; TTypes []] = Some (TTypes []) /\
  cartesian_product [TValues [Val 2 7%Z]; TTypes [ty_int]; TTypes [ty_char]] = None /\
  non_empty_list (TValues [Val 2 7%Z]).
Proof. split; [reflexivity|]. split; [reflexivity|]. right. eauto. Qed.

Example C42_instance :
  cartesian_product [TTypes [ty_char; ty_int]; TTypes [ty_long]; TTypes [ty_short; ty_double]]
  = Some (TTypes (map TTypes
      [[ty_char; ty_long; ty_short]; [ty_char; ty_long; ty_double];
       [ty_int; ty_long; ty_short]; [ty_int; ty_long; ty_double]])) /\
  lex_rank [[ty_char; ty_int]; [ty_long]; [ty_short; ty_double]] [1; 0; 1] = 3.
Proof. split; reflexivity. Qed.

(** C103: is_type_list<Ts...> and is_value_list<T> hold of exactly the lists of that
    kind, and concatenate keeps the kind *)
Theorem C103_recognised :
  (forall ts, is_type_list ts = true <-> exists l, ts = [TTypes l]) /\
  (forall t, is_value_list t = true <-> exists l, t = TValues l).
Proof. exact recognised. Qed.
Print Assumptions C103_recognised.

Theorem C103_concatenate_kind : forall ts r, concatenate ts = Some r ->
  is_type_list [r] = negb (is_value_list r) /\
  forall t, In t ts -> is_type_list [t] = is_type_list [r] /\ is_value_list t = is_value_list r.
Proof. exact concatenate_kind. Qed.
Print Assumptions C103_concatenate_kind.

Example C103_instance :
  is_type_list [TTypes [ty_int; ty_char]] = true /\ is_type_list [ty_int] = false /\ is_type_list [] = false /\
  is_type_list [TTypes []; TTypes []] = false /\ is_type_list [TValues []] = false /\
  is_value_list (TValues []) = true /\ is_value_list (TTypes []) = false /\
  concatenate [TTypes [ty_int]; TTypes [ty_char]] = Some (TTypes [ty_int; ty_char]).
Proof. repeat split. Qed.

(** C115: the positions of a type_list and of a value_list *)
Theorem C115_types : forall l : list ty,
  (forall i, (exists t, at_impl i l = Some t) <-> i < length l) /\
  (forall t, In t l -> at_impl (first_index_of_type t l) l = Some t) /\
  (forall i t, at_impl i l = Some t ->
     first_index_of_type t l <= i /\
     (first_index_of_type t l = i <-> forall j, j < i -> at_impl j l <> Some t)) /\
  (forall k, (forall i, at_impl i l = at_impl i k) -> TTypes l = TTypes k).
Proof. exact type_positions. Qed.
Print Assumptions C115_types.

Theorem C115_values : forall l : list val,
  (forall front v back, l = front ++ v :: back -> v_at (length front) l = Some v) /\
  (forall i, (exists v, v_at i l = Some v) <-> i < length l) /\
  (forall v, In v l -> v_at (v_index_of v l) l = Some v) /\
  (forall i v, v_at i l = Some v ->
     v_index_of v l <= i /\ (v_index_of v l = i <-> forall j, j < i -> v_at j l <> Some v)) /\
  (forall k, (forall i, v_at i l = v_at i k) -> TValues l = TValues k).
Proof. exact value_positions. Qed.
Print Assumptions C115_values.

Theorem C115_concatenated :
  (forall a b c, concatenate [TTypes a; TTypes b] = Some (TTypes c) ->
     length c = length a + length b /\
     forall i, (i < length a -> at_impl i c = at_impl i a) /\ at_impl (length a + i) c = at_impl i b) /\
  (forall a b c, concatenate [TValues a; TValues b] = Some (TValues c) ->
     length c = length a + length b /\
     forall i, (i < length a -> v_at i c = v_at i a) /\ v_at (length a + i) c = v_at i b).
Proof. exact concatenated_positions. Qed.
Print Assumptions C115_concatenated.

Example C115_instance :
  v_at 1 [Val 2 7%Z; Val 3 7%Z; Val 2 7%Z] = Some (Val 3 7%Z) /\ v_at 3 [Val 2 7%Z; Val 3 7%Z; Val 2 7%Z] = None /\
  v_at 2 [Val 2 7%Z; Val 3 7%Z; Val 2 7%Z] = Some (Val 2 7%Z) /\
  v_index_of (Val 2 7%Z) [Val 2 7%Z; Val 3 7%Z; Val 2 7%Z] = 0 /\
  concatenate [TValues [Val 2 7%Z]; TValues [Val 3 7%Z]] = Some (TValues [Val 2 7%Z; Val 3 7%Z]) /\
  at_impl (first_index_of_type ty_int [ty_char; ty_int; ty_int]) [ty_char; ty_int; ty_int] = Some ty_int.
Proof. repeat split. Qed.
