(** Property C141: what the queries of type_list look at. *)

Require Import List Arith Bool.
Require Import Verif.ListSpec Verif.TypeListModel Verif.PartialSpec Verif.PartialModel Verif.PartialProofs.
Import ListNotations.

(** C141: index_of<P> asks P about the types up to the first for which P holds, about no other: it
    compiles whenever these can be asked *)
Theorem C141_index_of : forall (p : question ty) l k,
  index_of_asking p l = Some k <->
  (forall j x, j < k -> nth_error l j = Some x -> p x = Some false) /\
  ((exists x, nth_error l k = Some x /\ p x = Some true) \/ k = length l).
Proof. exact index_exact. Qed.
Print Assumptions C141_index_of.

(** at<I, P> asks about the types up to the one it gives *)
Theorem C141_at : forall (p : question ty) l i t,
  at_asking p i l = Some t <->
  exists k, nth_error l k = Some t /\ p t = Some true /\
    (forall j x, j < k -> nth_error l j = Some x -> p x <> None) /\
    occurrences (fun x => p x = Some true) (firstn k l) i.
Proof. exact at_exact. Qed.
Print Assumptions C141_at.

(** the other queries with a predicate ask about every type of the list *)
Theorem C141_count : forall (p : question ty) l n,
  count_asking p l = Some n <->
  (forall x, In x l -> p x <> None) /\ occurrences (fun x => p x = Some true) l n.
Proof. exact count_exact. Qed.
Print Assumptions C141_count.

Theorem C141_contains : forall (p : question ty) l b,
  contains_asking p l = Some b <->
  (forall x, In x l -> p x <> None) /\ (b = true <-> exists x, In x l /\ p x = Some true).
Proof. exact contains_exact. Qed.
Print Assumptions C141_contains.

Theorem C141_list : forall (p : question ty) l r,
  list_of_asking p l = Some r <->
  (forall x, In x l -> p x <> None) /\ r = TTypes (filter (says p) l).
Proof. exact list_exact. Qed.
Print Assumptions C141_list.

(** the least and the greatest type need the sizes of all types; sorting, too, from two types on *)
Theorem C141_extremes : forall sized l k,
  (min_index_asking sized l = Some k <-> (forall t, In t l -> sized t = true) /\ min_sizeof_index l = Some k) /\
  (max_index_asking sized l = Some k <-> (forall t, In t l -> sized t = true) /\ max_sizeof_index l = Some k).
Proof. exact extreme_exact. Qed.
Print Assumptions C141_extremes.

Theorem C141_sorts : forall sized sz l r, length l < sz ->
  (sort_ascending_asking sized sz l = Some r <->
   (length l <= 1 \/ forall t, In t l -> sized t = true) /\ stable_sort sizeof le l r) /\
  (sort_descending_asking sized sz l = Some r <->
   (length l <= 1 \/ forall t, In t l -> sized t = true) /\ stable_sort sizeof ge l r).
Proof. exact sorts_exact. Qed.
Print Assumptions C141_sorts.

(** all other queries only see which types are the same: with other types in their place the answers
    are the same *)
Theorem C141_renaming : forall f : ty -> ty, injective f -> forall sz l t i first count,
  length l < sz -> first < sz -> count < sz ->
  at_impl i (map f l) = option_map f (at_impl i l) /\
  first_index_of_type (f t) (map f l) = first_index_of_type t l /\
  count_of (f t) (map f l) = count_of t l /\
  is_same (map f l) = is_same l /\ contains_copies (map f l) = contains_copies l /\
  sublist sz (map f l) first count = option_map (map f) (sublist sz l first count) /\
  exclude_at sz (map f l) i = option_map (map f) (exclude_at sz l i).
Proof. exact renaming. Qed.
Print Assumptions C141_renaming.

(** a list of int, void and long; the predicate "sizeof(T) > 4" cannot be asked about void *)
Example C141_instance :
  let void := TAtom 0 0 in let int := TAtom 1 4 in let long := TAtom 2 8 in
  let sized := fun t => negb (ty_eqb t void) in
  let p : question ty := fun t => if sized t then Some (4 <? sizeof t) else None in
  index_of_asking p [int; long; void] = Some 1 /\ index_of_asking p [int; void; long] = None /\
  at_asking p 0 [int; long; void] = Some long /\ at_asking p 1 [int; long; void; long] = None /\
  count_asking p [int; long; long] = Some 2 /\ count_asking p [int; long; void] = None /\
  contains_asking p [long; void] = None /\ list_of_asking p [long; int; long] = Some (TTypes [long; long]) /\
  min_index_asking sized [long; int] = Some 1 /\ min_index_asking sized [void] = None /\
  sort_ascending_asking sized 100 [void] = Some [void] /\ sort_ascending_asking sized 100 [long; void] = None /\
  sort_descending_asking sized 100 [int; long] = Some [long; int] /\
  injective (fun t => TTypes [t]).
Proof.
  cbv zeta. repeat (split; [vm_compute; reflexivity|]). intros a b H. injection H as H. exact H.
Qed.
