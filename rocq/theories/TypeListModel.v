(** Model of type_list.h, value_list.h and cartesian_product.h.

    A C++ type is an entity [ty]: a type_list specialisation, a value_list
    specialisation or any other (complete) type, of which only identity and
    sizeof matter.  A template argument value has a type and a value (only
    integral values are modelled; for pointers and enumerators "same value" is the
    same decidable equality on another carrier; references are in RefsModel.v).
    A metafunction is a Gallina function; [None] means that the specialisation
    is ill-formed (a compile-time error or a substitution failure).
    Predicates are total here; predicates whose instantiation is itself ill-formed
    for some types are in PartialModel.v. *)

Require Import List Arith ZArith Bool.
Import ListNotations.

(** a template argument value of value_list.h:14-204: its type and its value *)
Record val : Type := Val { vty : nat; vz : Z }.

(** a template argument type of type_list.h:12-482 *)
Inductive ty : Type :=
| TAtom (name : nat) (size : nat)
| TTypes (l : list ty)
| TValues (l : list val).

(** value_list.h:17-33 is_same_impl on two values: the same type and == *)
Definition val_eqb (a b : val) : bool :=
  Nat.eqb (vty a) (vty b) && Z.eqb (vz a) (vz b).

(** the language: two specialisations are the same when their arguments are, one by one *)
Definition list_eqb {A} (e : A -> A -> bool) : list A -> list A -> bool :=
  fix go (a b : list A) : bool :=
    match a, b with
    | [], [] => true
    | x :: a', y :: b' => e x y && go a' b'
    | _, _ => false
    end.

(** std::is_same on entities *)
Fixpoint ty_eqb (a b : ty) {struct a} : bool :=
  match a, b with
  | TAtom n s, TAtom n' s' => Nat.eqb n n' && Nat.eqb s s'
  | TTypes l, TTypes l' => list_eqb ty_eqb l l'
  | TValues l, TValues l' => list_eqb val_eqb l l'
  | _, _ => false
  end.

(** sizeof: type_list<...> and value_list<...> are empty classes, size 1. *)
Definition sizeof (t : ty) : nat :=
  match t with TAtom _ s => s | _ => 1 end.

(** Sequence a list of possibly ill-formed results: a pack expansion is
    ill-formed when one of its elements is. *)
Fixpoint all_some {A} (l : list (option A)) : option (list A) :=
  match l with
  | [] => Some []
  | None :: _ => None
  | Some x :: r => match all_some r with Some r' => Some (x :: r') | None => None end
  end.

(** * type_list_impl *)

(** type_list.h:20-33 at_impl, 145-151 at<I> *)
Fixpoint at_impl (i : nat) (l : list ty) : option ty :=
  match l, i with
  | [], _ => None
  | u :: _, 0 => Some u
  | _ :: v, S i' => at_impl i' v
  end.

(** type_list.h:35-77 at_with_predicate(_impl), 153-157 at<I, Predicate> *)
Fixpoint at_with_predicate (p : ty -> bool) (i : nat) (l : list ty) : option ty :=
  match l with
  | [] => None
  | u :: v =>
    match p u, i with
    | true, 0 => Some u
    | true, S i' => at_with_predicate p i' v
    | false, _ => at_with_predicate p i v
    end
  end.

(** type_list.h:79-88 is_same_impl *)
Definition is_same (l : list ty) : bool :=
  match l with [] => true | t :: r => forallb (ty_eqb t) r end.

(** type_list.h:90-96 count_of_impl: left fold (0 + ... + is_same) *)
Definition count_of (t : ty) (l : list ty) : nat :=
  fold_left (fun acc u => acc + (if ty_eqb t u then 1 else 0)) l 0.

(** type_list.h:98-102 *)
Definition more_than_once (t : ty) (l : list ty) : bool := 1 <? count_of t l.

(** type_list.h:104-110 *)
Definition count_of_predicate_compliant (p : ty -> bool) (l : list ty) : nat :=
  fold_left (fun acc u => acc + (if p u then 1 else 0)) l 0.

(** type_list.h:112-134 index_of_impl; 194-198 starts at 0 *)
Fixpoint index_of_impl (idx : nat) (p : ty -> bool) (l : list ty) : nat :=
  match l with
  | [] => idx
  | u :: v => if p u then idx else index_of_impl (S idx) p v
  end.
Definition index_of (p : ty -> bool) (l : list ty) : nat := index_of_impl 0 p l.

(** type_list.h:136-143 get_first_index_of: the fold
    (... || (k = is_same * (I+1))) assigns k until it becomes non-zero. *)
Fixpoint first_index_fold (t : ty) (i : nat) (l : list ty) (k : nat) : nat :=
  match l with
  | [] => k
  | u :: v =>
    let k := (if ty_eqb t u then 1 else 0) * (i + 1) in
    if k =? 0 then first_index_fold t (S i) v k else k
  end.
Definition first_index_of_type (t : ty) (l : list ty) : nat :=
  let k := first_index_fold t 0 l 0 in
  if k =? 0 then length l else k - 1.

(** * concatenate  (cartesian_product.h:12-40) *)
Fixpoint concatenate_from (acc : ty) (ts : list ty) : option ty :=
  match ts with
  | [] => match acc with TAtom _ _ => None | _ => Some acc end
  | b :: ts' =>
    match acc, b with
    | TValues v1, TValues v2 => concatenate_from (TValues (v1 ++ v2)) ts'
    | TTypes t1, TTypes t2 => concatenate_from (TTypes (t1 ++ t2)) ts'
    | _, _ => None
    end
  end.
Definition concatenate (ts : list ty) : option ty :=
  match ts with
  | [] => None                         (* primary template is not defined *)
  | a :: ts' => concatenate_from a ts'
  end.

(** type_list.h:159-178 list_of_predicate_compliant_impl, 237-250 *)
Definition list_of_predicate_compliant (p : ty -> bool) (l : list ty) : option ty :=
  match l with
  | [] => Some (TTypes [])
  | _ => concatenate (map (fun t => if p t then TTypes [t] else TTypes []) l)
  end.

(** type_list.h:215-225 contains: for a type_list argument all of its types *)
Fixpoint contains (l : list ty) (t : ty) {struct t} : bool :=
  match t with
  | TTypes us => forallb (contains l) us
  | _ => negb (count_of t l =? 0)
  end.

(** type_list.h:230-232 *)
Definition contains_predicate_compliant (p : ty -> bool) (l : list ty) : bool :=
  negb (count_of_predicate_compliant p l =? 0).

(** type_list.h:234-235 *)
Definition contains_copies (l : list ty) : bool :=
  existsb (fun t => more_than_once t l) l.

(** * Algorithms on type lists *)

(** type_list.h:254-271 min_sizeof_index_impl, 299-309 (undefined for []) *)
Fixpoint min_sizeof_fold (i : nat) (rest : list ty) (index mn : nat) : nat :=
  match rest with
  | [] => index
  | r :: rest' =>
    if sizeof r <? mn then min_sizeof_fold (S i) rest' (i + 1) (sizeof r)
    else min_sizeof_fold (S i) rest' index mn
  end.
Definition min_sizeof_index (l : list ty) : option nat :=
  match l with
  | [] => None
  | t :: rest => Some (min_sizeof_fold 0 rest 0 (sizeof t))
  end.

(** type_list.h:273-290 max_sizeof_index_impl, 318-328 *)
Fixpoint max_sizeof_fold (i : nat) (rest : list ty) (index mx : nat) : nat :=
  match rest with
  | [] => index
  | r :: rest' =>
    if mx <? sizeof r then max_sizeof_fold (S i) rest' (i + 1) (sizeof r)
    else max_sizeof_fold (S i) rest' index mx
  end.
Definition max_sizeof_index (l : list ty) : option nat :=
  match l with
  | [] => None
  | t :: rest => Some (max_sizeof_fold 0 rest 0 (sizeof t))
  end.

(** type_list.h:292-302, 337-362 sublist.  [sz] is SIZE_MAX+1: First+Count and
    First+I are computed in std::size_t. *)
Definition sublist (sz : nat) (l : list ty) (first count : nat) : option (list ty) :=
  match l, first, count with
  | [], 0, 0 => Some []
  | _, _, 0 => if first <? length l then Some [] else None
  | _, _, _ =>
    if (first + count) mod sz <=? length l then
      all_some (map (fun i => at_impl ((first + i) mod sz) l) (seq 0 count))
    else None
  end.

(** type_list.h:364-409 exclude_at *)
Definition exclude_at_general (sz : nat) (l : list ty) (i : nat) : option (list ty) :=
  match sublist sz l 0 i, sublist sz l (i + 1) (length l - i - 1) with
  | Some a, Some b =>
    match concatenate [TTypes a; TTypes b] with
    | Some (TTypes c) => Some c
    | _ => None
    end
  | _, _ => None
  end.
Definition exclude_at_impl (sz : nat) (l : list ty) (i : nat) : option (list ty) :=
  match l, i with
  | _ :: rest, 0 => Some rest
  | _ :: _ :: rest, _ =>
    if i =? length rest + 1 then sublist sz l 0 (length rest + 1)
    else exclude_at_general sz l i
  | _, _ => exclude_at_general sz l i
  end.
Definition exclude_at (sz : nat) (l : list ty) (i : nat) : option (list ty) :=
  if i <? length l then exclude_at_impl sz l i else None.

(** type_list.h:411-440 sort_sizeof_ascending and 442-466 _descending, with the
    index function as parameter.  The recursion is on ever shorter lists;
    [fuel] is only there to make it structural, and is proved sufficient. *)
Fixpoint sort_by (index : list ty -> option nat) (sz fuel : nat) (l : list ty)
  : option (list ty) :=
  match l with
  | [] => Some []
  | [t] => Some [t]
  | _ =>
    match fuel with
    | 0 => None
    | S fuel' =>
      match index l with
      | None => None
      | Some k =>
        match at_impl k l, exclude_at sz l k with
        | Some t, Some l' =>
          match sort_by index sz fuel' l' with
          | Some r =>
            match concatenate [TTypes [t]; TTypes r] with
            | Some (TTypes c) => Some c
            | _ => None
            end
          | None => None
          end
        | _, _ => None
        end
      end
    end
  end.
Definition sort_sizeof_ascending (sz : nat) (l : list ty) : option (list ty) :=
  sort_by min_sizeof_index sz (length l) l.
Definition sort_sizeof_descending (sz : nat) (l : list ty) : option (list ty) :=
  sort_by max_sizeof_index sz (length l) l.

(** type_list.h:468-479: a pack of any number of types *)
Definition is_type_list (ts : list ty) : bool :=
  match ts with [TTypes _] => true | _ => false end.

(** * value_list *)

(** value_list.h:17-33 is_same_impl: same type and same value *)
Definition v_is_same (a b : val) : bool :=
  if vty a =? vty b then Z.eqb (vz a) (vz b) else false.

(** value_list.h:35-41 *)
Definition v_count_of (v : val) (l : list val) : nat :=
  fold_left (fun acc u => acc + (if v_is_same v u then 1 else 0)) l 0.

(** value_list.h:43-52 *)
Definition v_is_all_same (l : list val) : bool :=
  match l with [] => true | v :: r => forallb (v_is_same v) r end.

(** value_list.h:54-58 *)
Definition v_more_than_once (v : val) (l : list val) : bool := 1 <? v_count_of v l.

(** value_list.h:60-63 *)
Definition v_contains (v : val) (l : list val) : bool := existsb (v_is_same v) l.

(** value_list.h:65-77; 149-151 starts at 0 *)
Fixpoint v_index_of_impl (i : nat) (v : val) (l : list val) : nat :=
  match l with
  | [] => i
  | u :: r => if v_is_same v u then i else v_index_of_impl (S i) v r
  end.
Definition v_index_of (v : val) (l : list val) : nat := v_index_of_impl 0 v l.

(** value_list.h:168-169 *)
Definition v_contains_copies (l : list val) : bool :=
  existsb (fun v => v_more_than_once v l) l.

(** value_list.h:171-173: type_list<decltype(Values)...>::contains_v<T> for a
    value type T (never a type_list) *)
Definition v_contains_type (t : nat) (l : list val) : bool :=
  contains (map (fun v => TAtom (vty v) 0) l) (TAtom t 0).

(** value_list.h:140-147 at: std::get on the tuple of the values *)
Definition v_at (i : nat) (l : list val) : option val := nth_error l i.

(** value_list.h:79-91 all_of_impl *)
Definition v_all_of_impl (t : nat) (v : val) : ty :=
  if vty v =? t then TValues [v] else TValues [].

(** value_list.h:93-104, 181-188 list_all_of *)
Definition v_list_all_of (t : nat) (l : list val) : option ty :=
  match l with
  | [] => Some (TValues [])
  | _ => concatenate (map (v_all_of_impl t) l)
  end.

(** std::min / std::max on an initializer_list; no value for an empty one *)
Definition list_min (l : list Z) : option Z :=
  match l with
  | [] => None
  | x :: r => Some (fold_left (fun m y => if Z.ltb y m then y else m) r x)
  end.
Definition list_max (l : list Z) : option Z :=
  match l with
  | [] => None
  | x :: r => Some (fold_left (fun m y => if Z.ltb m y then y else m) r x)
  end.

(** value_list.h:106-128, 175-179: the values are read back through at<I> *)
Definition v_extreme (pick : list Z -> option Z) (t : nat) (l : list val) : option Z :=
  match v_list_all_of t l with
  | Some (TValues vs) =>
    match all_some (map (fun i => v_at i vs) (seq 0 (length vs))) with
    | Some xs => pick (map vz xs)
    | None => None
    end
  | _ => None
  end.
Definition v_min (t : nat) (l : list val) : option Z := v_extreme list_min t l.
Definition v_max (t : nat) (l : list val) : option Z := v_extreme list_max t l.

(** value_list.h:190-202 *)
Definition is_value_list (t : ty) : bool :=
  match t with TValues _ => true | _ => false end.

(** * cartesian_product *)

(** cartesian_product.h:44-69 one_element_mult *)
Definition one_element_mult (first_pair : bool) (e l : ty) : option ty :=
  match first_pair, e, l with
  | true, TValues [v], TValues vs => Some (TTypes (map (fun w => TValues [v; w]) vs))
  | false, TValues [v], TTypes ts =>
    match all_some (map (fun t => concatenate [TValues [v]; t]) ts) with
    | Some r => Some (TTypes r)
    | None => None
    end
  | true, TTypes [t], TTypes ts => Some (TTypes (map (fun u => TTypes [t; u]) ts))
  | false, TTypes [t], TTypes ts =>
    match all_some (map (fun u => concatenate [TTypes [t]; u]) ts) with
    | Some r => Some (TTypes r)
    | None => None
    end
  | _, _, _ => None
  end.

(** cartesian_product.h:83-96: the two list specialisations *)
Definition cartesian_pair (i : nat) (l1 l : ty) : option ty :=
  match l1 with
  | TValues vs =>
    match all_some (map (fun v => one_element_mult (i =? 0) (TValues [v]) l) vs) with
    | Some r => concatenate r
    | None => None
    end
  | TTypes ts =>
    match all_some (map (fun t => one_element_mult (i =? 0) (TTypes [t]) l) ts) with
    | Some r => concatenate r
    | None => None
    end
  | TAtom _ _ => None
  end.

(** cartesian_product.h:71-81: recursion over three or more lists *)
Fixpoint cartesian_product_impl (i : nat) (l1 l2 : ty) (ls : list ty) : option ty :=
  match ls with
  | [] => cartesian_pair i l1 l2
  | l3 :: ls' =>
    match cartesian_product_impl (i - 1) l2 l3 ls' with
    | Some p => cartesian_pair i l1 p
    | None => None
    end
  end.

(** cartesian_product.h:99-115 *)
Definition cartesian_product (ls : list ty) : option ty :=
  match ls with
  | l1 :: l2 :: [] => cartesian_product_impl 0 l1 l2 []
  | l1 :: l2 :: rest => cartesian_product_impl (length rest) l1 l2 rest
  | _ => None
  end.
