(** type_list.h with predicates that cannot be asked about every type and with types that have no
    size: which of them a query instantiates, and when.  [p t = None]: Predicate<t, ...> is
    ill-formed; [sized t = false]: sizeof(t) is ill-formed (void, function types, incomplete
    classes). *)

Require Import List Arith Bool.
Require Import Verif.TypeListModel.
Import ListNotations.

(** type_list.h:35-77: at_with_predicate names Predicate<U>::value for the first type; the rest of the
    list is looked at only if a specialisation that goes on is chosen *)
Fixpoint at_asking (p : ty -> option bool) (i : nat) (l : list ty) : option ty :=
  match l with
  | [] => None
  | u :: v =>
    match p u, i with
    | None, _ => None
    | Some true, 0 => Some u
    | Some true, S i' => at_asking p i' v
    | Some false, _ => at_asking p i v
    end
  end.

(** type_list.h:112-134: std::conditional_t names index_of_impl for the rest without instantiating it *)
Fixpoint index_of_impl_asking (idx : nat) (p : ty -> option bool) (l : list ty) : option nat :=
  match l with
  | [] => Some idx
  | u :: v =>
    match p u with
    | None => None
    | Some true => Some idx
    | Some false => index_of_impl_asking (S idx) p v
    end
  end.
Definition index_of_asking (p : ty -> option bool) (l : list ty) : option nat := index_of_impl_asking 0 p l.

(** type_list.h:104-110: a fold over all types; 230-232 *)
Fixpoint count_fold (p : ty -> option bool) (acc : nat) (l : list ty) : option nat :=
  match l with
  | [] => Some acc
  | u :: v =>
    match p u with
    | None => None
    | Some b => count_fold p (acc + (if b then 1 else 0)) v
    end
  end.
Definition count_asking (p : ty -> option bool) (l : list ty) : option nat := count_fold p 0 l.
Definition contains_asking (p : ty -> option bool) (l : list ty) : option bool :=
  match count_asking p l with Some n => Some (negb (n =? 0)) | None => None end.

(** type_list.h:159-178, 237-250: a pack expansion over all types *)
Definition list_of_asking (p : ty -> option bool) (l : list ty) : option ty :=
  match l with
  | [] => Some (TTypes [])
  | _ =>
    match all_some (map (fun t => match p t with
                                  | Some b => Some (if b then TTypes [t] else TTypes [])
                                  | None => None
                                  end) l) with
    | Some ts => concatenate ts
    | None => None
    end
  end.

(** type_list.h:254-271, 299-309: sizeof of the first and of all the others *)
Definition sizeof_asking (sized : ty -> bool) (t : ty) : option nat := if sized t then Some (sizeof t) else None.
Fixpoint min_fold_asking (sized : ty -> bool) (i : nat) (rest : list ty) (index mn : nat) : option nat :=
  match rest with
  | [] => Some index
  | r :: rest' =>
    match sizeof_asking sized r with
    | None => None
    | Some s => if s <? mn then min_fold_asking sized (S i) rest' (i + 1) s
                else min_fold_asking sized (S i) rest' index mn
    end
  end.
Definition min_index_asking (sized : ty -> bool) (l : list ty) : option nat :=
  match l with
  | [] => None
  | t :: rest => match sizeof_asking sized t with Some s => min_fold_asking sized 0 rest 0 s | None => None end
  end.
(** type_list.h:273-290, 318-328 *)
Fixpoint max_fold_asking (sized : ty -> bool) (i : nat) (rest : list ty) (index mx : nat) : option nat :=
  match rest with
  | [] => Some index
  | r :: rest' =>
    match sizeof_asking sized r with
    | None => None
    | Some s => if mx <? s then max_fold_asking sized (S i) rest' (i + 1) s
                else max_fold_asking sized (S i) rest' index mx
    end
  end.
Definition max_index_asking (sized : ty -> bool) (l : list ty) : option nat :=
  match l with
  | [] => None
  | t :: rest => match sizeof_asking sized t with Some s => max_fold_asking sized 0 rest 0 s | None => None end
  end.

(** type_list.h:411-466 *)
Definition sort_ascending_asking (sized : ty -> bool) (sz : nat) (l : list ty) : option (list ty) :=
  sort_by (min_index_asking sized) sz (length l) l.
Definition sort_descending_asking (sized : ty -> bool) (sz : nat) (l : list ty) : option (list ty) :=
  sort_by (max_index_asking sized) sz (length l) l.
