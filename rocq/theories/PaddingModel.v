(** Model of padding_checker.h.  Boost.PFR is assumed to list the members of an
    aggregate correctly; sizeof is the [size] of PaddingSpec.v.  Members that are C
    arrays, bit-fields, references or base classes are not modelled, nor are unions. *)

Require Import List Arith Bool.
Require Import Verif.PaddingSpec.
Import ListNotations.

(** padding_checker.h:14-37  sum_size_of_all_members and sum: the size of the type when
    it is no aggregate, otherwise the left fold of + over the members.  None: the fold
    of + over an empty pack does not compile *)
Fixpoint sum_size_of_all_members (t : lty) : option nat :=
  match t with
  | Aggregate [] => None
  | Aggregate (m :: ms) =>
      (fix fold (acc : option nat) (ms : list lty) : option nat :=
         match ms with
         | [] => acc
         | x :: ms' =>
             fold (match acc, sum_size_of_all_members x with
                   | Some a, Some b => Some (a + b)
                   | _, _ => None
                   end) ms'
         end) (sum_size_of_all_members m) ms
  | Scalar _ _ | NonAggregate _ _ => Some (size t)
  end.

(** padding_checker.h:39-44  has_padding_impl *)
Definition has_padding_impl (t : lty) : option bool :=
  match sum_size_of_all_members t with
  | Some s => Some (negb (size t =? s))
  | None => None
  end.

(** padding_checker.h:47-55  has_padding: std::disjunction does not instantiate
    has_padding_impl when the type is not trivially copyable *)
Definition has_padding (t : lty) : option bool :=
  if negb (trivially_copyable t) then Some true else has_padding_impl t.
