(** Model of the type predicates of common.h and of the overload resolution of
    concatenate_arrays.  None: the program does not compile.

    C arrays, functions, pointers to them, void and enumerations other than std::byte
    are not modelled, so std::decay only removes references and top-level cv. *)

Require Import List Bool Arith ZArith.
Require Import Verif.CommonSpec Verif.TypeListModel.
Import ListNotations.

(** std::is_same *)
Fixpoint same (a b : ctype) {struct a} : bool :=
  match a, b with
  | Bool, Bool | Byte, Byte => true
  | Integer s n z, Integer s' n' z' => Bool.eqb s s' && Nat.eqb n n' && Nat.eqb z z'
  | Floating z, Floating z' => Nat.eqb z z'
  | Named n z, Named n' z' => Nat.eqb n n' && Nat.eqb z z'
  | StdArray e n, StdArray e' n' => same e e' && Nat.eqb n n'
  | Tuple ts z, Tuple ts' z' =>
      (fix same_list (xs ys : list ctype) : bool :=
         match xs, ys with
         | [], [] => true
         | x :: xs', y :: ys' => same x y && same_list xs' ys'
         | _, _ => false
         end) ts ts' && Nat.eqb z z'
  | RefWrapper t, RefWrapper u => same t u
  | Cv c v t, Cv c' v' u => Bool.eqb c c' && Bool.eqb v v' && same t u
  | LRef t, LRef u | RRef t, RRef u => same t u
  | _, _ => false
  end.

(** std::remove_reference, std::remove_cv *)
Definition remove_reference (t : ctype) : ctype := match t with LRef u | RRef u => u | _ => t end.
Definition remove_cv (t : ctype) : ctype := match t with Cv _ _ u => u | _ => t end.
(** common.h:113-120 remove_cvref *)
Definition remove_cvref (t : ctype) : ctype := remove_cv (remove_reference t).
(** std::decay on the types modelled *)
Definition decay (t : ctype) : ctype := remove_cv (remove_reference t).

(** std::is_unsigned: T(0) < T(-1) for an arithmetic type, cv-qualified or not; bool is
    one *)
Definition is_unsigned (t : ctype) : bool :=
  match remove_cv t with Bool => true | Integer s _ _ => negb s | _ => false end.

(** common.h:65-73 is_uint *)
Definition is_uint (t : ctype) : bool := is_unsigned t && negb (same t Bool).
(** common.h:75-82 is_uint_or_byte *)
Definition is_uint_or_byte (t : ctype) : bool := is_uint t || same t Byte.

(** common.h:84-90 is_equal_sizes: value_list of the sizes (std::size_t is type 0) *)
Definition is_equal_sizes (ts : list ctype) : bool :=
  v_is_all_same (map (fun t => Val 0 (Z.of_nat (size_of t))) ts).

(** common.h:100-111 is_std_array, is_std_array_v *)
Definition is_std_array (t : ctype) : bool := match t with StdArray _ _ => true | _ => false end.
Definition is_std_array_v (t : ctype) : bool := is_std_array (decay t).
(** common.h:122-124 std_array_size_v: std::tuple_size has a value for arrays and
    tuples *)
Definition std_array_size_v (t : ctype) : option nat :=
  match decay t with StdArray _ n => Some n | Tuple ts _ => Some (length ts) | _ => None end.
(** common.h:126-127 std_array_data_t: a member value_type.  [Named] classes that have
    one are not modelled *)
Definition std_array_data_t (t : ctype) : option ctype :=
  match decay t with StdArray e _ => Some e | _ => None end.
(** common.h:129-132 is_same_data_std_arrays; all three operands are formed *)
Definition is_same_data_std_arrays (a b : ctype) : option bool :=
  match std_array_data_t a, std_array_data_t b with
  | Some d, Some e => Some (is_std_array_v a && is_std_array_v b && same d e)
  | _, _ => None
  end.
(** common.h:134-136 std_array_sizes_sum: a left fold that starts with 0 *)
Fixpoint sizes_sum_from (acc : nat) (ts : list ctype) : option nat :=
  match ts with
  | [] => Some acc
  | t :: ts' => match std_array_size_v t with Some n => sizes_sum_from (acc + n) ts' | None => None end
  end.
Definition std_array_sizes_sum (ts : list ctype) : option nat := sizes_sum_from 0 ts.

(** std::array<data, sum> of the first type's data and the sum of the sizes *)
Definition array_for (first : ctype) (all : list ctype) : option ctype :=
  match std_array_data_t first, std_array_sizes_sum all with
  | Some d, Some n => Some (StdArray d n)
  | _, _ => None
  end.

(** std::get<i> for every i below the size (common.h:147-148): there is none for volatile
    arrays.  The elements can be copied *)
Definition gets (t : ctype) : bool :=
  negb (is_volatile t) || match std_array_size_v t with Some n => Nat.eqb n 0 | None => false end.

(** common.h:140-149 details::concatenate_2_arrays: its type *)
Definition concatenate_2_arrays_t (a b : ctype) : option ctype :=
  match is_same_data_std_arrays a b with
  | Some true => if gets a && gets b then array_for a [a; b] else None
  | _ => None
  end.

(** common.h:151-169 details::concatenate_arrays: the type of the returned expression.
    [fuel] bounds the recursion, one step per array.  In the recursive call the first
    array is a prvalue, so its deduced type is the array type itself.  The declared
    type must be what the returned expression converts to: the same array type; a volatile
    array cannot be copied *)
Fixpoint details_concatenate_arrays_t (fuel : nat) (ts : list ctype) : option ctype :=
  match fuel, ts with
  | _, [t] => if is_std_array_v t && negb (is_volatile t) then Some (decay t) else None
  | S fuel', a :: b :: rest =>
      match array_for a (a :: b :: rest), concatenate_2_arrays_t a b with
      | Some r, Some ab =>
          match details_concatenate_arrays_t fuel' (ab :: rest) with
          | Some e => if same r e then Some r else None
          | None => None
          end
      | _, _ => None
      end
  | _, _ => None
  end.

(** common.h:211-220 concatenate_arrays *)
Definition concatenate_arrays_t (ts : list ctype) : option ctype :=
  match ts with
  | [] => None
  | t :: _ =>
      match array_for t ts, details_concatenate_arrays_t (length ts) ts with
      | Some r, Some e => if same r e then Some r else None
      | _, _ => None
      end
  end.

(** common.h:722-733 is_tuple (of a pack) *)
Definition is_tuple (ts : list ctype) : bool := match ts with [Tuple _ _] => true | _ => false end.
(** common.h:735-746 is_ref_wrapper *)
Definition is_ref_wrapper (t : ctype) : bool := match t with RefWrapper _ => true | _ => false end.
(** common.h:748-761 unwrap_reference; T& for a T that is itself no reference *)
Definition unwrap_reference (t : ctype) : ctype := match t with RefWrapper u => LRef u | _ => t end.
