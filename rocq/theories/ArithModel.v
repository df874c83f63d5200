(** Model of the remaining integer helpers of common.h: div, div_as,
    uint_from_nbits and its variants, num_bits, sum_size, enum_properties,
    values_in_range and make_array_from_range.

    [None] stands for a program rejected by the compiler (a failed
    static_assert, enable_if or narrowing check). *)

Require Import ZArith List Bool.
Require Import Verif.Outcome Verif.Machine Verif.BitsModel.
Import ListNotations.
Open Scope Z_scope.
Open Scope res_scope.

(** The built-in operators / and % in the promoted type [t]: undefined for a
    zero divisor and for MIN / -1. *)
Definition quotrem (t : ity) (n d : Z) : res (Z * Z) :=
  if d =? 0 then UB
  else if intyb t (Z.quot n d) then Ok (Z.quot n d, Z.rem n d) else UB.

(** common.h:588-600 div, constant evaluated branch.  [bool_t] may be an operand type:
    it is promoted like the small types, and only two bools have it as common type, so
    that nothing but 0 and 1 is ever converted to it. *)
Definition div_constant (dbg : bool) (t u : ity) (n d : Z) : res (Z * Z) :=
  cassert dbg (negb (d =? 0))
    (let c := common t u in
     '(q, r) <- quotrem (promote c) (conv c n) (conv c d);;
     Ok (conv c q, conv c r)).

(** common.h:603-607 work_t: common_type_t<type,int,long,long long> when it is
    int, long or long long, otherwise long long *)
Definition work_t (c : ity) : ity :=
  let common_t := common (common (common c i32) i64) i64 in
  if sgn common_t && ((bits common_t =? 32) || (bits common_t =? 64)) then common_t else i64.

(** common.h:601-613 div, run-time branch: std::div in work_t *)
Definition div_runtime (dbg : bool) (t u : ity) (n d : Z) : res (Z * Z) :=
  cassert dbg (negb (d =? 0))
    (let c := common t u in
     let w := work_t c in
     '(q, r) <- quotrem w (conv w n) (conv w d);;
     Ok (conv c q, conv c r)).

(** common.h:616-623 div_as<R>: both operands are cast to R, then div(R, R) *)
Definition div_as_constant (dbg : bool) (rt : ity) (n d : Z) : res (Z * Z) :=
  div_constant dbg rt rt (conv rt n) (conv rt d).
Definition div_as_runtime (dbg : bool) (rt : ity) (n d : Z) : res (Z * Z) :=
  div_runtime dbg rt rt (conv rt n) (conv rt d).
(** the same for R = bool: the cast asks whether the operand is 0 *)
Definition to_bool (n : Z) : Z := if n =? 0 then 0 else 1.
Definition div_as_bool_constant (dbg : bool) (n d : Z) : res (Z * Z) := div_constant dbg bool_t bool_t (to_bool n) (to_bool d).
Definition div_as_bool_runtime (dbg : bool) (n d : Z) : res (Z * Z) := div_runtime dbg bool_t bool_t (to_bool n) (to_bool d).

(** common.h:370-376 greatest_divisor_that_is_power_of_2<bool> (std::is_unsigned_v<bool> is true): the arithmetic is that
    of int, sizeof(bool) is 1, the result is converted to bool *)
Definition greatest_divisor_bool (v : Z) : res Z :=
  if v =? 0 then
    r <- shl i32 1 7;; Ok (to_bool r)
  else
    d <- arith i32 (v - 1);; Ok (to_bool (Z.land v (conv i32 (Z.lnot d)))).

(** common.h:579-585 the deduction guides of div_t.  An operand is an expression of an
    integer type or of another type ([None]); it may be a constant expression. *)
Record operand : Type := Operand { otype : option ity; ovalue : Z; oconst : bool }.
(** common.h:579-580: T is deduced from both operands, so they have the same type;
    enable_if_t removes the guide when T is no integer type *)
Definition guide_same (a b : operand) : option ity :=
  match otype a, otype b with Some t, Some u => if ity_eqb t u then Some t else None | _, _ => None end.
(** common.h:582-585 *)
Definition guide_two (a b : operand) : option ity :=
  match otype a, otype b with Some t, Some u => Some (common t u) | _, _ => None end.
(** the more specialised guide is preferred; without any the program is rejected *)
Definition deduced (a b : operand) : option ity :=
  match guide_same a b with Some t => Some t | None => guide_two a b end.
(** [dcl.init.list]: a constant must fit, a value that is no constant must be of a type
    that fits *)
Definition list_initialises (c : ity) (a : operand) : bool :=
  match otype a with Some t => if oconst a then intyb c (ovalue a) else no_narrowing t c | None => false end.
(** common.h:571-577 div_t{q, r}: type and members *)
Definition make_div_t (a b : operand) : option (ity * Z * Z) :=
  match deduced a b with
  | Some c =>
    if list_initialises c a && list_initialises c b
    then Some (c, conv c (ovalue a), conv c (ovalue b)) else None
  | None => None
  end.

(** common.h:462-498 uint_from_nbits<BitsCount> (uint8_t template argument) *)
Definition uint_from_nbits (n : Z) : option ity :=
  if (0 <? n) && (n <=? 8) then Some u8
  else if (8 <? n) && (n <=? 8 * 2) then Some u16
  else if (8 * 2 <? n) && (n <=? 8 * 4) then Some u32
  else if (8 * 4 <? n) && (n <=? 8 * 8) then Some u64
  else None.

(** A converted constant expression of type uint8_t: narrowing is an error. *)
Definition template_u8 (n : Z) : option Z := if intyb u8 n then Some n else None.

(** common.h:503-504 uint_from_nbytes_t<BytesCount>; 685-686 UInt is another name for it *)
Definition uint_from_nbytes (k : Z) : option ity :=
  match template_u8 k with
  | Some k => match template_u8 (k * 8) with Some n => uint_from_nbits n | None => None end
  | None => None
  end.

(** common.h:514-557 fast_uint_from_nbits; [f8] .. [f64] are the implementation's
    uint_fastN_t.  688-689 FastUInt takes a std::size_t, which must be a uint8_t as well. *)
Definition fast_uint_from_nbits (f8 f16 f32 f64 : ity) (n : Z) : option ity :=
  if (0 <? n) && (n <=? 8) then Some f8
  else if (8 <? n) && (n <=? 8 * 2) then Some f16
  else if (8 * 2 <? n) && (n <=? 8 * 4) then Some f32
  else if (8 * 4 <? n) && (n <=? 8 * 8) then Some f64
  else None.
Definition fast_uint_from_nbytes (f8 f16 f32 f64 : ity) (k : Z) : option ity :=
  match template_u8 k with
  | Some k => match template_u8 (k * 8) with
              | Some n => fast_uint_from_nbits f8 f16 f32 f64 n
              | None => None end
  | None => None
  end.

(** A type as num_bits sees it: bool, or any other type of a given size. *)
Inductive object_type : Type :=
| OBool
| OOther (size : Z).

(** common.h:559-569 num_bits<T>() *)
Definition num_bits (t : object_type) : Z :=
  match t with OBool => 1 | OOther s => wrap 64 (8 * s) end.

(** common.h:625-630 sum_size<Ts...>(): a unary right fold, ill-formed for an
    empty pack *)
Fixpoint bits_fold (t : object_type) (ts : list object_type) : Z :=
  match ts with
  | [] => num_bits t
  | t' :: ts' => wrap 64 (num_bits t + bits_fold t' ts')
  end.
Definition sum_size (ts : list object_type) : option Z :=
  match ts with
  | [] => None
  | t :: ts' =>
    let b := bits_fold t ts' in
    Some (wrap 64 (b / 8 + (if b mod 8 =? 0 then 0 else 1)))
  end.

(** common.h:506-512 enum_properties<T>: [count] is static_cast<uint64_t>(T::Count) *)
Definition enum_num_bits (count : Z) : res Z := bits_count count.
Definition enum_serialize_t (count : Z) : option ity :=
  match enum_num_bits count with Ok n => uint_from_nbits n | _ => None end.

(** C++ comparison of two integers of types [a], [b]: in the usual type. *)
Definition cmp_le (a b : ity) (x y : Z) : bool :=
  conv (usual a b) x <=? conv (usual a b) y.
Definition cmp_lt (a b : ity) (x y : Z) : bool :=
  conv (usual a b) x <? conv (usual a b) y.

(** x + y and x - y for operands of types [a], [b] *)
Definition add (a b : ity) (x y : Z) : res Z :=
  arith (usual a b) (conv (usual a b) x + conv (usual a b) y).
Definition sub (a b : ity) (x y : Z) : res Z :=
  arith (usual a b) (conv (usual a b) x - conv (usual a b) y).

(** Constant expressions: undefined behaviour is a compile error. *)
Definition const {A : Type} (r : res A) : option A :=
  match r with Ok a => Some a | _ => None end.

(** no code: a pack is well-formed when each of its elements is (the expansions of
    common.h:691-720) *)
Fixpoint all_ok {A : Type} (l : list (option A)) : option (list A) :=
  match l with
  | [] => Some []
  | None :: _ => None
  | Some a :: l' => match all_ok l' with Some r => Some (a :: r) | None => None end
  end.

(** common.h:691-700 shifted_sequence: each I + N is a template argument of type
    SeqT, so it must be representable (no narrowing). *)
Definition shifted_sequence (t : ity) (is : list Z) (n : Z) : option (list Z) :=
  all_ok (map (fun i => match const (add t t i n) with
                        | Some s => if intyb t s then Some s else None
                        | None => None
                        end) is).

(** std::make_integer_sequence<T, N>: ill-formed for negative N *)
Definition make_integer_sequence (n : Z) : option (list Z) :=
  if n <? 0 then None else Some (map Z.of_nat (seq 0 (Z.to_nat n))).

(** common.h:702-720 values_in_range<First, Last>; [tf], [tl] are the types of
    the two arguments.  Result: the values, all of type [common tf tl]. *)
Definition values_in_range (tf tl : ity) (first last : Z) : option (list Z) :=
  if cmp_le tf tl first last then
    let seq_t := common tf tl in
    match const (l1 <- add tl i32 last 1;; sub (usual tl i32) tf l1 first) with
    | None => None
    | Some n =>
      match make_integer_sequence (conv seq_t n) with
      | None => None
      | Some is => shifted_sequence seq_t is (conv seq_t first)
      end
    end
  else None.

(** common.h:266-272 is_valid_range (Begin and End of type [t], Step of type [ts]) *)
Definition is_valid_range (t ts : ity) (b e st : Z) : option bool :=
  if b <? e then
    match const (add t ts b st) with
    | Some s => Some (cmp_lt t (usual t ts) b s || (b =? e))
    | None => None
    end
  else Some (b =? e).

(** common.h:291-300 step_count: [aBegin += aStep] adds in the usual type and
    converts back *)
Fixpoint step_count (fuel : nat) (t ts : ity) (b e st : Z) : res nat :=
  match fuel with
  | O => Hang
  | S fuel' =>
    if b <=? e then
      s <- add t ts b st;;
      n <- step_count fuel' t ts (conv t s) e st;;
      Ok (S n)
    else Ok O
  end.

(** common.h:304-311 the filling loop *)
Fixpoint fill_range (n : nat) (t ts : ity) (cur st : Z) : res (list Z) :=
  match n with
  | O => Ok []
  | S n' =>
    s <- add t ts cur st;;
    l <- fill_range n' t ts (conv t s) st;;
    Ok (cur :: l)
  end.

(** common.h:281-312 make_array_from_range<Begin, End, Step>.  std::min requires
    Begin and End to have one type [t].  [None]: rejected by the static_assert
    or by an overflow in it.  [UB] and [Hang] are those of the constant
    evaluated loop (the compiler reports them). *)
Definition make_array_from_range (fuel : nat) (t ts : ity) (b e st : Z)
  : option (res (list Z)) :=
  let kmin := Z.min b e in
  let kmax := Z.max b e in
  match is_valid_range t ts kmin kmax st with
  | Some true =>
    Some (n <- step_count fuel t ts kmin kmax st;; fill_range n t ts b st)
  | _ => None
  end.
