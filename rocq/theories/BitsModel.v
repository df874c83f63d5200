(** Model of the bit and alignment arithmetic of common.h, clz.h, ctz.h and
    memory/memory.h:113-119. *)

Require Import ZArith List Bool.
Require Import Verif.Outcome Verif.Machine Verif.TypeListModel.
Import ListNotations.
Open Scope Z_scope.
Open Scope res_scope.

(** common.h:378-381 is_power_of_2 (std::size_t) *)
Definition is_power_of_2 (v : Z) : bool :=
  negb (v =? 0) && (Z.land v (wrap 64 (v - 1)) =? 0).

(** common.h:383-388 next_multiple_of(aMultiple, aValue) (std::uintptr_t) *)
Definition next_multiple_of (dbg : bool) (m v : Z) : res Z :=
  cassert dbg (is_power_of_2 m)
    (Ok (Z.land (wrap 64 (wrap 64 (v + m) - 1)) (wrap 64 (- m)))).

(** common.h:390-395 next_multiple_of<PowOf2>(U aValue): computed in the
    promoted type of U, converted back to U on return.  PowOf2 is given by its
    value; is_power_of_2(PowOf2) is the enable_if condition (None). *)
Definition next_multiple_of_t (p : Z) (u : ity) (v : Z) : option (res Z) :=
  if is_power_of_2 p then
    Some (s <- arith (promote u) (v + conv u (p - 1));;
          n <- neg (promote u) (conv u p);;
          Ok (conv u (Z.land s n)))
  else None.

(** common.h:397-403 skip_to_align(aPtr, aAlignment) *)
Definition skip_to_align (dbg : bool) (ptr align : Z) : res Z :=
  cassert dbg (is_power_of_2 align)
    (n <- next_multiple_of dbg align ptr;; Ok (wrap 64 (n - ptr))).

(** common.h:432-436 is_aligned(aPtr, aAlignment) *)
Definition is_aligned (dbg : bool) (ptr align : Z) : res bool :=
  cassert dbg (is_power_of_2 align)
    (Ok (Z.land ptr (wrap 64 (align - 1)) =? 0)).

(** common.h:405-411 skip_to_align<T>(aPtr) and 438-443 is_aligned<T>(aPtr); [al] is
    alignof(T).  [None]: the static_assert fails. *)
Definition skip_to_align_for (dbg : bool) (al ptr : Z) : option (res Z) :=
  if is_power_of_2 al then Some (skip_to_align dbg ptr al) else None.
Definition is_aligned_for (dbg : bool) (al ptr : Z) : res bool := is_aligned dbg ptr al.

(** common.h:354-357 bits_count: recursion on aValue >> 1, every level converts
    to uint8_t.  A 64-bit value is 0 after at most 64 shifts. *)
Fixpoint bits_count_rec (fuel : nat) (v : Z) : res Z :=
  match fuel with
  | O => Hang
  | S fuel' =>
    if v =? 0 then Ok 0
    else r <- bits_count_rec fuel' (v / 2);; Ok (conv u8 (1 + r))
  end.
Definition bits_count (v : Z) : res Z := bits_count_rec 65 v.

(** common.h:632-646 nbits_occupied<T>(aValue): loop on a copy of type T *)
Fixpoint nbits_occupied_loop (fuel : nat) (t : ity) (v n : Z) : res Z :=
  match fuel with
  | O => Hang
  | S fuel' =>
    if v =? 0 then Ok n
    else s <- shr (promote t) v 1;; nbits_occupied_loop fuel' t (conv t s) (wrap 64 (n + 1))
  end.
Definition nbits_occupied (fuel : nat) (t : ity) (v : Z) : res Z :=
  nbits_occupied_loop fuel t v 0.

(** common.h:370-376 greatest_divisor_that_is_power_of_2<T> *)
Definition greatest_divisor (t : ity) (v : Z) : res Z :=
  if v =? 0 then
    r <- shl (promote t) 1 (bits t - 1);; Ok (conv t r)
  else
    d <- arith (promote t) (v - 1);;
    Ok (conv t (Z.land v (conv (promote t) (Z.lnot d)))).

(** common.h:413-430 max_alignment_inside_block.  [1 << msb] is a shift of an
    int; its value is converted to std::size_t afterwards. *)
Definition max_alignment_inside_block (dbg : bool) (align size : Z) : res Z :=
  cassert dbg (is_power_of_2 align)
   (cassert dbg (0 <? size)
     (let value := wrap 64 (wrap 64 (align + size) - 1) in
      b <- bits_count value;;
      let msb := wrap 64 (b - 1) in
      s <- shl i32 1 msb;;
      Ok (conv u64 s))).

(** common.h:184-208, 352: numBitSet / getNumBits / kNumBitsTable *)
Definition num_bit_set (v : Z) (is : list nat) : Z :=
  conv u8 (fold_left (fun acc i => acc + Z.land (v / 2 ^ Z.of_nat i) 1) is 0).
Definition get_num_bits (v : Z) : Z := num_bit_set v (seq 0 8).
Definition k_num_bits_table : list Z := map (fun i => get_num_bits (Z.of_nat i)) (seq 0 256).

(** * Leading and trailing zeros *)

(** Trusted meaning of the compiler intrinsics: __builtin_clz*, and
    sizeof*CHAR_BIT - _BitScanReverse - 1 (clz.h:29-109); __builtin_ctz*,
    _BitScanForward (ctz.h:29-106).  Undefined for 0, asserted in debug. *)
Definition calc_clz (dbg : bool) (size : nat) (v : Z) : res Z :=
  cassert dbg (0 <? v)
    (if v =? 0 then UB else Ok (8 * Z.of_nat size - 1 - Z.log2 v)).

(** trusted meaning of __builtin_ctz and _BitScanForward: the zeros below the lowest one bit *)
Fixpoint trailing_zeros (p : positive) : Z :=
  match p with xO q => 1 + trailing_zeros q | _ => 0 end.
(** ctz.h:29-106 ctz_ui, ctz_ul, ctz_ull and 108-130 calc_ctz; undefined for 0, asserted in debug *)
Definition calc_ctz (dbg : bool) (v : Z) : res Z :=
  cassert dbg (0 <? v)
    (match v with Zpos p => Ok (trailing_zeros p) | _ => UB end).

(** common.h:84-90 is_equal_sizes<U,T>: value_list<sizeof(U),sizeof(T)>::is_same *)
Definition is_equal_sizes (u t : ty) : bool :=
  v_is_all_same [Val 0 (Z.of_nat (sizeof u)); Val 0 (Z.of_nat (sizeof t))].

(** details/cxz.h:8-11 less_eq_pred<U, T> *)
Definition less_eq_pred (u t : ty) : bool := (sizeof t <=? sizeof u)%nat.

(** clz.h:138-175.  [supported] is supported_clz_types; [sz] is SIZE_MAX+1. *)
Definition clz (dbg : bool) (sz : nat) (supported : list ty) (t : ty) (v : Z)
  : option (res Z) :=
  match sort_sizeof_ascending sz supported with
  | None => None
  | Some sorted =>
    match list_of_predicate_compliant (fun u => is_equal_sizes u t) sorted with
    | Some (TTypes eqs) =>
      if negb (length eqs =? 0)%nat then
        match at_impl 0 eqs with
        | Some u => Some (calc_clz dbg (sizeof u) (wrap (8 * Z.of_nat (sizeof u)) v))
        | None => None
        end
      else
        let i := index_of (fun u => less_eq_pred u t) sorted in
        if (i <? length sorted)%nat then
          match at_impl i sorted with
          | Some u =>
            let diff := (Z.of_nat (sizeof u) - Z.of_nat (sizeof t)) * 8 in
            Some (r <- calc_clz dbg (sizeof u) (wrap (8 * Z.of_nat (sizeof u)) v);;
                  Ok (r - diff))
          | None => None
          end
        else None
    | _ => None
    end
  end.

(** ctz.h:135-166 *)
Definition ctz (dbg : bool) (sz : nat) (supported : list ty) (t : ty) (v : Z)
  : option (res Z) :=
  match sort_sizeof_ascending sz supported with
  | None => None
  | Some sorted =>
    match list_of_predicate_compliant (fun u => is_equal_sizes u t) sorted with
    | Some (TTypes eqs) =>
      if negb (length eqs =? 0)%nat then
        match at_impl 0 eqs with
        | Some u => Some (calc_ctz dbg (wrap (8 * Z.of_nat (sizeof u)) v))
        | None => None
        end
      else
        let i := index_of (fun u => less_eq_pred u t) sorted in
        if (i <? length sorted)%nat then
          match at_impl i sorted with
          | Some u => Some (calc_ctz dbg (wrap (8 * Z.of_nat (sizeof u)) v))
          | None => None
          end
        else None
    | _ => None
    end
  end.

(** The supported_clz_types / supported_ctz_types lists: GCC and Clang
    (clz.h:111-114), MSVC 64 bit (clz.h:71-75), MSVC 32 bit (clz.h:84-87). *)
Definition gcc_types : list ty := [TAtom 0 4; TAtom 1 8; TAtom 2 8].
Definition msvc64_types : list ty := [TAtom 1 4; TAtom 2 8].
Definition msvc32_types : list ty := [TAtom 1 4].

(** clz.h:17-27 crafted_clz<T> *)
Fixpoint crafted_clz_loop (fuel : nat) (t : ity) (v to_test n : Z) : res Z :=
  match fuel with
  | O => Hang
  | S fuel' =>
    if (n <? bits t - 1) && (Z.land v to_test =? 0) then
      s <- shr (promote t) to_test 1;;
      crafted_clz_loop fuel' t v (conv t s) (n + 1)
    else Ok n
  end.
Definition crafted_clz (dbg : bool) (fuel : nat) (t : ity) (v : Z) : res Z :=
  cassert dbg (0 <? v)
    (s <- shl (promote t) 1 (bits t - 1);; crafted_clz_loop fuel t v (conv t s) 0).

(** ctz.h:17-26 crafted_ctz<T> *)
Fixpoint crafted_ctz_loop (fuel : nat) (t : ity) (v n : Z) : res Z :=
  match fuel with
  | O => Hang
  | S fuel' =>
    if (n <? bits t - 1) && (Z.land v 1 =? 0) then
      s <- shr (promote t) v 1;;
      crafted_ctz_loop fuel' t (conv t s) (n + 1)
    else Ok n
  end.
Definition crafted_ctz (dbg : bool) (fuel : nat) (t : ity) (v : Z) : res Z :=
  cassert dbg (0 <? v) (crafted_ctz_loop fuel t v 0).

(** memory/memory.h:113-119 get_alignment: std::size_t{1} << ctz(address).
    [supported] and [t] (uintptr_t) select the intrinsic. *)
Definition get_alignment (dbg : bool) (sz : nat) (supported : list ty) (t : ty) (ptr : Z)
  : option (res Z) :=
  match ctz dbg sz supported t ptr with
  | Some r => Some (cassert dbg (negb (ptr =? 0)) (n <- r;; shl u64 1 n))
  | None => None
  end.

(** common.h:763-773 shift_right, 775-785 shift_left *)
Definition shift_right (dbg : bool) (t : ity) (v n : Z) : res Z :=
  cassert dbg (n <? bits t) (s <- shr (promote t) v n;; Ok (conv t s)).
Definition shift_left (dbg : bool) (t : ity) (v n : Z) : res Z :=
  cassert dbg (n <? bits t) (s <- shl (promote t) v n;; Ok (conv t s)).

(** common.h:678-682 to_underlying(e) for an enumeration with underlying type [u]; an
    enumeration value is a value of its underlying type *)
Definition to_underlying (u : ity) (e : Z) : Z := conv u e.
(** static_cast<E>(x), the way back *)
Definition enum_of (u : ity) (x : Z) : Z := conv u x.
