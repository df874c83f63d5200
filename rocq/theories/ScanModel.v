(** clz.h and ctz.h once more, with what BitsModel.v leaves out: which implementation is
    used while compiling and which when the program runs, the types of the intermediate
    values, and the type of the result.  While compiling, [Abort] and [UB] mean that the
    expression is not constant and the program is rejected. *)

Require Import ZArith List Bool.
Require Import Verif.Outcome Verif.Machine Verif.TypeListModel Verif.BitsModel.
Require Import Verif.ScanSpec.  (* for compiler, phase and question only *)
Import ListNotations.
Open Scope Z_scope.
Open Scope res_scope.

(** std::size_t *)
Definition size_bits (c : compiler) : Z := match c with Gcc32 | Msvc32 => 32 | _ => 64 end.

(** clz.h:111-114, ctz.h:108-111 (GCC, Clang: unsigned int, unsigned long, unsigned long
    long); clz.h:71-75, ctz.h:68-72 (unsigned long, unsigned __int64); clz.h:84-87,
    ctz.h:81-84 (unsigned long).  unsigned long has 4 bytes on Windows and on 32-bit
    platforms. *)
Definition operand_types (c : compiler) : list ty :=
  match c with
  | Gcc64 => gcc_types
  | Gcc32 => [TAtom 0 4; TAtom 1 4; TAtom 2 8]
  | Msvc64 => msvc64_types
  | Msvc32 => msvc32_types
  end.

(** the type of the result: the intrinsics of GCC return int (clz.h:93-109,
    ctz.h:90-106, all decltype(auto)), the functions for MSVC unsigned long (clz.h:32, 54;
    ctz.h:31, 52); clz.h:155-163 computes in that type too *)
Definition result_type (c : compiler) : ity :=
  match c with Gcc64 | Gcc32 => i32 | Msvc64 | Msvc32 => u32 end.

(** trusted: _BitScanReverse and _BitScanForward store the position of the highest and of
    the lowest one bit; the position is undefined for 0 *)
Definition bit_scan_reverse (v : Z) : res Z := if v =? 0 then UB else Ok (Z.log2 v).
Definition bit_scan_forward (v : Z) : res Z := match v with Zpos p => Ok (trailing_zeros p) | _ => UB end.

(** trusted: __builtin_clz, __builtin_clzl, __builtin_clzll and their ctz counterparts, for
    an operand of [s] bytes; undefined for 0 *)
Definition builtin_clz (s : nat) (v : Z) : res Z :=
  if v =? 0 then UB else Ok (8 * Z.of_nat s - 1 - Z.log2 v).
Definition builtin_ctz (v : Z) : res Z := match v with Zpos p => Ok (trailing_zeros p) | _ => UB end.

(** clz_ui, clz_ul, clz_ull for an operand of [s] bytes: clz.h:93-109 (GCC, Clang),
    clz.h:32-46 and 54-68 (MSVC).  The hand-written loop is cut off after 64 rounds. *)
Definition clz_operand (c : compiler) (ph : phase) (dbg : bool) (s : nat) (v : Z) : res Z :=
  cassert dbg (0 <? v)
    (match c with
     | Gcc64 | Gcc32 => r <- builtin_clz s v;; Ok (conv i32 r)
     | Msvc64 | Msvc32 =>
       match ph with
       | Compiling => crafted_clz dbg 64 (Ity (8 * Z.of_nat s) false) v
       | Running =>
         i <- bit_scan_reverse v;;
         let w := size_bits c in
         Ok (conv u32 (wrap w (wrap w (wrap w (8 * Z.of_nat s) - i) - 1)))
       end
     end).

(** ctz_ui, ctz_ul, ctz_ull: ctz.h:90-106 (GCC, Clang), ctz.h:31-44 and 52-65 (MSVC) *)
Definition ctz_operand (c : compiler) (ph : phase) (dbg : bool) (s : nat) (v : Z) : res Z :=
  cassert dbg (0 <? v)
    (match c with
     | Gcc64 | Gcc32 => r <- builtin_ctz v;; Ok (conv i32 r)
     | Msvc64 | Msvc32 =>
       match ph with
       | Compiling => crafted_ctz dbg 64 (Ity (8 * Z.of_nat s) false) v
       | Running => bit_scan_forward v
       end
     end).

(** clz.h:141-154, ctz.h:138-159: the operand type used for [t], and whether it was found as
    one of the same size; None: the static_assert at clz.h:166-171, ctz.h:157-162 fails *)
Definition chosen (sz : nat) (supported : list ty) (t : ty) : option (bool * ty) :=
  match sort_sizeof_ascending sz supported with
  | None => None
  | Some sorted =>
    match list_of_predicate_compliant (fun u => is_equal_sizes u t) sorted with
    | Some (TTypes eqs) =>
      if negb (length eqs =? 0)%nat then
        match at_impl 0 eqs with Some u => Some (true, u) | None => None end
      else
        let i := index_of (fun u => less_eq_pred u t) sorted in
        if (i <? length sorted)%nat then
          match at_impl i sorted with Some u => Some (false, u) | None => None end
        else None
    | _ => None
    end
  end.

(** clz.h:138-175 and ctz.h:135-166.  In clz of a narrower type (155-163) the difference of
    the widths, a std::size_t, is converted to the result type and subtracted in it. *)
Definition count_zeros (q : question) (c : compiler) (ph : phase) (dbg : bool) (t : ty) (v : Z)
  : option (res Z) :=
  match chosen 100 (operand_types c) t with
  | None => None
  | Some (same, u) =>
    let x := wrap (8 * Z.of_nat (sizeof u)) v in
    match q with
    | Trailing => Some (ctz_operand c ph dbg (sizeof u) x)
    | Leading =>
      Some (r <- clz_operand c ph dbg (sizeof u) x;;
            if same then Ok r
            else
              let w := size_bits c in
              let diff := wrap w (wrap w (Z.of_nat (sizeof u) - Z.of_nat (sizeof t)) * 8) in
              arith (result_type c) (r - conv (result_type c) diff))
    end
  end.

(** what a user writes with two results: clz(a) - clz(b), an expression of the common type
    (trusted: C++ arithmetic, Machine.v) *)
Definition difference (c : compiler) (x y : Z) : res Z := arith (result_type c) (x - y).

(** clz(a) < k and k < clz(a) for an int [k]: both sides are converted to the common type *)
Definition less_than_int (c : compiler) (x k : Z) : bool :=
  let t := usual (result_type c) i32 in conv t x <? conv t k.
Definition int_less_than (c : compiler) (k x : Z) : bool :=
  let t := usual (result_type c) i32 in conv t k <? conv t x.
