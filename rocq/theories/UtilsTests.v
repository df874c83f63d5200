(** The expectations of /repo/tests/src/utils_tests.cpp, clz_tests.cpp, ctz_tests.cpp,
    memory_tests.cpp and memvcmp_tests.cpp, evaluated in the model.  They prove no
    property; they check that the model computes what the project's own tests observe. *)

Require Import ZArith List Bool Ascii String.
Require Import Verif.Outcome Verif.Machine Verif.TypeListModel Verif.BitsModel Verif.ArithModel Verif.MemModel.
Require Verif.CommonSpec Verif.CommonModel Verif.AbortModel.
Import ListNotations.
Open Scope list_scope.
Open Scope Z_scope.

Definition is_ok (r : res Z) (x : Z) : bool := match r with Ok y => y =? x | _ => false end.
Definition is_okb (r : res bool) (x : bool) : bool := match r with Ok y => Bool.eqb y x | _ => false end.

(** utils_tests.cpp:133-180 NBitsOccopied1 to 7 *)
Example nbits_occupied_tests : forallb (fun c => let '(t, v, n) := c in is_ok (nbits_occupied 100 t v) n)
  [(u8, 0, 0); (u8, 3, 2); (u8, 35, 6); (u8, 250, 8); (u32, 2505, 12); (u32, 10697, 14); (u32, 33521664, 25)] = true.
Proof. vm_compute. reflexivity. Qed.

(** 182-201 IsPowerOf2 *)
Example is_power_of_2_tests : forallb (fun c => Bool.eqb (is_power_of_2 (fst c)) (snd c))
  [(0, false); (1, true); (2, true); (3, false); (4, true); (5, false); (6, false); (7, false); (8, true); (9, false); (11, false); (12, false); (13, false); (14, false); (15, false); (16, true); (17, false); (143390, false); (65536, true)] = true.
Proof. vm_compute. reflexivity. Qed.

(** 203-273 SkipToAlignFor...; the alignment of the type, the address, the answer *)
Example skip_to_align_tests : forall dbg, forallb (fun c => let '(a, p, n) := c in
    match skip_to_align_for dbg a p with Some r => is_ok r n | None => false end)
  [(1, 0, 0); (1, 1, 0); (1, 2, 0); (1, 0, 0); (1, 1, 0); (1, 2, 0); (2, 0, 0); (2, 1, 1); (2, 2, 0); (2, 3, 1); (2, 4, 0); (4, 0, 0); (4, 1, 3); (4, 2, 2); (4, 3, 1); (4, 4, 0); (4, 5, 3); (8, 0, 0); (8, 1, 7); (8, 2, 6); (8, 3, 5); (8, 4, 4); (8, 5, 3); (8, 6, 2); (8, 7, 1); (8, 8, 0); (8, 9, 7); (8, 10, 6); (8, 11, 5)] = true.
Proof. intros [|]; vm_compute; reflexivity. Qed.

(** 275-309 NextMultipleOf8, NextMultipleOf16 *)
Example next_multiple_of_tests : forallb (fun c => let '(m, v, n) := c in
    match next_multiple_of_t m i32 v with Some r => is_ok r n | None => false end)
  [(8, 0, 0); (8, 1, 8); (8, 2, 8); (8, 3, 8); (8, 4, 8); (8, 5, 8); (8, 6, 8); (8, 7, 8); (8, 8, 8); (8, 9, 16); (16, 0, 0); (16, 1, 16); (16, 2, 16); (16, 3, 16); (16, 4, 16); (16, 5, 16); (16, 6, 16); (16, 7, 16); (16, 8, 16); (16, 9, 16); (16, 10, 16); (16, 11, 16); (16, 12, 16); (16, 13, 16); (16, 14, 16); (16, 15, 16); (16, 16, 16); (16, 17, 32)] = true.
Proof. vm_compute. reflexivity. Qed.

(** 348-391 MaxAlignmentInsideBlock *)
Example max_alignment_tests : forall dbg, forallb (fun c => let '(a, s, n) := c in is_ok (max_alignment_inside_block dbg a s) n)
  [(1, 1, 1); (1, 2, 2); (1, 3, 2); (1, 4, 4); (1, 5, 4); (1, 6, 4); (1, 7, 4); (1, 8, 8); (2, 1, 2); (2, 2, 2); (2, 3, 4); (2, 4, 4); (2, 5, 4); (2, 6, 4); (2, 7, 8); (2, 8, 8); (4, 1, 4); (4, 2, 4); (4, 3, 4); (4, 4, 4); (4, 5, 8); (4, 6, 8); (4, 7, 8); (4, 8, 8); (4, 9, 8); (4, 10, 8); (4, 11, 8); (4, 12, 8); (4, 13, 16); (8, 1, 8); (8, 2, 8); (8, 3, 8); (8, 4, 8); (8, 5, 8); (8, 6, 8); (8, 7, 8); (8, 8, 8); (8, 9, 16)] = true.
Proof. intros [|]; vm_compute; reflexivity. Qed.

(** 393-411 GreatesDivisorThatIsPowerOf2 *)
Example greatest_divisor_tests : is_ok (greatest_divisor u8 0) 128 && forallb (fun c => is_ok (greatest_divisor u32 (fst c)) (snd c))
  [(1, 1); (2, 2); (3, 1); (4, 4); (5, 1); (6, 2); (7, 1); (8, 8); (9, 1); (10, 2); (11, 1); (12, 4)] = true.
Proof. vm_compute. reflexivity. Qed.

(** 333-346 IsAligned; an object of type int16_t is somewhere, at an even address *)
Example is_aligned_tests : forall dbg,
  forallb (fun p => is_okb (is_aligned_for dbg 2 p) true && is_okb (is_aligned_for dbg 2 (p + 1)) false &&
                    is_okb (is_aligned_for dbg 2 (p + 2)) true) [2; 65536; 65538] &&
  forallb (fun p => is_okb (is_aligned_for dbg 8 p) true) [8; 65536; 65544] = true.
Proof. intros [|]; vm_compute; reflexivity. Qed.

(** clz_tests.cpp; width in bytes, value, answer; with the intrinsics of GCC and Clang *)
Example clz_tests : forall dbg, forallb (fun c => let '(k, v, n) := (c : nat * Z * Z) in
    match clz dbg 100 gcc_types (TAtom 7 k) v with Some r => is_ok r n | None => false end)
  [(1%nat, 133, 0); (1%nat, 36, 2); (1%nat, 24, 3); (1%nat, 1, 7); (2%nat, 34053, 0); (2%nat, 9220, 2); (2%nat, 6280, 3); (2%nat, 384, 7); (2%nat, 1, 15); (4%nat, 2231698693, 0); (4%nat, 604242948, 2); (4%nat, 411601032, 3); (4%nat, 25198720, 7); (4%nat, 98304, 15); (4%nat, 1, 31); (8%nat, 9585072901045159173, 0); (8%nat, 2595203700566000644, 2); (8%nat, 1767812973730498696, 3); (8%nat, 108227680456966272, 7); (8%nat, 422214612582400, 15); (8%nat, 6442450944, 31); (8%nat, 1, 63); (8%nat, 256, 55)] = true.
Proof. intros [|]; vm_compute; reflexivity. Qed.

Example crafted_clz_tests : forall dbg, forallb (fun c => let '(t, v, n) := (c : ity * Z * Z) in is_ok (crafted_clz dbg 70 t v) n)
  [(u8, 133, 0); (u8, 36, 2); (u8, 24, 3); (u8, 1, 7); (u16, 34053, 0); (u16, 9220, 2); (u16, 6280, 3); (u16, 384, 7); (u16, 1, 15); (u32, 2231698693, 0); (u32, 604242948, 2); (u32, 411601032, 3); (u32, 25198720, 7); (u32, 98304, 15); (u32, 1, 31); (u64, 9585072901045159173, 0); (u64, 2595203700566000644, 2); (u64, 1767812973730498696, 3); (u64, 108227680456966272, 7); (u64, 422214612582400, 15); (u64, 6442450944, 31); (u64, 1, 63); (u64, 256, 55)] = true.
Proof. intros [|]; vm_compute; reflexivity. Qed.

(** ctz_tests.cpp; width in bytes, value, answer; with the intrinsics of GCC and Clang *)
Example ctz_tests : forall dbg, forallb (fun c => let '(k, v, n) := (c : nat * Z * Z) in
    match ctz dbg 100 gcc_types (TAtom 7 k) v with Some r => is_ok r n | None => false end)
  [(1%nat, 5, 0); (1%nat, 4, 2); (1%nat, 136, 3); (1%nat, 128, 7); (2%nat, 1285, 0); (2%nat, 1028, 2); (2%nat, 34952, 3); (2%nat, 32896, 7); (2%nat, 32768, 15); (4%nat, 84215045, 0); (4%nat, 67372036, 2); (4%nat, 2290649224, 3); (4%nat, 2155905152, 7); (4%nat, 2147516416, 15); (4%nat, 2147483648, 31); (8%nat, 361700864190383365, 0); (8%nat, 289360691352306692, 2); (8%nat, 9838263505978427528, 3); (8%nat, 9259542123273814144, 7); (8%nat, 9223512776490647552, 15); (8%nat, 9223372039002259456, 31); (8%nat, 9223372036854775808, 63); (8%nat, 9259400833873739776, 55)] = true.
Proof. intros [|]; vm_compute; reflexivity. Qed.

Example crafted_ctz_tests : forall dbg, forallb (fun c => let '(t, v, n) := (c : ity * Z * Z) in is_ok (crafted_ctz dbg 70 t v) n)
  [(u8, 5, 0); (u8, 4, 2); (u8, 136, 3); (u8, 128, 7); (u16, 1285, 0); (u16, 1028, 2); (u16, 34952, 3); (u16, 32896, 7); (u16, 32768, 15); (u32, 84215045, 0); (u32, 67372036, 2); (u32, 2290649224, 3); (u32, 2155905152, 7); (u32, 2147516416, 15); (u32, 2147483648, 31); (u64, 361700864190383365, 0); (u64, 289360691352306692, 2); (u64, 9838263505978427528, 3); (u64, 9259542123273814144, 7); (u64, 9223512776490647552, 15); (u64, 9223372039002259456, 31); (u64, 9223372036854775808, 63); (u64, 9259400833873739776, 55)] = true.
Proof. intros [|]; vm_compute; reflexivity. Qed.

(** utils_tests.cpp:16-76 MakeEmptyArray to MakeByteArrayFromStringView2; characters are
    their codes *)
Definition codes (s : string) : list Z := map (fun c => Z.of_nat (nat_of_ascii c)) (list_ascii_of_string s).
Definition from_sv (dbg : bool) (s : string) : res (list Z) :=
  make_array_sv Z (fun c => c) dbg (List.length (codes s)) (codes s).
Example make_array_tests : forall dbg,
  make_array_ints [] = Some [] /\ from_sv dbg "" = Ok [] /\ from_sv dbg "f" = Ok [102] /\
  from_sv dbg "10101111" = Ok [49; 48; 49; 48; 49; 49; 49; 49].
Proof. intros [|]; repeat split; vm_compute; reflexivity. Qed.

(** 78-131 MakeArrayWithEqValues1 to 3, MakeZeroArray; moving from an integer copies it *)
Example filled_array_tests :
  make_array_value Z (fun v => (v, v)) 10 0 = [] /\ make_array_value Z (fun v => (v, v)) 10 5 = [10; 10; 10; 10; 10] /\
  make_zero_array Z (fun v => (v, v)) 0 5 = [0; 0; 0; 0; 0] /\
  make_zero_array Z (fun v => (v, v)) 0 10 = repeat 0 10.
Proof. repeat split. Qed.

Section Types.
  Import Verif.CommonSpec Verif.CommonModel.
  (** integer types by name; long and long long have the size of int64_t *)
  Definition SChar := Integer true 1 1. Definition UChar := Integer false 2 1. Definition Char := Integer true 3 1.
  Definition UShort := Integer false 4 2. Definition Short := Integer true 5 2.
  Definition UInt_ := Integer false 6 4. Definition Int := Integer true 7 4.
  Definition ULong := Integer false 8 8. Definition Long := Integer true 9 8.
  Definition Float := Floating 4. Definition Double := Floating 8. Definition IntPtr := Named 1 8.

  (** 311-318 IsRefWrapper, 320-331 UnwrapReference *)
  Example ref_wrapper_tests :
    is_ref_wrapper Int = false /\ is_ref_wrapper (RefWrapper Char) = true /\
    is_ref_wrapper (RefWrapper (Cv true false Int)) = true /\
    unwrap_reference IntPtr = IntPtr /\ unwrap_reference (RefWrapper IntPtr) = LRef IntPtr /\
    unwrap_reference (RefWrapper (Cv true false Int)) = LRef (Cv true false Int).
  Proof. repeat split. Qed.

  (** 485-500 UtilsIsUIntTest *)
  Example is_uint_tests :
    forallb (fun t => negb (is_uint t)) [Bool; Float; Double; SChar; Int; Tuple [UChar] 1] = true /\
    forallb is_uint [UChar; UChar; UShort; UInt_; ULong] = true.
  Proof. split; reflexivity. Qed.

  (** 502-515 IsEqualSizes *)
  Example is_equal_sizes_tests :
    forallb is_equal_sizes [[]; [Char]; [Bool; Char]; [Float; Float]; [Bool; Char; UChar]; [Bool; Char; UChar; UChar]] = true /\
    is_equal_sizes [Bool; Char; UChar; UChar; Short] = false /\ is_equal_sizes [Bool; Long] = false.
  Proof. repeat split. Qed.

  (** 716-726 IsUintOrByte *)
  Example is_uint_or_byte_tests :
    forallb is_uint_or_byte [UChar; UShort; UInt_; ULong; Byte; UInt_] = true /\
    is_uint_or_byte Float = false /\ is_uint_or_byte Int = false.
  Proof. repeat split. Qed.
End Types.

(** 517-651 the Div tests: operand types, the type of the members; 10 / 3 in both modes *)
Example div_tests : forall dbg, Forall (fun c => let '(t, u, r) := (c : ity * ity * ity) in
    common t u = r /\ div_constant dbg t u 10 3 = Ok (3, 1) /\ div_runtime dbg t u 10 3 = Ok (3, 1))
  [(i32, i32, i32); (i64, i64, i64); (i8, i8, i8); (i8, i32, i32); (u64, i32, u64)].
Proof. intros [|]; repeat constructor. Qed.
Example div_as_tests : forall dbg, div_as_constant dbg u16 10 3 = Ok (3, 1) /\ div_as_runtime dbg u16 10 3 = Ok (3, 1).
Proof. intros [|]; split; reflexivity. Qed.

(** 653-714 DivTCreation: constants, then references to objects and moved objects, which are
    no constants.  A reference to a const integer initialised with a constant is one too; the
    type is the same either way. *)
Definition deduces (const : bool) (t u c : ity) : Prop :=
  make_div_t (Operand (Some t) 1 const) (Operand (Some u) 1 const) = Some (c, 1, 1).
Example div_t_tests :
  Forall (fun k => let '(t, u, c) := (k : ity * ity * ity) in deduces true t u c)
    [(i32, i32, i32); (u8, u8, u8); (u16, u16, u16); (u32, u32, u32); (u64, u64, u64); (u64, i32, u64);
     (u8, u16, promote u8); (u32, u8, u32)] /\
  Forall (fun k => let '(t, u, c) := (k : ity * ity * ity) in deduces false t u c)
    [(i32, i32, i32); (u16, i32, i32); (i64, i32, i64); (u8, u8, u8)].
Proof. split; repeat constructor. Qed.

(** 413-482 the abort_if tests; whether the program ends *)
Example abort_if_tests :
  AbortModel.aborted (AbortModel.abort_if true None) = true /\
  AbortModel.abort_if true (Some 5%nat) = AbortModel.Ending [5%nat] true /\
  AbortModel.aborted (AbortModel.abort_if false None) = false /\
  AbortModel.aborted (AbortModel.abort_if false (Some 5%nat)) = false.
Proof. repeat split. Qed.

(** memory_tests.cpp:16-18, 72-82: every address from 1 to 150 *)
Example get_alignment_tests : forall dbg,
  match make_array_from_range 200 u64 u64 1 150 1 with
  | Some (Ok ps) =>
    (List.length ps =? 150)%nat && forallb (fun p => match get_alignment dbg 100 gcc_types (TAtom 7 8) p, crafted_ctz dbg 70 u64 p with
                          | Some (Ok a), Ok n => a =? 2 ^ n
                          | _, _ => false
                          end) ps
  | _ => false
  end = true.
Proof. intros [|]; vm_compute; reflexivity. Qed.

(** memory: [n] bytes at [a] hold [f 0], [f 1], ... *)
Definition bytes (a : Z) (n : nat) (f : Z -> Z) : mem :=
  fun x => if (a <=? x) && (x <? a + Z.of_nat n) then Some (f (x - a)) else None.
Definition both (m1 m2 : mem) : mem := fun x => match m1 x with Some b => Some b | None => m2 x end.
Definition all_zero (l : list Z) : bool := forallb (fun b => b =? 0) l.

(** 84-141 SecureZeroMem... *)
Example secure_zero_tests :
  (match secure_zero_memory (bytes 4096 256 (fun _ => 10)) 4096 256 with
   | Ok m => match load_range m 4096 256 with Ok l => all_zero l | _ => false end | _ => false end) = true /\
  (match secure_zero_memory_safe (bytes 4096 256 (fun _ => 10)) 4096 256 with
   | Ok (r, m) => (r =? 0) && match load_range m 4096 256 with Ok l => all_zero l | _ => false end | _ => false end) = true /\
  (match secure_zero_memory_safe (bytes 4096 16 (fun _ => 10)) 0 0 with Ok (r, _) => r =? -1 | _ => false end) = true /\
  (match secure_zero_memory_safe (bytes 4096 16 (fun _ => 10)) 4096 0 with Ok (r, _) => r =? -2 | _ => false end) = true.
Proof. repeat split; vm_compute; reflexivity. Qed.

(** 143-176 Memmove, MemmoveConstexpr *)
Definition moved : list Z := [5; 6; 7; 8; 9; 10; 11; 12; 13; 14; 10; 11; 12; 13; 14; 15].
Definition content (r : res (Z * mem)) (a : Z) (n : nat) : res (list Z) :=
  match r with Ok (_, m) => load_range m a n | UB => UB | Abort => Abort | Hang => Hang end.
Example memmove_tests :
  content (memmove_runtime (bytes 4096 16 (fun i => i)) 4096 4101 10) 4096 16 = Ok moved /\
  content (memmove_constant (bytes 4096 16 (fun i => i)) 4096 4101 10) 4096 16 = Ok moved.
Proof. split; vm_compute; reflexivity. Qed.

(** 219-355 the memcpy tests: 16 bytes 1, 2, ... into another buffer, with void pointers at
    run time only *)
Definition two_buffers : mem := both (bytes 4096 16 (fun i => i + 1)) (bytes 8192 16 (fun _ => 0)).
Definition copied : list Z := map (fun i => Z.of_nat i + 1) (seq 0 16).
Example memcpy_tests : forall dbg,
  content (match memcpy_runtime dbg two_buffers 8192 4096 16 with Ok m => Ok (0, m) | _ => UB end) 8192 16 = Ok copied /\
  Forall (fun k => match memcpy_constant dbg (fst k) (snd k) two_buffers 8192 4096 16 with
                   | Some (Ok m) => load_range m 8192 16 = Ok copied
                   | _ => False
                   end) [(BChar, BChar)].
Proof. intros [|]; repeat constructor; vm_compute; reflexivity. Qed.

(** memvcmp_tests.cpp *)
Example memvcmp_tests :
  memvcmp (bytes 4096 10 (fun _ => 0)) 4096 0 10 = Ok true /\ memvcmp (bytes 4096 10 (fun _ => 0)) 0 0 0 = Ok false /\
  memvcmp (bytes 4096 10 (fun _ => 0)) 0 0 10 = Ok false /\ memvcmp (bytes 4096 1 (fun _ => 0)) 4096 0 1 = Ok true.
Proof. repeat split; vm_compute; reflexivity. Qed.
