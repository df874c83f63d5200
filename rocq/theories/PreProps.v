(** Property C104: debug builds stop at a call that breaks a precondition, and at no
    other; what release builds do then. *)

Require Import ZArith List Lia Bool.
Require Import Verif.Outcome Verif.Machine Verif.TypeListModel.
Require Import Verif.BitsModel Verif.BitsSpec Verif.ArithModel Verif.MemModel.
Require Import Verif.SimpleSpec Verif.MonoModel Verif.SimpleModel Verif.SimpleExamples Verif.PreProofs.
Import ListNotations.
Open Scope Z_scope.

(** the alignment must be a power of two *)
Theorem C104_alignment : forall a p, 0 <= a < 2 ^ 64 -> 0 <= p < 2 ^ 64 ->
  (next_multiple_of true a p = Abort <-> ~ pow2 a) /\
  (skip_to_align true p a = Abort <-> ~ pow2 a) /\
  (is_aligned true p a = Abort <-> ~ pow2 a).
Proof. exact alignment_arguments. Qed.
Print Assumptions C104_alignment.

Theorem C104_max_alignment : forall a n, 0 <= a < 2 ^ 64 -> 0 <= n < 2 ^ 64 ->
  (max_alignment_inside_block true a n = Abort <-> ~ pow2 a \/ n = 0).
Proof. exact max_alignment_arguments. Qed.
Print Assumptions C104_max_alignment.

(** zero has no leading or trailing zeros, and null no alignment: undefined in release
    builds *)
Theorem C104_zero : forall dbg sz supported t, (length supported < sz)%nat -> (0 < sizeof t)%nat ->
  (exists u, In u supported /\ (sizeof t <= sizeof u)%nat) ->
  clz dbg sz supported t 0 = Some (if dbg then Abort else UB) /\
  ctz dbg sz supported t 0 = Some (if dbg then Abort else UB) /\
  get_alignment dbg sz supported t 0 = Some (if dbg then Abort else UB).
Proof. exact zero_has_no_bits. Qed.
Print Assumptions C104_zero.

(** the handmade versions answer the width minus one in release builds *)
Theorem C104_crafted_zero : forall fuel t, std_ity t -> (64 <= fuel)%nat -> sgn t = false ->
  crafted_clz true fuel t 0 = Abort /\ crafted_clz false fuel t 0 = Ok (bits t - 1) /\
  crafted_ctz true fuel t 0 = Abort /\ crafted_ctz false fuel t 0 = Ok (bits t - 1).
Proof. exact crafted_zero. Qed.
Print Assumptions C104_crafted_zero.

(** a shift must be by less than the width *)
Theorem C104_shift : forall t v n, std_ity t -> inty t v -> 0 <= n ->
  (shift_left true t v n = Abort <-> bits t <= n) /\
  (shift_right true t v n = Abort <-> bits t <= n) /\
  (bits t <= n -> 32 <= n -> shift_left false t v n = UB /\ shift_right false t v n = UB).
Proof. exact shift_arguments. Qed.
Print Assumptions C104_shift.

(** a divisor must not be zero; for div_as<R> it must not be zero in R *)
Theorem C104_div : forall t u n d, std_ity t -> std_ity u ->
  (div_constant true t u n d = Abort <-> d = 0) /\ (div_runtime true t u n d = Abort <-> d = 0) /\
  div_constant false t u n 0 = UB /\ div_runtime false t u n 0 = UB.
Proof. exact div_arguments. Qed.
Print Assumptions C104_div.

Theorem C104_div_as : forall r n d, std_ity r ->
  (div_as_constant true r n d = Abort <-> conv r d = 0) /\
  (div_as_runtime true r n d = Abort <-> conv r d = 0) /\
  (conv r d = 0 -> div_as_constant false r n d = UB /\ div_as_runtime false r n d = UB).
Proof. exact div_as_arguments. Qed.
Print Assumptions C104_div_as.

(** memcpy needs two pointers, even for no byte at all *)
Theorem C104_memcpy : forall to from m dst src n, to <> BVoid -> from <> BVoid ->
  (memcpy_runtime true m dst src n = Abort <-> dst = 0 \/ src = 0) /\
  (memcpy_constant true to from m dst src n = Some Abort <-> dst = 0 \/ src = 0).
Proof. exact memcpy_arguments. Qed.
Print Assumptions C104_memcpy.

(** a resource asked for memory (not for zero bytes) needs a power of two *)
Theorem C104_monotonic : forall s size a ans, 0 <= mnext s < 2 ^ 64 -> 0 <= a < 2 ^ 64 ->
  (mono_allocate true s size a ans = Abort <-> size <> 0 /\ ~ pow2 a).
Proof. exact mono_arguments. Qed.
Print Assumptions C104_monotonic.

Theorem C104_simple : forall c fuel s size a ans, DBG c = true -> 0 <= a < 2 ^ 64 ->
  size <> 0 -> ~ pow2 a -> allocate_impl c fuel s size a ans = Abort.
Proof. exact simple_arguments. Qed.
Print Assumptions C104_simple.

Example C104_instance :
  is_aligned true 48 24 = Abort /\ is_aligned true 48 16 = Ok true /\
  max_alignment_inside_block true 8 0 = Abort /\
  clz true 100 gcc_types (TAtom 9 2) 0 = Some Abort /\ ctz false 100 gcc_types (TAtom 9 2) 0 = Some UB /\
  crafted_ctz false 64 u16 0 = Ok 15 /\
  shift_left true u8 1 8 = Abort /\ shift_left false u8 1 8 = Ok 0 /\ shift_left false u32 1 32 = UB /\
  div_runtime true i32 u8 7 0 = Abort /\ div_as_constant true u8 7 256 = Abort /\ div_constant true i32 i32 7 256 = Ok (0, 7) /\
  memcpy_runtime true (fun _ => None) 0 0 0 = Abort /\
  mono_allocate true (mono_construct 4096 64 false) 8 12 (fun _ _ => 0) = Abort /\
  mono_allocate true (mono_construct 4096 64 false) 0 12 (fun _ _ => 0) = Ok (mono_construct 4096 64 false, 0, []) /\
  ~ pow2 24 /\ (exists u, In u gcc_types /\ (2 <= sizeof u)%nat).
Proof.
  repeat split; try reflexivity.
  - apply (C104_alignment 24 48); [lia|lia|reflexivity].
  - exists (TAtom 0 4). split; [left; reflexivity|cbn; lia].
Qed.
