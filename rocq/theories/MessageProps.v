(** Property C108: the text printed when the library stops a program. *)

Require Import ZArith List String Ascii Lia.
Require Import Verif.Outcome Verif.Machine Verif.SimpleModel Verif.SimpleView.
Require Import Verif.MessageSpec Verif.MessageModel Verif.MessageProofs.
Import ListNotations.
Open Scope Z_scope.
Open Scope string_scope.

(** UTILS_ABORT_IF says where and why, when the path of the file holds no % and the
    reason and its arguments fit each other *)
Theorem C108_text_partial : forall num ptr path line func, no_percent path -> no_percent line ->
  message num ptr path line func NoReason = Ok (expected path line func "") /\
  forall format args reason, printf num ptr format args = Ok reason ->
    message num ptr path line func (Reason format args) = Ok (expected path line func reason).
Proof. exact message_text. Qed.
Print Assumptions C108_text_partial.

(** the path is part of the format: a conversion in it takes the function's name as its
    argument, which is undefined for all conversions but %s and %p *)
Theorem C108_path_refuted : forall num ptr p1 c p2 line func w, no_percent p1 -> not_for_strings c ->
  message num ptr (p1 ++ String "%" (String c p2)) line func w = UB.
Proof. exact message_bad_path. Qed.
Print Assumptions C108_path_refuted.

(** exactly: a message without arguments is the expected one if and only if the path holds
    no % at all; %% and %s in the path are defined and give another text.  (The hypothesis
    keeps to the conversions the model of vfprintf knows.) *)
Theorem C108_path_exact_partial : forall num ptr path line func, plain_conversions path -> no_percent line ->
  (message num ptr path line func NoReason = Ok (expected path line func "") <-> no_percent path) /\
  forall format reason, printf num ptr format [] = Ok reason ->
    (message num ptr path line func (Reason format []) = Ok (expected path line func reason) <-> no_percent path).
Proof. exact message_exact_plain. Qed.
Print Assumptions C108_path_exact_partial.

(** simple_resource names the pointers it refuses *)
Theorem C108_boundaries_partial : forall num ptr path line func p q, no_percent path -> no_percent line ->
  message num ptr path line func (below p q) = Ok (expected path line func
    (newline ++ "reason: deallocating pointer(" ++ ptr p ++ ") is less than simple_resource's left boundary(" ++ ptr q ++ ")")) /\
  message num ptr path line func (above p q) = Ok (expected path line func
    (newline ++ "reason: deallocating pointer(" ++ ptr p ++ ") is more than simple_resource's right boundary(" ++ ptr q ++ ")")).
Proof. exact boundary_text. Qed.
Print Assumptions C108_boundaries_partial.

(** the block released twice is named exactly when BIndex has at most 32 bits and the
    index fits an int *)
Theorem C108_block_partial : forall num ptr path line func c i, no_percent path -> no_percent line ->
  cfg_ok c -> 0 <= i < MB c ->
  ((MB c <= 2 ^ 32)%Z /\ (i < 2 ^ 31)%Z ->
     message num ptr path line func (not_in_use (Ity (iw c) false) i) = Ok (expected path line func
       (newline ++ "reason: trying to deallocate block(" ++ num i ++ ") that was not marked as allocated"))) /\
  (~ ((MB c <= 2 ^ 32)%Z /\ (i < 2 ^ 31)%Z) ->
     message num ptr path line func (not_in_use (Ity (iw c) false) i) = UB).
Proof. exact block_text. Qed.
Print Assumptions C108_block_partial.

(** the number of regions in use and the size of a block are printed with %d, but are of
    type std::size_t: neither message is ever defined *)
Theorem C108_size_refuted : forall num ptr path line func busy p bs, no_percent path -> no_percent line ->
  message num ptr path line func (still_busy busy) = UB /\
  message num ptr path line func (not_aligned p bs) = UB.
Proof. exact wrong_types. Qed.
Print Assumptions C108_size_refuted.

Example C108_instance :
  let num z := if (z =? 7)%Z then "7" else "?" in let ptr (_ : Z) := "0x10" in
  message num ptr "a/pool.h" "378" "void f()" (not_in_use (Ity 8 false) 7) =
    Ok (expected "a/pool.h" "378" "void f()"
      (newline ++ "reason: trying to deallocate block(7) that was not marked as allocated")) /\
  message num ptr "a/pool.h" "12" "int g(int)" (Reason ": bad %s at %p" [AStr "name"; APtr 16]) =
    Ok (expected "a/pool.h" "12" "int g(int)" ": bad name at 0x10") /\
  message num ptr "100%done/pool.h" "12" "int g(int)" NoReason = UB /\
  no_percent "a/pool.h" /\ no_percent "378" /\ cfg_ok (Cfg 16 64 true).
Proof.
  cbv zeta. split; [reflexivity|]. split; [reflexivity|]. split; [reflexivity|].
  split; [cbn; repeat split; discriminate|]. split; [cbn; repeat split; discriminate|].
  constructor; cbn; try lia. exists 6. split; [lia|reflexivity].
Qed.

Example C108_path_instance :
  let num (_ : Z) := "7" in let ptr (_ : Z) := "0x10" in
  plain_conversions "50%% %s/pool.h" /\ ~ no_percent "50%% %s/pool.h" /\ not_for_strings "d" /\
  message num ptr "50%% %s/pool.h" "12" "f()" NoReason =
    Ok ("[ERROR]" ++ newline ++ "file: 50% f()/pool.h" ++ newline ++ "line: 12" ++ newline ++ "func: ") /\
  message num ptr "a/pool.h" "12" "f()" (Reason ": 100%% used" []) = Ok (expected "a/pool.h" "12" "f()" ": 100% used").
Proof.
  cbv zeta. split; [cbn; repeat split; auto|]. split; [cbn; intros H; decompose [and] H; congruence|].
  split; [cbn; auto|]. split; reflexivity.
Qed.
