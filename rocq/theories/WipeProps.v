(** C136: what secure_zero_memory has cleared stays cleared, whatever the compiler leaves out.
    WipeSpec.v says what a compiler may leave out. *)

Require Import ZArith List Bool Lia.
Require Import Verif.Outcome Verif.WipeSpec Verif.WipeModel Verif.WipeProofs.
Require Verif.MemModel.
Import ListNotations.
Open Scope Z_scope.

(** every branch clears exactly the range, and so does what C26 is about *)
Theorem C136_clears : forall pl p n m a, legal pl p n ->
  after m (secure_zero_memory pl p n) a = if (p <=? a) && (a <? p + Z.of_nat n) then 0 else m a.
Proof. exact secure_clears. Qed.
Print Assumptions C136_clears.

Theorem C136_same_as_C26 : forall pl p n m, legal pl p n ->
  exists m', MemModel.secure_zero_memory (fun a => Some (m a)) p n = Ok m' /\
    forall a, m' a = Some (after m (secure_zero_memory pl p n) a).
Proof. exact same_as_memory. Qed.
Print Assumptions C136_same_as_C26.

(** with SecureZeroMemory and with memset_s *)
Theorem C136_erased_partial : forall pl p n p1 p3 a, pl <> Neither -> legal pl p n ->
  p <= a < p + Z.of_nat n -> erased p1 (secure_zero_memory pl p n) p3 a.
Proof. exact promised_erased. Qed.
Print Assumptions C136_erased_partial.

(** elsewhere, for a byte that is not known to be 0 before: exactly if the program shows the
    byte afterwards, before it writes to it again *)
Theorem C136_erased_exact_partial : forall p n p1 p3 a, p <= a < p + Z.of_nat n ->
  (exists m, after m p1 a <> 0) ->
  (erased p1 (secure_zero_memory Neither p n) p3 a <-> shown_first a p3).
Proof. exact handmade_exact. Qed.
Print Assumptions C136_erased_exact_partial.

(** the usual case, a secret that is used, cleared and never looked at again: any byte of it
    may stay in memory *)
Theorem C136_erased_refuted : forall p v n a, p <= a < p + Z.of_nat n ->
  exists q1 q2 q3,
    may_become [Write a v; Show a] (secure_zero_memory Neither p n) [] q1 q2 q3 /\
    forall m, after m (q1 ++ q2) a = v.
Proof. exact secret_left. Qed.
Print Assumptions C136_erased_refuted.

(** memset_s refuses sizes above RSIZE_MAX; its answer is not looked at *)
Theorem C136_too_large_refuted : forall rsize_max p n m, rsize_max < Z.of_nat n ->
  after m (secure_zero_memory (Ext1 rsize_max) p n) = m.
Proof. exact too_large. Qed.
Print Assumptions C136_too_large_refuted.

(** A key of three bytes at 100 is used and cleared.  Volatile writes: the compiler must keep
    them.  Ordinary ones: all three may go, and the key stays. *)
Definition use_key : list access := [Write 100 11; Write 101 22; Write 102 33; Show 100; Show 101; Show 102].
Example C136_instance :
  legal Msvc 100 3 /\ legal (Ext1 4096) 100 3 /\ (exists m, after m use_key 101 <> 0) /\
  erased use_key (secure_zero_memory Msvc 100 3) [] 101 /\
  erased use_key (secure_zero_memory Neither 100 3) [Write 100 5; Show 101] 101 /\
  may_become use_key (secure_zero_memory Neither 100 3) [] use_key [] [] /\
  (forall m, map (after m (use_key ++ [])) [100; 101; 102] = [11; 22; 33]) /\
  (forall m, map (after m (use_key ++ secure_zero_memory Neither 100 3)) [99; 100; 101; 102; 103] =
             [m 99; 0; 0; 0; m 103]).
Proof.
  split; [exact I|]. split; [cbn; lia|]. split; [exists (fun _ => 0); discriminate|].
  split; [apply C136_erased_partial; [discriminate|exact I|lia]|].
  split.
  { apply C136_erased_exact_partial; [lia|exists (fun _ => 0); discriminate|]. cbn. intuition discriminate. }
  split.
  { split; [apply thinned_refl|]. split; [repeat constructor|]. split; [constructor|]. reflexivity. }
  split; reflexivity.
Qed.
