(** Lemmas about abort_if. *)
Require Import List Bool.
Require Import Verif.Outcome Verif.AbortModel.
Import ListNotations.

Lemma abort_iff : forall c format,
  (aborted (abort_if c format) = true <-> c = true) /\
  (written (abort_if c format) <> [] <-> c = true /\ format <> None) /\
  forall f, c = true -> written (abort_if c (Some f)) = [f].
Proof.
  intros [|] [f|]; cbn; repeat split; intros; try congruence; try discriminate; intuition congruence.
Qed.

Lemma debug_abort : forall S (c : expr S) message s,
  utils_debug_abort_if S true c message s = (s, Ending [] false) /\
  utils_debug_abort_if S false c message s = utils_abort_if S c message s /\
  fst (utils_abort_if S c message s) = fst (c s) /\
  (aborted (snd (utils_abort_if S c message s)) = true <-> snd (c s) = true).
Proof.
  intros S c message s. unfold utils_debug_abort_if, utils_abort_if. destruct (c s) as [s' [|]]; cbn; intuition.
Qed.

Lemma shorthand : forall A c f (k : res A) dbg,
  abort_when c k = (if aborted (abort_if c (Some f)) then Abort else k) /\
  debug_abort_when dbg c k =
    (if aborted (snd (utils_debug_abort_if unit (negb dbg) (fun u => (u, c)) f tt)) then Abort else k).
Proof. intros A [|] f k [|]; split; reflexivity. Qed.
