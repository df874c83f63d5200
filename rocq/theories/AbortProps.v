(** Property C79: abort_if, UTILS_ABORT_IF and UTILS_DEBUG_ABORT_IF in common.h. *)

Require Import List Bool.
Require Import Verif.Outcome Verif.AbortModel Verif.AbortProofs.
Import ListNotations.

(** C79: aborts iff the condition holds; writes iff it aborts and has a format *)
Theorem C79_abort_if : forall c format,
  (aborted (abort_if c format) = true <-> c = true) /\
  (written (abort_if c format) <> [] <-> c = true /\ format <> None) /\
  forall f, c = true -> written (abort_if c (Some f)) = [f].
Proof. exact abort_iff. Qed.
Print Assumptions C79_abort_if.

(** the debug macro does nothing under NDEBUG, not even evaluate its condition *)
Theorem C79_debug : forall S (c : expr S) message s,
  utils_debug_abort_if S true c message s = (s, Ending [] false) /\
  utils_debug_abort_if S false c message s = utils_abort_if S c message s /\
  fst (utils_abort_if S c message s) = fst (c s) /\
  (aborted (snd (utils_abort_if S c message s)) = true <-> snd (c s) = true).
Proof. exact debug_abort. Qed.
Print Assumptions C79_debug.

(** the shorthands used by the other models are these macros *)
Theorem C79_shorthand : forall A c f (k : res A) dbg,
  abort_when c k = (if aborted (abort_if c (Some f)) then Abort else k) /\
  debug_abort_when dbg c k =
    (if aborted (snd (utils_debug_abort_if unit (negb dbg) (fun u => (u, c)) f tt)) then Abort else k).
Proof. exact shorthand. Qed.
Print Assumptions C79_shorthand.

Example C79_instance : utils_debug_abort_if nat false (fun s => (S s, Nat.ltb 3 s)) 5 4 = (5, Ending [5] true).
Proof. reflexivity. Qed.
