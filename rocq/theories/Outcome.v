(** Outcomes of a modelled call.

    [Ok a]   the call returns [a];
    [Abort]  std::abort is called: UTILS_ABORT_IF / UTILS_DEBUG_ABORT_IF
             (sources/include/utils/common.h:47-61, 445-460) or a failed
             assert in a debug build;
    [UB]     undefined behaviour is reached;
    [Hang]   the fuel given to a loop was used up.  Fuel is not part of the
             program: a call terminates when some amount of fuel gives another
             outcome than [Hang], and diverges when all amounts give [Hang]. *)

Inductive res (A : Type) : Type :=
| Ok (a : A)
| Abort
| UB
| Hang.

Arguments Ok {A} a.
Arguments Abort {A}.
Arguments UB {A}.
Arguments Hang {A}.

Definition bind {A B : Type} (m : res A) (f : A -> res B) : res B :=
  match m with
  | Ok a => f a
  | Abort => Abort
  | UB => UB
  | Hang => Hang
  end.

Declare Scope res_scope.
Delimit Scope res_scope with res.
Notation "x <- m ;; k" := (bind m (fun x => k))
  (at level 61, m at next level, right associativity) : res_scope.
Notation "' p <- m ;; k" := (bind m (fun p => k))
  (at level 61, p pattern, m at next level, right associativity) : res_scope.

(** [assert(c); k] : assert from <cassert>; checked iff the build is a debug
    build ([dbg = true]), skipped under NDEBUG. *)
Definition cassert {A : Type} (dbg c : bool) (k : res A) : res A :=
  if dbg then (if c then k else Abort) else k.

(** [UTILS_ABORT_IF(c); k]  (common.h:47-52). *)
Definition abort_when {A : Type} (c : bool) (k : res A) : res A :=
  if c then Abort else k.

(** [UTILS_DEBUG_ABORT_IF(c); k]  (common.h:55-61): nothing under NDEBUG. *)
Definition debug_abort_when {A : Type} (dbg c : bool) (k : res A) : res A :=
  if dbg then (if c then Abort else k) else k.

Lemma bind_ok : forall {A B} (m : res A) (f : A -> res B) b,
  bind m f = Ok b <-> exists a, m = Ok a /\ f a = Ok b.
Proof.
  intros A B m f b; destruct m; simpl; split; intro H;
    try discriminate; try (destruct H as [x [H1 H2]]; discriminate).
  - exists a; auto.
  - destruct H as [x [H1 H2]]. injection H1; intros; subst; auto.
Qed.
