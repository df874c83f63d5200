(** Properties C78 and C111: fast_pimpl.h. *)

Require Import List Bool Arith.
Require Import Verif.Outcome Verif.PimplSpec Verif.PimplModel Verif.PimplProofs.
Import ListNotations.

(** C78: for every class and every history, throwing constructors and assignments
    included, a program behaves exactly as if every fast_pimpl<T> were a T with a
    destructor that is noexcept: it is undefined or terminated in the same cases, the
    same lifetimes begin and end with the same values, the same values are read, the
    same exceptions are caught, and at the end the T objects are those of the plain
    program, one for each fast_pimpl *)
Theorem C78_like_plain : forall T (ops : list (pop (value T))),
  match plain_run (sealed T) (fun _ => None) ops with
  | Runs (w, es) => exists m, pimpl_run T (no_pimpls T) ops = Ok (m, es) /\
      forall u, cells m u = w u /\ (pimpls m u = true <-> w u <> None)
  | Terminates => pimpl_run T (no_pimpls T) ops = Abort
  | Undefined => pimpl_run T (no_pimpls T) ops = UB
  end.
Proof. exact like_plain. Qed.
Print Assumptions C78_like_plain.

(** in each place constructions and destructions of T balance *)
Theorem C78_balance : forall T ops m es, pimpl_run T (no_pimpls T) ops = Ok (m, es) ->
  forall p, length (filter (Nat.eqb p) (begins es)) = length (filter (Nat.eqb p) (ends es)) + (if pimpls m p then 1 else 0).
Proof. exact balance. Qed.
Print Assumptions C78_balance.

(** the size and alignment given must be those of T *)
Theorem C78_validate : forall size align n a, pimpl_compiles size align n a = true <-> size = n /\ align = a.
Proof. exact compiles. Qed.
Print Assumptions C78_validate.

(** a string-like class: moved-from objects are empty (0), everything but moves and the
    destructor may throw; a failed assignment leaves 99 *)
Definition boxed : cls :=
  Cls nat 0 (fun v => v) (fun _ v => (v, 0)) (fun thr x y => if thr then 99 else y) (fun _ x y => (y, 0)) (fun _ x => x) (fun _ x => 0)
      false false true false true true.
Example C78_instance : exists m,
  pimpl_run boxed (no_pimpls boxed)
    [PForward 0 7 false false; PCopy 1 0 true; PCopy 1 0 false; PMove 2 0 false; PRead 0; PAssign 0 2 false; PRead 0;
     PSet 0 (Inside 2) true; PRead 0; PMoveAssign 1 1 false; PDestroy 2 false] =
  Ok (m, [EBegin 0 7; EThrow; EBegin 1 7; EBegin 2 7; ERead 0 0; ERead 0 7; EThrow; ERead 0 99; EEnd 2 7]).
Proof. eexists. reflexivity. Qed.

(** C111: what T's special members throw reaches the user of a fast_pimpl<T> as it
    reaches the user of a T.  For every history in which no destructor throws: the same
    exceptions are caught, the same programs are terminated *)
Theorem C111_quiet_partial : forall T ops, Forall quiet ops ->
  match plain_run T (fun _ => None) ops with
  | Runs (w, es) => exists m, pimpl_run T (no_pimpls T) ops = Ok (m, es) /\
      forall u, cells m u = w u /\ (pimpls m u = true <-> w u <> None)
  | Terminates => pimpl_run T (no_pimpls T) ops = Abort
  | Undefined => pimpl_run T (no_pimpls T) ops = UB
  end.
Proof. exact quiet_like. Qed.
Print Assumptions C111_quiet_partial.

(** the classes for which every history agrees are those whose destructor is noexcept *)
Theorem C111_exact_partial : forall T,
  (forall ops, match plain_run T (fun _ => None) ops with
     | Runs (w, es) => exists m, pimpl_run T (no_pimpls T) ops = Ok (m, es) /\
         forall u, cells m u = w u /\ (pimpls m u = true <-> w u <> None)
     | Terminates => pimpl_run T (no_pimpls T) ops = Abort
     | Undefined => pimpl_run T (no_pimpls T) ops = UB
     end) <-> n_dtor T = true.
Proof. exact agree_iff. Qed.
Print Assumptions C111_exact_partial.

(** whenever T's destructor may throw and does, the program with a T catches the
    exception and the one with a fast_pimpl<T> is terminated *)
Theorem C111_destructor_refuted : forall T, n_dtor T = false -> forall v,
  plain_run T (fun _ => None) [PForward 0 v true false; PDestroy 0 true] =
    Runs (set_at (set_at (fun _ => None) 0 (Some v)) 0 None, [EBegin 0 v; EEnd 0 v; EThrow]) /\
  pimpl_run T (no_pimpls T) [PForward 0 v true false; PDestroy 0 true] = Abort.
Proof. exact throwing_destructor. Qed.
Print Assumptions C111_destructor_refuted.

(** and what can be asked of fast_pimpl<T> at compile time about its constructors and
    assignments has the answer that T gives *)
Theorem C111_nothrow : forall T q, pimpl_nothrow T q = nothrow_T T q.
Proof. exact nothrow_same. Qed.
Print Assumptions C111_nothrow.

(** a class that meets the hypothesis of the refutation *)
Definition thrower : cls :=
  Cls nat 0 (fun v => v) (fun _ v => (v, 0)) (fun thr x y => if thr then 99 else y) (fun _ x y => (y, 0)) (fun _ x => x) (fun _ x => 0)
      true false true false true false.
Example C111_instance :
  Forall quiet [PDefault 0 false; PSet 0 (Own 5) true; PRead 0; @PDestroy nat 0 false] /\
  (exists m, pimpl_run thrower (no_pimpls thrower) [PDefault 0 false; PSet 0 (Own 5) true; PRead 0; PDestroy 0 false] =
             Ok (m, [EBegin 0 0; EThrow; ERead 0 99; EEnd 0 99])) /\
  pimpl_run thrower (no_pimpls thrower) [PDefault 0 true] = Abort /\
  pimpl_run thrower (no_pimpls thrower) [PDefault 0 false; PDestroy 0 true] = Abort /\
  pimpl_nothrow thrower QDefault = false /\ pimpl_nothrow thrower QMoveAssign = true /\ pimpl_nothrow boxed QMove = true /\
  n_dtor thrower = false /\ n_dtor boxed = true.
Proof. repeat split; try reflexivity; [repeat constructor|]. eexists. reflexivity. Qed.
