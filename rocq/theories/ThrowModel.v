(** Model of timer.h for callables and clocks that throw.  The functions are those of
    TimerModel.v; what is added is where code of the user runs and which functions are
    noexcept. *)

Require Import ZArith List Bool.
Require Import Verif.Outcome Verif.TimerSpec Verif.TimerModel Verif.ThrowSpec.
Import ListNotations.
Open Scope Z_scope.
Open Scope res_scope.

(** how a function ends *)
Inductive ends (A : Type) : Type :=
| Returns (a : A)
| Throws.
Arguments Returns {A} a.
Arguments Throws {A}.

(** code of the user *)
Definition user {A : Type} (throws : bool) (k : res (ends A)) : res (ends A) :=
  if throws then Ok Throws else k.
(** a noexcept function: std::terminate, which aborts, instead of an exception *)
Definition noexcept_ {A : Type} (m : res (ends A)) : res (ends A) :=
  r <- m;; match r with Returns a => Ok (Returns a) | Throws => Abort end.

(** One call.  timer.h:92-112 constructor: 93 reads the clock, 104-111 construct the
    callable.  117-131 moves: no code of the user.  133-153 leaked, leaked_...: 133 reads
    the clock; those of 135-153 call it.  155 start_tp.  157 reset reads the clock.
    80-86 destructor (noexcept, as destructors are) and 37-41 call_finish_callback
    call the callable. *)
Definition throw_step (N : nat) (st : store) (x : xop) : res (ends (store * list tevent)) :=
  match op x with
  | TNew s now c =>
    match st s, timer_new N now c with
    | None, Some t =>
      noexcept_ (user (clock_throws x) (user (callable_throws x) (Ok (Returns (put st s (Some t), [])))))
    | _, _ => UB
    end
  | TReset s now =>
    match st s with
    | Some t => noexcept_ (user (clock_throws x) (Ok (Returns (put st s (Some (reset t now)), []))))
    | None => UB
    end
  | TLeaked s tick now =>
    match st s with
    | Some t =>
      noexcept_ (noexcept_ (user (clock_throws x)
        (v <- leaked_in t tick now;; Ok (Returns (st, [TRead s tick now v])))))
    | None => UB
    end
  | TDestroy s =>
    match st s with
    | Some t =>
      let gone := Ok (Returns (put st s None, timer_destroy s t)) in
      match callback_ t with
      | Some _ => noexcept_ (noexcept_ (user (callable_throws x) gone))
      | None => noexcept_ gone
      end
    | None => UB
    end
  | o => r <- timer_step N st o;; Ok (Returns r)
  end.

(** a program that catches whatever a call throws and goes on *)
Fixpoint throw_run (N : nat) (st : store) (ops : list xop) : res (store * list xevent) :=
  match ops with
  | [] => Ok (st, [])
  | x :: ops' =>
    r <- throw_step N st x;;
    let (st1, a) := match r with
      | Returns (st1, a) => (st1, map XSeen a)
      | Throws => (st, [XCaught match op x with
          TNew s _ _ | TReset s _ | TStart s | TLeaked s _ _ | TDestroy s | TMove s _ | TAssign s _ => s end])
      end in
    ' (st2, b) <- throw_run N st1 ops';;
    Ok (st2, a ++ b)
  end.
