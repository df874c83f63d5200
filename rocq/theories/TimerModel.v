(** Model of timer.h, function by function.

    Simplifications: clock::now() is given by the operation; a callback is opaque
    (it does not touch other timers); a stored callable is the bytes of its object,
    which a move copies (for callables whose bytes hold their own address this is not
    a move of the object, see RelocateSpec.v). *)

Require Import ZArith List Bool.
Require Import Verif.Outcome Verif.Machine Verif.TimerSpec.
Import ListNotations.
Open Scope Z_scope.
Open Scope res_scope.

(** timer.h:159-162 data members.  callback_ is null or the instance of
    call_finish_callback for a type (its number and sizeof); data_ has [N] bytes. *)
Record timer := Timer { start_ : Z; callback_ : option (nat * nat); data_ : list Z }.

(** timer.h:49-62 copy, copy_impl: aDst[I] = aSrc[I] for every I below Size *)
Fixpoint set_byte (l : list Z) (i : nat) (v : Z) : list Z :=
  match l, i with
  | [], _ => []
  | _ :: l', O => v :: l'
  | x :: l', S i' => x :: set_byte l' i' v
  end.
Fixpoint copy_impl (is : list nat) (dst src : list Z) : list Z :=
  match is with [] => dst | i :: is' => copy_impl is' (set_byte dst i (nth i src 0)) src end.
Definition copy (N : nat) (dst src : list Z) : list Z := copy_impl (seq 0 N) dst src.

(** timer.h:162 data_[MaxCallbackSize]{} *)
Definition zeros (N : nat) : list Z := repeat 0 N.

(** timer.h:88-113 constructor from a callable.  [None]: the static_assert on the
    size (101) fails.  The one on the alignment (100) and what storable (24-35) makes
    of the callable's type are in AcceptModel.v; here the type is the stored one. *)
Definition timer_new (N : nat) (now : Z) (c : callable) : option timer :=
  let (ty, bytes) := c in
  if Nat.leb (length bytes) N
  then Some (Timer now (Some (ty, length bytes)) (bytes ++ skipn (length bytes) (zeros N)))
  else None.

(** timer.h:117-122 move constructor: the new timer and what is left of the old *)
Definition timer_move (N : nat) (other : timer) : timer * timer :=
  (Timer (start_ other) (callback_ other) (copy N (zeros N) (data_ other)),
   Timer (start_ other) None (data_ other)).

(** timer.h:124-131 move assignment from another timer *)
Definition timer_assign (N : nat) (this other : timer) : timer * timer :=
  (Timer (start_ other) (callback_ other) (copy N (data_ this) (data_ other)),
   Timer (start_ other) None (data_ other)).
(** timer.h:124-131 move assignment from itself: line 128 clears callback_ *)
Definition timer_assign_self (N : nat) (this : timer) : timer :=
  Timer (start_ this) None (copy N (data_ this) (data_ this)).

(** timer.h:133 leaked: the difference of two int64_t *)
Definition leaked (t : timer) (now : Z) : res Z := arith i64 (now - start_ t).
(** timer.h:135-153 leaked_sec, leaked_milli_sec, leaked_micro_sec,
    leaked_nano_sec: duration_cast divides by the ticks and truncates *)
Definition leaked_in (t : timer) (tick now : Z) : res Z := d <- leaked t now;; Ok (Z.quot d tick).

(** timer.h:157 reset *)
Definition reset (t : timer) (now : Z) : timer := Timer now (callback_ t) (data_ t).

(** timer.h:37-47 call_finish_callback, callback: the object is read from the first
    sizeof bytes.  timer.h:80-86 destructor. *)
Definition timer_destroy (s : nat) (t : timer) : list tevent :=
  match callback_ t with
  | Some (ty, size) => [TCalled s (ty, firstn size (data_ t)) (start_ t)]
  | None => []
  end.

(** * Timers in places *)

(** no code: the places of a program that may hold a timer *)
Definition store := nat -> option timer.
(** no code: one place has changed *)
Definition put (st : store) (s : nat) (t : option timer) : store :=
  fun u => if Nat.eqb u s then t else st u.

(** One operation.  Using a place without a timer, or constructing in a place that
    has one, is undefined. *)
Definition timer_step (N : nat) (st : store) (o : top) : res (store * list tevent) :=
  match o with
  | TNew s now c =>
    match st s, timer_new N now c with
    | None, Some t => Ok (put st s (Some t), [])
    | _, _ => UB
    end
  | TMove d s =>
    match st d, st s with
    | None, Some other => let (t, rest) := timer_move N other in Ok (put (put st s (Some rest)) d (Some t), [])
    | _, _ => UB
    end
  | TAssign d s =>
    match st d, st s with
    | Some this, Some other =>
      if Nat.eqb d s then Ok (put st d (Some (timer_assign_self N this)), [])
      else let (t, rest) := timer_assign N this other in Ok (put (put st s (Some rest)) d (Some t), [])
    | _, _ => UB
    end
  | TReset s now => match st s with Some t => Ok (put st s (Some (reset t now)), []) | None => UB end
  | TStart s => match st s with Some t => Ok (st, [TStarted s (start_ t)]) | None => UB end
  | TLeaked s tick now =>
    match st s with Some t => v <- leaked_in t tick now;; Ok (st, [TRead s tick now v]) | None => UB end
  | TDestroy s => match st s with Some t => Ok (put st s None, timer_destroy s t) | None => UB end
  end.
Fixpoint timer_run (N : nat) (st : store) (ops : list top) : res (store * list tevent) :=
  match ops with
  | [] => Ok (st, [])
  | o :: ops' =>
    ' (st1, a) <- timer_step N st o;;
    ' (st2, b) <- timer_run N st1 ops';;
    Ok (st2, a ++ b)
  end.
Definition no_timers : store := fun _ => None.
