(** What a user of objects of a class does and sees.  The plain machine below is the
    program in which every [fast_pimpl<T, ...> x] is simply [T x].  Nothing here
    refers to the model of fast_pimpl. *)

Require Import List Bool.
Import ListNotations.

(** A class as its user knows it: its values, what its special members do to them, and
    which of them are noexcept.  The bool is whether the call throws. *)
Record cls := Cls {
  value : Type;
  v_default : value;
  v_copy : value -> value;                (* copy construction *)
  v_move : bool -> value -> value * value;        (* move construction: the new value, what is left *)
  v_assign : bool -> value -> value -> value;     (* copy assignment: target, source; the target afterwards *)
  v_take : bool -> value -> value -> value * value;  (* move assignment: target, source; both afterwards *)
  v_self_assign : bool -> value -> value;         (* x = x *)
  v_self_take : bool -> value -> value;           (* x = std::move(x) *)
  n_default : bool;
  n_copy : bool;
  n_move : bool;
  n_assign : bool;
  n_take : bool;
  n_dtor : bool
}.

(** the same class with a destructor that is noexcept *)
Definition sealed (T : cls) : cls :=
  Cls (value T) (v_default T) (v_copy T) (v_move T) (v_assign T) (v_take T) (v_self_assign T) (v_self_take T)
      (n_default T) (n_copy T) (n_move T) (n_assign T) (n_take T) true.

(** A T that is an argument: one of the caller's own, or the T in a numbered place. *)
Inductive operand (V : Type) : Type :=
| Own (v : V)
| Inside (s : nat).
Arguments Own {V} v.
Arguments Inside {V} s.

(** Objects live in numbered places.  [throws]: T's special member throws. *)
Inductive pop (V : Type) : Type :=
| PDefault (d : nat) (throws : bool)            (** x *)
| PForward (d : nat) (v : V) (nothrow throws : bool)  (** x(args...), where T(args...) has value v; is that constructor noexcept *)
| PCopy (d s : nat) (throws : bool)             (** x(y) *)
| PMove (d s : nat) (throws : bool)             (** x(std::move(y)) *)
| PFrom (d : nat) (t : operand V) (throws : bool)     (** x(t) for a const T& *)
| PTake (d : nat) (t : operand V) (throws : bool)     (** x(std::move(t)) for a T *)
| PAssign (d s : nat) (throws : bool)           (** x = y *)
| PMoveAssign (d s : nat) (throws : bool)       (** x = std::move(y) *)
| PSet (d : nat) (t : operand V) (throws : bool)      (** x = t *)
| PMoveSet (d : nat) (t : operand V) (throws : bool)  (** x = std::move(t) *)
| PRead (s : nat)                               (** *operator->(), get() *)
| PDestroy (s : nat) (throws : bool).
Arguments PDefault {V} d throws.
Arguments PForward {V} d v nothrow throws.
Arguments PCopy {V} d s throws.
Arguments PMove {V} d s throws.
Arguments PFrom {V} d t throws.
Arguments PTake {V} d t throws.
Arguments PAssign {V} d s throws.
Arguments PMoveAssign {V} d s throws.
Arguments PSet {V} d t throws.
Arguments PMoveSet {V} d t throws.
Arguments PRead {V} s.
Arguments PDestroy {V} s throws.

(** what happens to objects of type T *)
Inductive pevent (V : Type) : Type :=
| EBegin (d : nat) (v : V)    (** the lifetime of a T begins, with this value *)
| EEnd (s : nat) (v : V)      (** the lifetime of a T ends, with this value *)
| ERead (s : nat) (v : V)     (** a value was read *)
| EThrow.                     (** the caller catches what a special member threw *)
Arguments EBegin {V} d v.
Arguments EEnd {V} s v.
Arguments ERead {V} s v.
Arguments EThrow {V}.

Definition world (V : Type) := nat -> option V.
Definition set_at {V : Type} (w : world V) (d : nat) (v : option V) : world V :=
  fun u => if Nat.eqb u d then v else w u.

(** A program runs, is terminated because an exception would leave a noexcept function,
    or is undefined: a place is used that has no object, or an object is constructed in a
    place that has one. *)
Inductive plain (A : Type) : Type :=
| Runs (a : A)
| Terminates
| Undefined.
Arguments Runs {A} a.
Arguments Terminates {A}.
Arguments Undefined {A}.

Definition world_events (V : Type) := plain (world V * list (pevent V)).

(** a call that throws or not, of a member that is noexcept or not *)
Definition calling {A : Type} (nothrow throws : bool) (normal thrown : A) : plain A :=
  if throws then if nothrow then Terminates else Runs thrown else Runs normal.

Definition begin_plain {V : Type} (w : world V) (d : nat) (v : V) (nothrow throws : bool) : world_events V :=
  match w d with
  | Some _ => Undefined
  | None => calling nothrow throws (set_at w d (Some v), [EBegin d v]) (w, [EThrow])
  end.

Definition thrown {V : Type} (throws : bool) : list (pevent V) := if throws then [EThrow] else [].

(** the value of an argument, and what a move leaves in it *)
Definition fetch {V : Type} (w : world V) (t : operand V) : option V :=
  match t with Own v => Some v | Inside s => w s end.
Definition leave {V : Type} (w : world V) (t : operand V) (v : V) : world V :=
  match t with Own _ => w | Inside s => set_at w s (Some v) end.
Definition is_place {V : Type} (t : operand V) (d : nat) : bool :=
  match t with Own _ => false | Inside s => Nat.eqb d s end.

Definition plain_copy (T : cls) (w : world (value T)) (d : nat) (t : operand (value T)) (thr : bool) : world_events (value T) :=
  match fetch w t with Some v => begin_plain w d (v_copy T v) (n_copy T) thr | None => Undefined end.
Definition plain_move (T : cls) (w : world (value T)) (d : nat) (t : operand (value T)) (thr : bool) : world_events (value T) :=
  match fetch w t, w d with
  | Some v, None =>
      let w' := leave w t (snd (v_move T thr v)) in
      calling (n_move T) thr
        (set_at w' d (Some (fst (v_move T thr v))), [EBegin d (fst (v_move T thr v))])
        (w', [EThrow])
  | _, _ => Undefined
  end.
Definition plain_assign (T : cls) (w : world (value T)) (d : nat) (t : operand (value T)) (thr : bool) : world_events (value T) :=
  match w d, fetch w t with
  | Some x, Some y =>
      let r := (set_at w d (Some (if is_place t d then v_self_assign T thr x else v_assign T thr x y)), thrown thr) in
      calling (n_assign T) thr r r
  | _, _ => Undefined
  end.
Definition plain_take (T : cls) (w : world (value T)) (d : nat) (t : operand (value T)) (thr : bool) : world_events (value T) :=
  match w d, fetch w t with
  | Some x, Some y =>
      let r := (if is_place t d then set_at w d (Some (v_self_take T thr x))
                else set_at (leave w t (snd (v_take T thr x y))) d (Some (fst (v_take T thr x y))), thrown thr) in
      calling (n_take T) thr r r
  | _, _ => Undefined
  end.

Definition plain_step (T : cls) (w : world (value T)) (o : pop (value T)) : world_events (value T) :=
  match o with
  | PDefault d thr => begin_plain w d (v_default T) (n_default T) thr
  | PForward d v nx thr => begin_plain w d v nx thr
  | PFrom d t thr => plain_copy T w d t thr
  | PTake d t thr => plain_move T w d t thr
  | PCopy d s thr => plain_copy T w d (Inside s) thr
  | PMove d s thr => plain_move T w d (Inside s) thr
  | PSet d t thr => plain_assign T w d t thr
  | PMoveSet d t thr => plain_take T w d t thr
  | PAssign d s thr => plain_assign T w d (Inside s) thr
  | PMoveAssign d s thr => plain_take T w d (Inside s) thr
  | PRead s => match w s with Some v => Runs (w, [ERead s v]) | None => Undefined end
  | PDestroy s thr =>
      match w s with
      | Some v => let r := (set_at w s None, EEnd s v :: thrown thr) in calling (n_dtor T) thr r r
      | None => Undefined
      end
  end.
Fixpoint plain_run (T : cls) (w : world (value T)) (ops : list (pop (value T))) : world_events (value T) :=
  match ops with
  | [] => Runs (w, [])
  | o :: ops' =>
    match plain_step T w o with
    | Runs (w1, a) =>
        match plain_run T w1 ops' with
        | Runs (w2, b) => Runs (w2, a ++ b)
        | Terminates => Terminates
        | Undefined => Undefined
        end
    | Terminates => Terminates
    | Undefined => Undefined
    end
  end.

Definition begins {V : Type} (es : list (pevent V)) : list nat :=
  flat_map (fun e => match e with EBegin d _ => [d] | _ => [] end) es.
Definition ends {V : Type} (es : list (pevent V)) : list nat :=
  flat_map (fun e => match e with EEnd s _ => [s] | _ => [] end) es.

(** no destructor throws *)
Definition quiet {V : Type} (o : pop V) : Prop := match o with PDestroy _ true => False | _ => True end.

(** what std::is_nothrow_default_constructible and the like say about a class: those of
    construction also ask for a destructor that does not throw *)
Inductive question := QDefault | QForward (nothrow : bool) | QCopy | QMove | QFrom | QTake | QAssign | QMoveAssign | QSet | QMoveSet.
Definition nothrow_T (T : cls) (q : question) : bool :=
  match q with
  | QDefault => n_default T && n_dtor T
  | QForward nx => nx && n_dtor T
  | QCopy | QFrom => n_copy T && n_dtor T
  | QMove | QTake => n_move T && n_dtor T
  | QAssign | QSet => n_assign T
  | QMoveAssign | QMoveSet => n_take T
  end.
