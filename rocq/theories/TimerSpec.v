(** What a user of timers does and sees.  Nothing here refers to the model.

    Timers live in numbered places.  A callable is its type (a number) and the
    bytes of its object. *)

Require Import ZArith List Bool.
Import ListNotations.
Open Scope Z_scope.

Definition callable := (nat * list Z)%type.

Inductive top : Type :=
| TNew (s : nat) (now : Z) (c : callable)   (** timer s(c); the clock says now *)
| TMove (d s : nat)                         (** timer d(std::move(s)) *)
| TAssign (d s : nat)                       (** d = std::move(s) *)
| TReset (s : nat) (now : Z)
| TStart (s : nat)                          (** s.start_tp() *)
| TLeaked (s : nat) (tick now : Z)          (** s.leaked_...(), in ticks of [tick] nanoseconds *)
| TDestroy (s : nat).

Inductive tevent : Type :=
| TCalled (s : nat) (c : callable) (start : Z)  (** callable [c] was invoked with timer [s], whose start_tp() was [start] *)
| TStarted (s : nat) (start : Z)                (** start_tp() returned *)
| TRead (s : nat) (tick now value : Z)          (** leaked_...() returned [value] *)
| TDied (c : callable).                         (** the destructor of a stored callable was run *)

(** * Who owns which callable *)

Definition owners_after (l : list (nat * callable)) (o : top) : list (nat * callable) :=
  match o with
  | TNew s _ c => (s, c) :: l
  | TMove d s | TAssign d s => map (fun x => if Nat.eqb (fst x) s then (d, snd x) else x) l
  | TDestroy s => filter (fun x => negb (Nat.eqb (fst x) s)) l
  | _ => l
  end.
Definition owners (ops : list top) : list (nat * callable) := fold_left owners_after ops [].
Definition owned_by (l : list (nat * callable)) (s : nat) : list callable :=
  map snd (filter (fun x => Nat.eqb (fst x) s) l).

(** the callables handed to timers *)
Definition given (ops : list top) : list callable :=
  flat_map (fun o => match o with TNew _ _ c => [c] | _ => [] end) ops.
Definition called (es : list tevent) : list callable :=
  flat_map (fun e => match e with TCalled _ c _ => [c] | _ => [] end) es.

(** no timer is overwritten while it still owns a callable *)
Fixpoint no_overwrite (l : list (nat * callable)) (ops : list top) : Prop :=
  match ops with
  | [] => True
  | o :: ops' =>
    match o with TAssign d _ => ~ In d (map fst l) | _ => True end /\ no_overwrite (owners_after l o) ops'
  end.

(** * Start points *)

Fixpoint find_start (l : list (nat * Z)) (s : nat) : Z :=
  match l with [] => 0 | (u, z) :: l' => if Nat.eqb u s then z else find_start l' s end.
Definition starts_after (l : list (nat * Z)) (o : top) : list (nat * Z) :=
  match o with
  | TNew s now _ | TReset s now => (s, now) :: l
  | TMove d s | TAssign d s => (d, find_start l s) :: l
  | _ => l
  end.
(** the start point of timer [s] after the operations *)
Definition started (ops : list top) (s : nat) : Z := find_start (fold_left starts_after ops []) s.

(** the operation changes neither the start point nor the identity of timer [s] *)
Definition leaves (s : nat) (o : top) : Prop :=
  match o with
  | TNew u _ _ | TReset u _ | TDestroy u => u <> s
  | TMove d _ | TAssign d _ => d <> s
  | TStart _ | TLeaked _ _ _ => True
  end.

(** the readings of the clock, in order *)
Definition readings (ops : list top) : list Z :=
  flat_map (fun o => match o with TNew _ now _ | TReset _ now | TLeaked _ _ now => [now] | _ => [] end) ops.
(** a steady clock: readings never decrease; they fit 63 bits *)
Definition steady (l : list Z) : Prop :=
  (forall x, In x l -> 0 <= x < 2 ^ 63) /\
  forall l1 a l2 b l3, l = l1 ++ a :: l2 ++ b :: l3 -> a <= b.

(** [v] whole ticks have passed after [d] nanoseconds *)
Definition whole_ticks (tick d v : Z) : Prop := 0 <= v /\ v * tick <= d < (v + 1) * tick.
(** the units of leaked_nano_sec, _micro_sec, _milli_sec and _sec *)
Definition unit_tick (tick : Z) : Prop := tick = 1 \/ tick = 1000 \/ tick = 1000000 \/ tick = 1000000000.

(** what should be called, and with which timer: at its destruction a timer calls
    what it owns *)
Fixpoint expected_calls (l : list (nat * callable)) (ops : list top) : list (nat * callable) :=
  match ops with
  | [] => []
  | o :: ops' =>
    match o with TDestroy s => map (fun c => (s, c)) (owned_by l s) | _ => [] end ++
    expected_calls (owners_after l o) ops'
  end.
Definition calls_seen (es : list tevent) : list (nat * callable) :=
  flat_map (fun e => match e with TCalled s c _ => [(s, c)] | _ => [] end) es.

(** the same when a timer that is assigned to forgets what it owned *)
Definition forget (d : nat) (l : list (nat * callable)) : list (nat * callable) :=
  filter (fun x => negb (Nat.eqb (fst x) d)) l.
Definition keepers_after (l : list (nat * callable)) (o : top) : list (nat * callable) :=
  match o with TAssign d _ => owners_after (forget d l) o | _ => owners_after l o end.
Definition keepers (ops : list top) : list (nat * callable) := fold_left keepers_after ops [].
Fixpoint kept_calls (l : list (nat * callable)) (ops : list top) : list (nat * callable) :=
  match ops with
  | [] => []
  | o :: ops' =>
    match o with TDestroy s => map (fun c => (s, c)) (owned_by l s) | _ => [] end ++
    kept_calls (keepers_after l o) ops'
  end.
(** what was forgotten *)
Fixpoint forgotten (l : list (nat * callable)) (ops : list top) : list callable :=
  match ops with
  | [] => []
  | o :: ops' =>
    match o with TAssign d _ => owned_by l d | _ => [] end ++ forgotten (keepers_after l o) ops'
  end.

(** a program that constructs timers in empty places, uses only timers that exist
    and stores only callables of at most [N] bytes *)
Definition living_after (l : list nat) (o : top) : list nat :=
  match o with
  | TNew s _ _ => s :: l
  | TMove d _ => d :: l
  | TDestroy s => filter (fun u => negb (Nat.eqb u s)) l
  | _ => l
  end.
Fixpoint well_used (N : nat) (l : list nat) (ops : list top) : Prop :=
  match ops with
  | [] => True
  | o :: ops' =>
    match o with
    | TNew s _ c => ~ In s l /\ (length (snd c) <= N)%nat
    | TMove d s => ~ In d l /\ In s l
    | TAssign d s => In d l /\ In s l
    | TReset s _ | TStart s | TDestroy s => In s l
    | TLeaked s tick _ => In s l /\ unit_tick tick
    end /\ well_used N (living_after l o) ops'
  end.
