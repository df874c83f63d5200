(** What the standard library does with timers kept in a sequence: std::swap, and
    growth, insertion and erasure in a std::vector.  A timer cannot be copied and its
    move constructor and move assignment are noexcept (timer.h:116-131), so these move. *)

Require Import ZArith List Bool.
Require Import Verif.Outcome Verif.Machine Verif.TimerSpec Verif.TimerModel.
Import ListNotations.
Open Scope Z_scope.

(** std::swap(a, b): T t(std::move(a)); a = std::move(b); b = std::move(t); *)
Definition swap_ops (t a b : nat) : list top := [TMove t a; TAssign a b; TAssign b t; TDestroy t].

(** the elements at [olds] go to fresh memory at [news]; the old ones are destroyed *)
Fixpoint moves (olds news : list nat) : list top :=
  match olds, news with o :: olds', n :: news' => TMove n o :: moves olds' news' | _, _ => [] end.
Definition grow_ops (olds news : list nat) : list top := moves olds news ++ map TDestroy olds.

(** each element is assigned the one before it in [rs] (a range listed from its end) *)
Fixpoint shifts (rs : list nat) : list top :=
  match rs with p :: ((q :: _) as rs') => TAssign p q :: shifts rs' | _ => [] end.

(** Insertion of the timer at [tmp] before the elements [ps], with [free] the raw
    memory behind the last of them: the last element is moved there, the others up by
    one, the new one is assigned to the gap.  At the end it is moved into place. *)
Definition insert_ops (tmp : nat) (ps : list nat) (free : nat) : list top :=
  match rev ps with
  | [] => [TMove free tmp; TDestroy tmp]
  | q :: rs => TMove free q :: shifts (q :: rs) ++ [TAssign (last (q :: rs) 0%nat) tmp; TDestroy tmp]
  end.

(** Erasure of the element at the head of [ps]: the following ones are assigned one
    place down, the last is destroyed. *)
Fixpoint erase_ops (ps : list nat) : list top :=
  match ps with
  | [] => []
  | [p] => [TDestroy p]
  | p :: ((q :: _) as ps') => TAssign p q :: erase_ops ps'
  end.

(** the timer at [p] has start_tp() [z] and would call exactly [cs] when destroyed *)
Definition shows (N : nat) (st : store) (p : nat) (x : Z * list callable) : Prop :=
  timer_step N st (TStart p) = Ok (st, [TStarted p (fst x)]) /\
  exists st', timer_step N st (TDestroy p) = Ok (st', map (fun c => TCalled p c (fst x)) (snd x)).

(** any number of swaps one after the other (std::reverse, std::shuffle, ...) *)
Definition swaps_ops (t : nat) (l : list (nat * nat)) : list top := flat_map (fun ab => swap_ops t (fst ab) (snd ab)) l.

(** the calls made by timers with the given contents, in this order *)
Definition calls_of (ps : list nat) (xs : list (Z * list callable)) : list tevent :=
  flat_map (fun px => map (fun c => TCalled (fst px) c (fst (snd px))) (snd (snd px))) (combine ps xs).
