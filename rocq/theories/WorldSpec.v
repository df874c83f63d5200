(** Programs with several memory resources, as their author sees them.  Nothing here
    refers to the model. *)

Require Import ZArith List Bool Arith.
Require Import Verif.BitsSpec Verif.SimpleSpec Verif.MonoSpec.
Import ListNotations.
Open Scope Z_scope.

(** a call of resource [x]; the statement [x = y;]; the same through references to the
    base class memory_resource *)
Inductive wop : Type :=
| WCall (x : nat) (o : op)
| WAssign (x y : nat)
| WAssignBase (x y : nat).

Definition is_call (o : wop) : Prop := match o with WCall _ _ => True | _ => False end.

(** the calls of resource [x] in a program, and what they showed *)
Definition calls_to (x : nat) (ops : list wop) : list op :=
  flat_map (fun o => match o with WCall y c => if Nat.eqb y x then [c] else [] | _ => [] end) ops.
Definition events_of (x : nat) (es : list (nat * event)) : list event :=
  map snd (filter (fun e => Nat.eqb (fst e) x) es).

(** Whose past a resource has: assignment gives it that of the right-hand side, the
    resource that this was at first and the calls since then. *)
Definition past := nat -> nat * list op.
Definition no_past : past := fun x => (x, []).
Definition past_step (h : past) (o : wop) : past :=
  match o with
  | WCall x c => fun z => if Nat.eqb z x then (fst (h x), snd (h x) ++ [c]) else h z
  | WAssign x y => fun z => if Nat.eqb z x then h y else h z
  | WAssignBase _ _ => h
  end.
Definition past_of (ops : list wop) : past := fold_left past_step ops no_past.

(** and whose code it runs, which every assignment gives it *)
Definition code_step (f : nat -> nat) (o : wop) : nat -> nat :=
  match o with
  | WCall _ _ => f
  | WAssign x y | WAssignBase x y => fun z => if Nat.eqb z x then f y else f z
  end.
Definition code_of (ops : list wop) : nat -> nat := fold_left code_step ops (fun x => x).
