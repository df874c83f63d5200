(** What the functions that build arrays do with the elements: how often an element is copied
    or moved, what its source holds afterwards, and which exceptions of the element type reach
    the caller.  Nothing here refers to the model. *)

Require Import List Arith Bool.
Import ListNotations.

(** the value category and constness of an argument *)
Inductive category : Type := Lvalue | ConstLvalue | Rvalue | ConstRvalue.

(** Only from a non-const rvalue can a move constructor take something away. *)
Definition takes (c : category) : bool := match c with Rvalue => true | _ => false end.

(** an element of a result: its value, and how many copy and move constructions lead to it
    from the element of the argument *)
Record cell (V : Type) : Type := Cell { val : V; copies : nat; moves : nat }.
Arguments Cell {V}. Arguments val {V}. Arguments copies {V}. Arguments moves {V}.

(** An argument: which object it names, and how. *)
Notation arg := (nat * category)%type.

(** how many of the arguments name the object [o] as a non-const rvalue *)
Definition robbed (o : nat) (args : list arg) : nat :=
  List.length (filter (fun a => (fst a =? o) && takes (snd a)) args).

(** the value after [n] moves from it; [left v]: what one move from [v] leaves behind *)
Definition remains {V} (left : V -> V) (n : nat) (v : V) : V := Nat.iter n left v.

(** none of the element operations [n], ..., [n + m - 1] throws *)
Definition quiet (throws : nat -> bool) (n m : nat) : Prop := forall i, n <= i < n + m -> throws i = false.

(** concatenate_arrays: a non-const rvalue is moved from once, any other argument copied once;
    then come the moves through the temporaries: with one argument none, otherwise one for each
    array that is appended later and one into the result. *)
Definition through_temporaries (n k : nat) : nat :=
  if n =? 1 then 0 else if k =? 0 then n - 1 else n - k.

(** argument number [k] of [n] as it arrives in the result; [earlier]: the arguments before it *)
Definition part {V} (left : V -> V) (arrays : nat -> list V) (n : nat) (earlier : list arg) (a : arg) : list (cell V) :=
  map (fun v => Cell (remains left (robbed (fst a) earlier) v)
                     (if takes (snd a) then 0 else 1)
                     ((if takes (snd a) then 1 else 0) + through_temporaries n (List.length earlier)))
      (arrays (fst a)).

Fixpoint parts {V} (left : V -> V) (arrays : nat -> list V) (n : nat) (earlier args : list arg) : list (cell V) :=
  match args with
  | [] => []
  | a :: rest => part left arrays n earlier a ++ parts left arrays n (earlier ++ [a]) rest
  end.

(** the number of element operations of a call *)
Fixpoint operations {V} (arrays : nat -> list V) (n k : nat) (args : list arg) : nat :=
  match args with
  | [] => 0
  | a :: rest => List.length (arrays (fst a)) * S (through_temporaries n k) + operations arrays n (S k) rest
  end.

(** make_array(args...): one operation for each argument *)
Fixpoint built {V} (left : V -> V) (vals : nat -> V) (earlier args : list arg) : list (cell V) :=
  match args with
  | [] => []
  | a :: rest =>
    Cell (remains left (robbed (fst a) earlier) (vals (fst a)))
         (if takes (snd a) then 0 else 1) (if takes (snd a) then 1 else 0)
    :: built left vals (earlier ++ [a]) rest
  end.

(** The first of the operations [n], ..., [n + m - 1] that throws is [n + k]. *)
Definition first_throw (throws : nat -> bool) (n m k : nat) : Prop :=
  k < m /\ throws (n + k) = true /\ quiet throws n k.

(** the elements of an array made by moving [N] times from the same parameter *)
Definition from_one {V} (left : V -> V) (N : nat) (v : V) (copied : nat) : list (cell V) :=
  map (fun i => Cell (remains left i v) copied 1) (seq 0 N).
