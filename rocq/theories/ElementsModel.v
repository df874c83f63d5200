(** Model of the array functions of common.h as sequences of element operations (copy, move,
    conversion of one element).  The element type is arbitrary: [left v] is what moving from
    [v] leaves behind (the moved-to element gets [v]), and the [i]-th element operation of
    the program throws exactly when [throws i].  An operation that throws leaves its source
    as it was.  Simplified: elements that were already built when an exception passes are
    destroyed by the language and are not represented. *)

Require Import List Arith Bool.
Require Import Verif.ElementsSpec.
Import ListNotations.

(** the objects a program has: arrays, single values; and how many element operations were made *)
Record world (V : Type) : Type := World { arrays : nat -> list V; vals : nat -> V; done : nat }.
Arguments World {V}. Arguments arrays {V}. Arguments vals {V}. Arguments done {V}.

(** how a call ends: it returns, an exception leaves it, or std::terminate is called *)
Inductive outcome (V A : Type) : Type :=
| Returned (a : A) (w : world V)
| Threw (w : world V)
| Terminated.
Arguments Returned {V A}. Arguments Threw {V A}. Arguments Terminated {V A}.

(** the language: the next step of a body (common.h:140-239) is made when this one returned *)
Definition andthen {V A B} (m : outcome V A) (k : A -> world V -> outcome V B) : outcome V B :=
  match m with Returned a w => k a w | Threw w => Threw w | Terminated => Terminated end.

(** noexcept: an exception that would leave the function terminates the program *)
Definition noexcept {V A} (m : outcome V A) : outcome V A :=
  match m with Threw _ => Terminated | _ => m end.

(** no code: a function changed at one point *)
Definition upd {A} (f : nat -> A) (o : nat) (a : A) : nat -> A := fun x => if x =? o then a else f x.

Section Elements.
Context {V : Type} (left : V -> V) (throws : nat -> bool).

(** the expression an element comes from *)
Inductive source : Type :=
| Object (o : nat) (c : category)
| Temporary (elements : list (cell V)).

(** constructing elements one after the other from [xs], by moving or by copying; [n] operations
    were made before.  The result: the new elements, what the sources hold, the number of
    operations, whether the last one threw. *)
Fixpoint construct_from (moving : bool) (xs : list V) (n : nat) : list (cell V) * list V * nat * bool :=
  match xs with
  | [] => ([], [], n, false)
  | v :: rest =>
    if throws n then ([], xs, S n, true)
    else let '(cs, ys, m, bad) := construct_from moving rest (S n) in
         ((if moving then Cell v 0 1 else Cell v 1 0) :: cs, (if moving then left v else v) :: ys, m, bad)
  end.

(** the same with the elements of a temporary array, an rvalue that nobody sees afterwards *)
Fixpoint move_cells (xs : list (cell V)) (n : nat) : list (cell V) * nat * bool :=
  match xs with
  | [] => ([], n, false)
  | c :: rest =>
    if throws n then ([], S n, true)
    else let '(cs, m, bad) := move_cells rest (S n) in
         (Cell (val c) (copies c) (S (moves c)) :: cs, m, bad)
  end.

(** common.h:147-148 std::get<i>(std::forward<A>(aArray))...: copies from lvalues and from const
    rvalues, moves from other rvalues *)
Definition read_array (s : source) (w : world V) : outcome V (list (cell V)) :=
  match s with
  | Object o c =>
    let '(cs, ys, m, bad) := construct_from (takes c) (arrays w o) (done w) in
    let w' := World (upd (arrays w) o ys) (vals w) m in
    if bad then Threw w' else Returned cs w'
  | Temporary xs =>
    let '(cs, m, bad) := move_cells xs (done w) in
    let w' := World (arrays w) (vals w) m in
    if bad then Threw w' else Returned cs w'
  end.

(** common.h:140-149 concatenate_2_arrays: a braced list, evaluated from left to right *)
Definition concatenate_2_arrays (a b : source) (w : world V) : outcome V (list (cell V)) :=
  noexcept (andthen (read_array a w) (fun xs w1 =>
    andthen (read_array b w1) (fun ys w2 => Returned (xs ++ ys) w2))).

(** common.h:151-169 details::concatenate_arrays; the overload for one array returns a reference,
    from which the caller's return object is constructed *)
Fixpoint details_concatenate_arrays (a : source) (rest : list arg) (w : world V) : outcome V (list (cell V)) :=
  match rest with
  | [] => noexcept (read_array a w)
  | b :: rest' =>
    noexcept (andthen (concatenate_2_arrays a (Object (fst b) (snd b)) w)
      (fun xs w1 => details_concatenate_arrays (Temporary xs) rest' w1))
  end.

(** common.h:211-219 concatenate_arrays *)
Definition concatenate_arrays (a : arg) (rest : list arg) (w : world V) : outcome V (list (cell V)) :=
  noexcept (details_concatenate_arrays (Object (fst a) (snd a)) rest w).

(** constructing one element from the value [o] *)
Definition read_value (a : arg) (w : world V) : outcome V (cell V) :=
  let v := vals w (fst a) in
  let n := S (done w) in
  if throws (done w) then Threw (World (arrays w) (vals w) n)
  else if takes (snd a) then Returned (Cell v 0 1) (World (arrays w) (upd (vals w) (fst a) (left v)) n)
  else Returned (Cell v 1 0) (World (arrays w) (vals w) n).

(** common.h:221-226 make_array(args...), for arguments of the element type; not noexcept *)
Fixpoint make_array (args : list arg) (w : world V) : outcome V (list (cell V)) :=
  match args with
  | [] => Returned [] w
  | a :: rest => andthen (read_value a w) (fun c w1 =>
                 andthen (make_array rest w1) (fun cs w2 => Returned (c :: cs) w2))
  end.

(** common.h:177-182 make_array_with_value_impl: [c] is its parameter, moved from once for each
    element *)
Fixpoint move_from_parameter (N : nat) (c : cell V) (w : world V) : outcome V (list (cell V)) :=
  match N with
  | O => Returned [] w
  | S N' =>
    let w1 := World (arrays w) (vals w) (S (done w)) in
    if throws (done w) then Threw w1
    else andthen (move_from_parameter N' (Cell (left (val c)) (copies c) (moves c)) w1)
           (fun cs w2 => Returned (Cell (val c) (copies c) (S (moves c)) :: cs) w2)
  end.

(** common.h:177-182, noexcept *)
Definition make_array_with_value_impl (N : nat) (c : cell V) (w : world V) : outcome V (list (cell V)) :=
  noexcept (move_from_parameter N c w).

(** common.h:234-239 make_array<T, N>(aValue): [v] is the parameter, constructed by the caller; the
    parameter of the inner function is copied from it, outside of the noexcept function *)
Definition make_array_filled (N : nat) (v : V) (w : world V) : outcome V (list (cell V)) :=
  let w1 := World (arrays w) (vals w) (S (done w)) in
  if throws (done w) then Threw w1 else make_array_with_value_impl N (Cell v 1 0) w1.

(** common.h:327-332 make_zero_array<T, N>(): T{} ([zero]) is made outside of the noexcept function *)
Definition make_zero_array (N : nat) (zero : V) (w : world V) : outcome V (list (cell V)) :=
  let w1 := World (arrays w) (vals w) (S (done w)) in
  if throws (done w) then Threw w1 else make_array_with_value_impl N (Cell zero 0 0) w1.

(** conversions of characters into temporaries of the element type *)
Fixpoint convert_all {C} (conv : C -> V) (cs : list C) (w : world V) : outcome V (list (cell V)) :=
  match cs with
  | [] => Returned [] w
  | c :: rest =>
    let w1 := World (arrays w) (vals w) (S (done w)) in
    if throws (done w) then Threw w1
    else andthen (convert_all conv rest w1) (fun xs w2 => Returned (Cell (conv c) 0 0 :: xs) w2)
  end.

(** common.h:243-264 make_array<N, ValueType>(aSV), for N not above the size of the view (otherwise
    see C23): the conversions are arguments of make_array, which moves from them; with N = 0 there
    are none.  The order of the conversions is not specified, here it is the one of the view. *)
Definition make_array_sv {C} (conv : C -> V) (N : nat) (sv : list C) (w : world V) : outcome V (list (cell V)) :=
  noexcept (andthen (convert_all conv (firstn N sv) w) (fun xs w1 => read_array (Temporary xs) w1)).
End Elements.

(** common.h:334-350 is_equal; [differ x y]: what lhs[i] != rhs[i] gives, None: it throws.  The
    answer None: the exception leaves is_equal.  [k] is not above the size of the arrays. *)
Fixpoint is_equal {V} (differ : V -> V -> option bool) (xs ys : list V) (k : nat) : option bool :=
  match k, xs, ys with
  | S k', x :: xs', y :: ys' =>
    match differ x y with
    | None => None
    | Some true => Some false
    | Some false => is_equal differ xs' ys' k'
    end
  | _, _, _ => Some true
  end.

(** common.h:648-661 for_each_arg, for_each_in_tuple; [f s x]: the state of the callable after a call
    and whether the call threw.  The result: the state at the end and whether an exception left. *)
Fixpoint for_each_arg {S A} (f : S -> A -> S * bool) (s : S) (xs : list A) : S * bool :=
  match xs with
  | [] => (s, false)
  | x :: rest => let (s', bad) := f s x in if bad then (s', true) else for_each_arg f s' rest
  end.
