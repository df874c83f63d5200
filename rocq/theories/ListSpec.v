(** Specification vocabulary for the list metaprograms.  Standard-library
    notions ([nth_error], [In], [filter], [count_occ]-like counting,
    [Permutation], [StronglySorted]) and the definitions below; nothing here
    mentions the model of the code. *)

Require Import List Arith Permutation Sorted.
Import ListNotations.

(** [n] is the position of the first element of [l] satisfying [P], or the
    length of [l] when there is none. *)
Definition first_position {A} (P : A -> Prop) (l : list A) (n : nat) : Prop :=
  (forall i x, i < n -> nth_error l i = Some x -> ~ P x) /\
  ((exists x, nth_error l n = Some x /\ P x) \/ n = length l).

(** [n] positions of [l] hold an element satisfying [P]. *)
Definition occurrences {A} (P : A -> Prop) (l : list A) (n : nat) : Prop :=
  exists ps : list nat,
    NoDup ps /\ length ps = n /\
    forall i, In i ps <-> exists x, nth_error l i = Some x /\ P x.

(** [r] is [l] sorted by [key] w.r.t. [le], keeping the relative order of the
    elements with equal keys. *)
Definition stable_sort {A} (key : A -> nat) (le : nat -> nat -> Prop) (l r : list A) : Prop :=
  Permutation l r /\
  StronglySorted (fun a b => le (key a) (key b)) r /\
  forall k, filter (fun x => key x =? k) r = filter (fun x => key x =? k) l.

(** All tuples [x1..xn] with [xi] in the i-th list, in lexicographic order of
    positions. *)
Fixpoint lex_product {A} (ls : list (list A)) : list (list A) :=
  match ls with
  | [] => [[]]
  | l :: ls' => flat_map (fun x => map (cons x) (lex_product ls')) l
  end.

(** The mixed-radix number of the tuple of positions [ps] in [ls]. *)
Fixpoint lex_rank {A} (ls : list (list A)) (ps : list nat) : nat :=
  match ls, ps with
  | _ :: ls', p :: ps' =>
    p * fold_right (fun l n => length l * n) 1 ls' + lex_rank ls' ps'
  | _, _ => 0
  end.
