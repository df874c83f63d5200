(** Object layout, as the Itanium C++ ABI and the Microsoft ABI define it for classes
    without bases, virtual functions, bit-fields and array members, and what padding
    is.  Nothing here depends on the model. *)

Require Import List Arith Bool.
Import ListNotations.

(** types: scalars of any size and alignment, aggregate structs, and classes that are
    no aggregates (they have a constructor or private members); the latter have the
    layout of the members they hold and may be trivially copyable or not *)
Inductive lty : Type :=
| Scalar (size align : nat)
| Aggregate (members : list lty)
| NonAggregate (trivially_copyable : bool) (members : list lty).

(** the least multiple of [a] that is at least [n] *)
Definition round_up (n a : nat) : nat := (n + (a - 1)) / a * a.

(** alignof: that of the most aligned member *)
Fixpoint align (t : lty) : nat :=
  match t with
  | Scalar _ a => a
  | Aggregate ms | NonAggregate _ ms => fold_right (fun m acc => Nat.max (align m) acc) 1 ms
  end.

(** sizeof: every member at the next multiple of its alignment, then rounded up to the
    alignment of the whole; an empty class occupies one byte *)
Fixpoint size (t : lty) : nat :=
  match t with
  | Scalar s _ => s
  | Aggregate [] | NonAggregate _ [] => 1
  | Aggregate ms | NonAggregate _ ms =>
      round_up
        ((fix stop (ms : list lty) (o : nat) : nat :=
            match ms with
            | [] => o
            | m :: ms' => stop ms' (round_up o (align m) + size m)
            end) ms 0)
        (fold_right (fun m acc => Nat.max (align m) acc) 1 ms)
  end.

(** the offsets and sizes of the scalars inside an object of type [t] at offset [off] *)
Fixpoint scalars (t : lty) (off : nat) : list (nat * nat) :=
  match t with
  | Scalar s _ => [(off, s)]
  | Aggregate ms | NonAggregate _ ms =>
      (fix go (ms : list lty) (o : nat) : list (nat * nat) :=
         match ms with
         | [] => []
         | m :: ms' => let p := round_up o (align m) in scalars m (off + p) ++ go ms' (p + size m)
         end) ms 0
  end.

(** byte [b] is one of those of the scalar [x] *)
Definition covers (b : nat) (x : nat * nat) : bool := (fst x <=? b) && (b <? fst x + snd x).

(** how many scalars of an object of type [t] byte [b] of the object belongs to *)
Definition owners (t : lty) (b : nat) : nat := length (filter (covers b) (scalars t 0)).

(** an object of type [t] has a padding byte *)
Definition padding_byte (t : lty) : Prop := exists b, b < size t /\ owners t b = 0.

(** sizes and alignments of scalars are positive *)
Fixpoint wf (t : lty) : Prop :=
  match t with
  | Scalar s a => 0 < s /\ 0 < a
  | Aggregate ms | NonAggregate _ ms => fold_right (fun m P => wf m /\ P) True ms
  end.

(** is_trivially_copyable: members decide for an aggregate *)
Fixpoint trivially_copyable (t : lty) : bool :=
  match t with
  | Scalar _ _ => true
  | Aggregate ms => forallb trivially_copyable ms
  | NonAggregate b _ => b
  end.

(** built from scalars by nested aggregate structs, none of them empty *)
Fixpoint from_aggregates (t : lty) : Prop :=
  match t with
  | Scalar _ _ => True
  | Aggregate ms => ms <> [] /\ fold_right (fun m P => from_aggregates m /\ P) True ms
  | NonAggregate _ _ => False
  end.

(** no empty struct inside, at any depth *)
Fixpoint no_empty (t : lty) : Prop :=
  match t with
  | Scalar _ _ => True
  | Aggregate ms | NonAggregate _ ms => ms <> [] /\ fold_right (fun m P => no_empty m /\ P) True ms
  end.

(** the offsets and sizes of the pieces of an object of type [t] at offset [off]: scalars,
    and whole classes that are no aggregates *)
Fixpoint pieces (t : lty) (off : nat) : list (nat * nat) :=
  match t with
  | Scalar s _ => [(off, s)]
  | NonAggregate _ _ => [(off, size t)]
  | Aggregate ms =>
      (fix go (ms : list lty) (o : nat) : list (nat * nat) :=
         match ms with
         | [] => []
         | m :: ms' => let p := round_up o (align m) in pieces m (off + p) ++ go ms' (p + size m)
         end) ms 0
  end.

(** [t] is an empty aggregate or has one as a member, or as a member of a member, ...
    without going through a class that is no aggregate *)
Fixpoint reaches_empty (t : lty) : Prop :=
  match t with
  | Scalar _ _ | NonAggregate _ _ => False
  | Aggregate ms => ms = [] \/ fold_right (fun m P => reaches_empty m \/ P) False ms
  end.
