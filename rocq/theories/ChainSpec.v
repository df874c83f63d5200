(** Specification for C158: resources chained by their upstream pointers. *)

Require Import ZArith List Bool.
Require Import Verif.Outcome.
Import ListNotations.
Open Scope Z_scope.
Open Scope res_scope.

(** The calls of a program with a chain of resources, each the upstream of the one before it;
    [n] of a pair (n, call): which resource of the chain is called. *)
Inductive chain_op : Type :=
  | ChAllocate (size align : Z)
  | ChDeallocate (p : Z)
  | ChRelease.

Definition sane_call (o : nat * chain_op) : Prop :=
  match snd o with
  | ChAllocate size align => 0 <= size /\ (exists k, 0 <= k /\ align = 2 ^ k) /\ align < 2 ^ 64
  | ChDeallocate p => 0 <= p < 2 ^ 64
  | ChRelease => True
  end.

(** a call of the n-th resource touches only that one and those behind it *)
Fixpoint from {R : Type} (n : nat) (f : list R -> res (list R * Z)) (l : list R) : res (list R * Z) :=
  match l, n with
  | [], _ => UB
  | _, O => f l
  | r :: l', S n' => ' (l'', p) <- from n' f l';; Ok (r :: l'', p)
  end.

(** What a user expects, put in terms of resources that know nothing of each other.
    [get]: allocate of one of them, [back]: deallocate, [clear]: release(); [holds r p]: p
    is for r to take back. *)
Section Apart.
  Variable R : Type.
  Variable get : R -> Z -> Z -> res (R * Z).
  Variables back : R -> Z -> res R.
  Variable clear : R -> res R.
  Variable holds : R -> Z -> bool.

  (** they are asked one after the other until one does not answer null *)
  Fixpoint first_with_room (l : list R) (size align : Z) : res (list R * Z) :=
    match l with
    | [] => Ok ([], 0)
    | r :: l' =>
      ' (r', p) <- get r size align;;
      if p =? 0 then ' (l'', q) <- first_with_room l' size align;; Ok (r' :: l'', q)
      else Ok (r' :: l', p)
    end.

  (** the first to whom the memory belongs gets it back; what belongs to none is given to the last *)
  Fixpoint owner_takes (l : list R) (p : Z) : res (list R) :=
    match l with
    | [] => UB
    | [r] => r' <- back r p;; Ok [r']
    | r :: l' =>
      if holds r p then r' <- back r p;; Ok (r' :: l')
      else l'' <- owner_takes l' p;; Ok (r :: l'')
    end.

  Definition apart_step (l : list R) (o : chain_op) : res (list R * Z) :=
    match o with
    | ChAllocate size align => first_with_room l size align
    | ChDeallocate p => l' <- owner_takes l p;; Ok (l', 0)
    | ChRelease => match l with [] => UB | r :: l' => r' <- clear r;; Ok (r' :: l', 0) end
    end.

  (** with the pointers the calls return (0 for those that return none) *)
  Fixpoint apart_run (l : list R) (ops : list (nat * chain_op)) : res (list R * list Z) :=
    match ops with
    | [] => Ok (l, [])
    | (n, o) :: ops' =>
      ' (l1, p) <- from n (fun l => apart_step l o) l;;
      ' (l2, ps) <- apart_run l1 ops';;
      Ok (l2, p :: ps)
    end.
End Apart.
