(** A container that keeps its elements in one piece of memory (std::vector, say): to change
    its capacity it asks for new memory, moves its elements there and gives the old memory
    back.  Nothing here refers to the model. *)

Require Import ZArith List Bool.
Require Import Verif.SimpleSpec.
Import ListNotations.
Open Scope Z_scope.

(** so many blocks of [b] bytes does simple_resource take for [size] bytes *)
Definition blocks_for (b size : Z) : Z := size / b + 1.

(** The container holds memory of [k] blocks at [d].  For each pair of sizes it moves to the
    first size (which it expects right behind) and then to the second (which it expects at
    [d] again). *)
Fixpoint moves (b d align : Z) (ans : Z -> Z -> Z) (k : Z) (sizes : list (Z * Z)) : list op :=
  match sizes with
  | [] => []
  | (m, n) :: sizes' =>
      OAllocate m align ans :: ODeallocate d ::
      OAllocate n align ans :: ODeallocate (d + k * b) :: moves b d align ans (blocks_for b n) sizes'
  end.

(** what the container is to see *)
Fixpoint moved (b d align : Z) (k : Z) (sizes : list (Z * Z)) : list event :=
  match sizes with
  | [] => []
  | (m, n) :: sizes' =>
      EAllocate m align (d + k * b) [] :: EDeallocate d [] ::
      EAllocate n align d [] :: EDeallocate (d + k * b) [] :: moved b d align (blocks_for b n) sizes'
  end.

(** both memories fit, and the second is less than the one before the last *)
Fixpoint fit (b total k : Z) (sizes : list (Z * Z)) : Prop :=
  match sizes with
  | [] => True
  | (m, n) :: sizes' =>
      0 < m /\ k + blocks_for b m <= total /\ 0 < n < k * b /\ fit b total (blocks_for b n) sizes'
  end.

(** so many blocks the container holds in the end *)
Fixpoint held (b k : Z) (sizes : list (Z * Z)) : Z :=
  match sizes with
  | [] => k
  | (m, n) :: sizes' => held b (blocks_for b n) sizes'
  end.

(** the bytes from [p] on and the bytes from [q] on have one in common *)
Definition share (p n q m : Z) : Prop := exists x, p <= x < p + n /\ q <= x < q + m.
