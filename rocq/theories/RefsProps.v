(** Properties C109, C115: value_list with references to objects among its values. *)

Require Import List Arith ZArith Bool.
Require Import Verif.ListSpec Verif.RefsModel Verif.RefsView Verif.RefsProofs.
Import ListNotations.

(** when every object is a constant and no two of one type have one content, the queries
    tell the objects apart *)
Theorem C109_told_apart_partial : forall c v l, readable c v -> Forall (readable c) l -> told_apart c (v :: l) ->
  (exists n, ref_index_of c v l = Some n /\ first_position (fun x => x = v) l n) /\
  (exists n, ref_count_of c v l = Some n /\ occurrences (fun x => x = v) l n) /\
  (exists b, ref_contains c v l = Some b /\ (b = true <-> In v l)) /\
  (exists b, ref_contains_copies c l = Some b /\ (b = true <-> ~ NoDup l)) /\
  (exists b, ref_is_same c l = Some b /\ (b = true <-> forall x y, In x l -> In y l -> x = y)).
Proof. exact by_identity. Qed.
Print Assumptions C109_told_apart_partial.

(** for constants in general they compare type and content *)
Theorem C109_by_content_partial : forall c v l, readable c v -> Forall (readable c) l ->
  (exists n, ref_index_of c v l = Some n /\ first_position (fun x => alike c v x) l n) /\
  (exists n, ref_count_of c v l = Some n /\ occurrences (fun x => alike c v x) l n) /\
  (exists b, ref_contains c v l = Some b /\ (b = true <-> exists x, In x l /\ alike c v x)) /\
  (exists b, ref_contains_copies c l = Some b /\
     (b = true <-> exists i j x y, i < j /\ nth_error l i = Some x /\ nth_error l j = Some y /\ alike c x y)) /\
  (exists b, ref_is_same c l = Some b /\ (b = true <-> forall x y, In x l -> In y l -> alike c x y)).
Proof. exact by_content. Qed.
Print Assumptions C109_by_content_partial.

(** What is missing: different constants with one content are taken for one another *)
Theorem C109_equal_contents_refuted : forall c t o p z, c o = Some z -> c p = Some z -> o <> p ->
  ~ In (ByRef t p) [ByRef t o] /\
  ref_contains c (ByRef t p) [ByRef t o] = Some true /\ ref_index_of c (ByRef t p) [ByRef t o; ByRef t p] = Some 0 /\
  ref_count_of c (ByRef t p) [ByRef t o; ByRef t p] = Some 2 /\
  ref_contains_copies c [ByRef t o; ByRef t p] = Some true /\ ref_is_same c [ByRef t o; ByRef t p] = Some true.
Proof. exact equal_contents. Qed.
Print Assumptions C109_equal_contents_refuted.

(** and an object that is no constant can be looked for exactly where no reference of its
    type is: everything else does not compile *)
Theorem C109_variable_refuted : forall c t o l, c o = None ->
  ((exists p, In (ByRef t p) l) ->
   ref_index_of c (ByRef t o) l = None /\ ref_count_of c (ByRef t o) l = None /\ ref_contains c (ByRef t o) l = None) /\
  (~ (exists p, In (ByRef t p) l) ->
   ref_index_of c (ByRef t o) l = Some (length l) /\ ref_count_of c (ByRef t o) l = Some 0 /\
   ref_contains c (ByRef t o) l = Some false).
Proof. exact not_a_constant. Qed.
Print Assumptions C109_variable_refuted.

Theorem C109_variable_copies_refuted : forall c t o l, c o = None -> ref_contains_copies c (ByRef t o :: l) = None.
Proof. exact not_a_constant_copies. Qed.
Print Assumptions C109_variable_copies_refuted.

(** objects 1, 2 and 3 are constants 10, 20 and 10, object 4 is a variable *)
Definition some_contents : contents := fun o =>
  match o with 1 => Some 10%Z | 2 => Some 20%Z | 3 => Some 10%Z | _ => None end.
Example C109_instance :
  readable some_contents (ByRef 7 2) /\ Forall (readable some_contents) [ByValue 7 10; ByRef 7 1; ByRef 7 2; ByRef 8 3] /\
  told_apart some_contents [ByRef 7 2; ByValue 7 10; ByRef 7 1; ByRef 7 2; ByRef 8 3] /\
  ref_index_of some_contents (ByRef 7 2) [ByValue 7 10; ByRef 7 1; ByRef 7 2; ByRef 8 3] = Some 2 /\
  ref_count_of some_contents (ByRef 7 3) [ByRef 7 1; ByRef 7 2] = Some 1 /\
  ref_contains some_contents (ByRef 7 4) [ByRef 7 1] = None /\
  ref_contains some_contents (ByRef 8 4) [ByRef 7 1] = Some false /\
  ref_contains some_contents (ByRef 7 1) [ByRef 7 1; ByRef 7 4] = Some true.
Proof.
  repeat split; try reflexivity.
  - discriminate.
  - repeat constructor; discriminate.
  - intros t o p H K E. cbn in H, K.
    repeat match goal with H : _ \/ _ |- _ => destruct H as [H|H] | H : False |- _ => destruct H end;
      try discriminate; inversion H; inversion K; subst; try reflexivity; discriminate.
Qed.

(** C115 for references: at<I> is a reference to the same object, at_t<I> its type, and
    index_of of it a position not after I with a value of the same type and content *)
Theorem C115_references : forall l,
  (forall front a back, l = front ++ a :: back -> ref_at (length front) l = Some a) /\
  (forall i, (exists a, ref_at i l = Some a) <-> i < length l) /\
  (forall i t z, ref_at i l = Some (ByValue t z) -> ref_at_t i l = Some (DValue t)) /\
  (forall i t o, ref_at i l = Some (ByRef t o) -> ref_at_t i l = Some (DRef t)) /\
  (forall i, ref_at i l = None -> ref_at_t i l = None) /\
  (forall c i a, Forall (readable c) l -> ref_at i l = Some a ->
     exists n b, ref_index_of c a l = Some n /\ n <= i /\ ref_at n l = Some b /\ alike c a b).
Proof. exact ref_positions. Qed.
Print Assumptions C115_references.

Example C115_references_instance :
  Forall (readable some_contents) [ByValue 7 10; ByRef 7 1; ByRef 7 2; ByRef 7 3] /\
  ref_at 3 [ByValue 7 10; ByRef 7 1; ByRef 7 2; ByRef 7 3] = Some (ByRef 7 3) /\
  ref_at_t 3 [ByValue 7 10; ByRef 7 1; ByRef 7 2; ByRef 7 3] = Some (DRef 7) /\
  ref_index_of some_contents (ByRef 7 3) [ByValue 7 10; ByRef 7 1; ByRef 7 2; ByRef 7 3] = Some 1.
Proof. repeat split; try reflexivity. repeat constructor; discriminate. Qed.
