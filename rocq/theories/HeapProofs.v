(** Proofs about HeapModel.v. *)

Require Import ZArith List Bool Lia.
Require Import Verif.BitsSpec Verif.HeapSpec Verif.HeapModel.
Import ListNotations.
Open Scope Z_scope.

Definition family_of (msvc : bool) : family := if msvc then Crt else Posix.

Lemma pow2_divide a b : pow2 a -> pow2 b -> a <= b -> (a | b).
Proof.
  intros (i & I & ->) (j & J & ->) H. exists (2 ^ (j - i)).
  assert (i <= j) by (apply (Z.pow_le_mono_r_iff 2); lia).
  rewrite <- Z.pow_add_r by lia. f_equal. lia.
Qed.

(** the system holds for the program exactly what the client owns *)
Lemma removed f p l : map (pair f) (remove_pointer p l) = remove_held p (map (pair f) l).
Proof. induction l as [|q l IH]; cbn; auto. destruct (q =? p); cbn; now rewrite ?IH. Qed.

Lemma heap_correct (msvc : bool) (word : Z) (ops : list heap_op) : pow2 word -> forall l,
  let (es, cs) := heap_run msvc word ops in
  correct_client l es -> correct_use word (map (pair (family_of msvc)) l) cs.
Proof.
  intros W. induction ops as [|o ops IH]; intros l; cbn [heap_run]; [exact (fun _ => I)|].
  destruct (heap_step msvc word o) as [e a] eqn:E. destruct (heap_run msvc word ops) as [es b] eqn:R.
  intros [H C].
  assert (G : exists c, a = [c] /\ map (pair (family_of msvc)) (owned_after l e) =
      held_after (map (pair (family_of msvc)) l) c /\
      match c with
      | Obtain f align _ _ _ => accepts word f align
      | Return_ f p => p = 0 \/ In (f, p) (map (pair (family_of msvc)) l)
      end).
  { destruct o as [size align failed p|p]; cbn in E.
    - unfold aligned_malloc in E. destruct msvc; injection E as <- <-; eexists; (split; [reflexivity|]);
        cbn in *; destruct failed; cbn; (split; [try destruct (p =? 0); reflexivity|]); auto.
      + destruct (Z.leb_spec word align); (split; [auto|]); [now apply pow2_divide|apply Z.divide_refl].
      + destruct (Z.leb_spec word align); (split; [auto|]); [now apply pow2_divide|apply Z.divide_refl].
    - unfold aligned_free in E. destruct msvc; injection E as <- <-; eexists; (split; [reflexivity|]);
        cbn in *; (split; [apply removed|]); destruct H as [H|H]; auto; right; now apply in_map. }
  destruct G as (c & -> & L & A). cbn [app correct_use]. split; [exact A|]. rewrite <- L.
  specialize (IH (owned_after l e)). auto.
Qed.

Theorem heap_use (msvc : bool) (word : Z) (ops : list heap_op) es cs : pow2 word ->
  heap_run msvc word ops = (es, cs) -> correct_client [] es -> correct_use word [] cs.
Proof. intros W R C. pose proof (heap_correct msvc word ops W []) as H. rewrite R in H. exact (H C). Qed.

Lemma held_owned (msvc : bool) (word : Z) (ops : list heap_op) : forall l,
  let (es, cs) := heap_run msvc word ops in
  fold_left held_after cs (map (pair (family_of msvc)) l) = map (pair (family_of msvc)) (fold_left owned_after es l).
Proof.
  induction ops as [|o ops IH]; intros l; cbn [heap_run]; [reflexivity|].
  destruct (heap_step msvc word o) as [e a] eqn:E. destruct (heap_run msvc word ops) as [es b] eqn:R.
  cbn [fold_left]. rewrite fold_left_app, <- (IH (owned_after l e)). f_equal.
  destruct o as [size align failed p|p]; cbn in E.
  - unfold aligned_malloc in E. destruct msvc; injection E as <- <-; cbn; destruct failed; cbn; try destruct (p =? 0); reflexivity.
  - unfold aligned_free in E. destruct msvc; injection E as <- <-; cbn; symmetry; apply removed.
Qed.

Theorem heap_holds (msvc : bool) (word : Z) (ops : list heap_op) es cs : heap_run msvc word ops = (es, cs) ->
  map snd (fold_left held_after cs []) = fold_left owned_after es [].
Proof.
  intros R. pose proof (held_owned msvc word ops []) as H. rewrite R in H. cbn in H. rewrite H.
  rewrite map_map. cbn. apply map_id.
Qed.

Theorem malloc_answer (msvc : bool) (word size align : Z) (failed : bool) (p : Z) : pow2 word -> pow2 align ->
  exists a, snd (aligned_malloc msvc word size align failed p) = [Obtain (if msvc then Crt else Posix) a size failed p] /\
    (align | a) /\ accepts word (if msvc then Crt else Posix) a /\
    fst (aligned_malloc msvc word size align failed p) = if failed then 0 else p.
Proof.
  intros W A. unfold aligned_malloc. destruct msvc; cbn; eexists; (split; [reflexivity|]).
  - split; [apply Z.divide_refl|]. auto.
  - destruct (Z.leb_spec word align).
    + split; [apply Z.divide_refl|]. split; [|reflexivity]. split; [auto|]. now apply pow2_divide.
    + split; [apply pow2_divide; auto; lia|]. split; [|reflexivity]. split; [auto|apply Z.divide_refl].
Qed.
