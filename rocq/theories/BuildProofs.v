(** Debug builds only add aborts. *)

Require Import ZArith List Bool Lia.
Require Import Verif.Outcome Verif.Machine Verif.BuildSpec.
Require Import Verif.TypeListModel Verif.BitsModel Verif.ArithModel Verif.MemModel.
Require Import Verif.SimpleSpec Verif.MonoModel Verif.SimpleModel Verif.AllocModel Verif.WorldSpec Verif.WorldModel.
Import ListNotations.
Open Scope Z_scope.
Open Scope res_scope.

Lemma agrees_refl : forall A (m : res A), agrees m m.
Proof. intros A []; cbn; auto. Qed.
Lemma agrees_bind : forall A B (m n : res A) (f g : A -> res B), agrees m n -> (forall a, agrees (f a) (g a)) ->
  agrees (bind m f) (bind n g).
Proof. intros A B [a| | |] n f g H1 H2; cbn in *; auto; subst n; cbn; auto. Qed.
Lemma agrees_cassert : forall A b (k k' : res A), agrees k k' -> agrees (cassert true b k) (cassert false b k').
Proof. intros A [] k k' H; cbn; auto. Qed.
Lemma agrees_abort : forall A b (k k' : res A), agrees k k' -> agrees (abort_when b k) (abort_when b k').
Proof. intros A [] k k' H; cbn; auto. Qed.
Lemma agrees_if : forall A (b : bool) (k k' l l' : res A), agrees k k' -> agrees l l' ->
  agrees (if b then k else l) (if b then k' else l').
Proof. intros A [] *; auto. Qed.
(** a check evaluated by debug builds only *)
Lemma agrees_check : forall A B (m : res B) (v : B) (ok : B -> bool) (f g : res A), agrees f g -> m <> Hang ->
  agrees (x <- m;; cassert true (ok x) f) (x <- Ok v;; cassert false (ok x) g).
Proof. intros A B [b| | |] v ok f g H N; cbn; auto; [destruct (ok b); cbn; auto|congruence]. Qed.

Ltac agree :=
  cbv beta zeta;
  lazymatch goal with
  | |- agrees ?m ?m => apply agrees_refl
  | |- agrees (cassert true _ _) (cassert false _ _) => apply agrees_cassert; agree
  | |- agrees (abort_when _ _) (abort_when _ _) => apply agrees_abort; agree
  | |- agrees (if _ then _ else _) _ => apply agrees_if; agree
  | |- agrees (let (_, _) := ?p in _) _ => destruct p; agree
  | |- agrees (bind _ _) _ => apply agrees_bind; [agree|intros; agree]
  | |- _ => auto with build
  end.

Create HintDb build.

(** * Numbers *)

Lemma b_next_multiple : forall m v, agrees (next_multiple_of true m v) (next_multiple_of false m v).
Proof. intros. unfold next_multiple_of. agree. Qed.
#[export] Hint Resolve b_next_multiple : build.
Lemma b_skip : forall p a, agrees (skip_to_align true p a) (skip_to_align false p a).
Proof. intros. unfold skip_to_align. agree. Qed.
#[export] Hint Resolve b_skip : build.
Lemma b_aligned : forall p a, agrees (is_aligned true p a) (is_aligned false p a).
Proof. intros. unfold is_aligned. agree. Qed.
#[export] Hint Resolve b_aligned : build.
Lemma b_max : forall a n, agrees (max_alignment_inside_block true a n) (max_alignment_inside_block false a n).
Proof. intros. unfold max_alignment_inside_block. agree. Qed.
#[export] Hint Resolve b_max : build.
Lemma b_calc_clz : forall n v, agrees (calc_clz true n v) (calc_clz false n v).
Proof. intros. unfold calc_clz. agree. Qed.
#[export] Hint Resolve b_calc_clz : build.
Lemma b_calc_ctz : forall v, agrees (calc_ctz true v) (calc_ctz false v).
Proof. intros. unfold calc_ctz. agree. Qed.
#[export] Hint Resolve b_calc_ctz : build.
Lemma b_clz : forall sz sup t v, compiles_alike (clz true sz sup t v) (clz false sz sup t v).
Proof.
  intros. unfold clz. destruct (sort_sizeof_ascending sz sup); [|exact I].
  repeat match goal with |- compiles_alike (match ?x with _ => _ end) _ => destruct x end; try exact I; cbn [compiles_alike]; agree.
Qed.
#[export] Hint Resolve b_clz : build.
Lemma b_ctz : forall sz sup t v, compiles_alike (ctz true sz sup t v) (ctz false sz sup t v).
Proof.
  intros. unfold ctz. destruct (sort_sizeof_ascending sz sup); [|exact I].
  repeat match goal with |- compiles_alike (match ?x with _ => _ end) _ => destruct x end; try exact I; cbn [compiles_alike]; agree.
Qed.
#[export] Hint Resolve b_ctz : build.

Lemma b_crafted_clz : forall fuel t v, agrees (crafted_clz true fuel t v) (crafted_clz false fuel t v).
Proof. intros. unfold crafted_clz. agree. Qed.
Lemma b_crafted_ctz : forall fuel t v, agrees (crafted_ctz true fuel t v) (crafted_ctz false fuel t v).
Proof. intros. unfold crafted_ctz. agree. Qed.
Lemma b_get_alignment : forall sz sup t p, compiles_alike (get_alignment true sz sup t p) (get_alignment false sz sup t p).
Proof.
  intros. unfold get_alignment. assert (H := b_ctz sz sup t p).
  destruct (ctz true sz sup t p), (ctz false sz sup t p); cbn [compiles_alike] in *; auto. agree.
Qed.
Lemma b_shift_right : forall t v n, agrees (shift_right true t v n) (shift_right false t v n).
Proof. intros. unfold shift_right. agree. Qed.
Lemma b_shift_left : forall t v n, agrees (shift_left true t v n) (shift_left false t v n).
Proof. intros. unfold shift_left. agree. Qed.
Lemma b_div_constant : forall t u n d, agrees (div_constant true t u n d) (div_constant false t u n d).
Proof. intros. unfold div_constant. agree. Qed.
Lemma b_div_runtime : forall t u n d, agrees (div_runtime true t u n d) (div_runtime false t u n d).
Proof. intros. unfold div_runtime. agree. Qed.

(** * Arrays and memory *)

Lemma b_memcpy_constant : forall to from m d s n,
  compiles_alike (memcpy_constant true to from m d s n) (memcpy_constant false to from m d s n).
Proof. intros [] [] *; cbn [memcpy_constant compiles_alike]; auto; agree. Qed.
Lemma b_memcpy_runtime : forall m d s n, agrees (memcpy_runtime true m d s n) (memcpy_runtime false m d s n).
Proof. intros. unfold memcpy_runtime. agree. Qed.
Lemma b_make_array : forall T U (cast : T -> U) n sv, agrees (make_array_sv _ cast true n sv) (make_array_sv _ cast false n sv).
Proof. intros. unfold make_array_sv. agree. Qed.
Lemma b_is_equal : forall T (eqb : T -> T -> bool) l r n, agrees (MemModel.is_equal _ eqb true l r n) (MemModel.is_equal _ eqb false l r n).
Proof. intros. unfold MemModel.is_equal. agree. Qed.

(** * Resources *)

#[export] Hint Resolve b_next_multiple b_skip b_aligned b_max b_calc_clz b_calc_ctz : build.

Lemma b_mono_allocate : forall s n a ans, agrees (mono_allocate true s n a ans) (mono_allocate false s n a ans).
Proof. intros. unfold mono_allocate. agree. Qed.
#[export] Hint Resolve b_mono_allocate : build.
Lemma b_mono_step : forall s o, agrees (mono_step true s o) (mono_step false s o).
Proof. intros s []; cbn [mono_step]; agree. Qed.

Section Simple.
  Variables m n : Z.
  Notation D := (Cfg m n true).
  Notation R := (Cfg m n false).

  Lemma s_in_array : forall A i (k k' : res A), agrees k k' -> agrees (in_array D i k) (in_array R i k').
  Proof. intros A i k k' H. unfold in_array. cbn [MB]. agree. Qed.
  Lemma s_at : forall A s i (k k' : res A), agrees k k' -> agrees (at_ D s i k) (at_ R s i k').
  Proof. intros A s i k k' H. unfold at_. cbn [DBG]. apply agrees_cassert. apply s_in_array. exact H. Qed.
  Lemma s_prev : forall s i, agrees (prev_index D s i) (prev_index R s i).
  Proof. intros. apply s_at. apply agrees_refl. Qed.
  Lemma s_next : forall s i, agrees (next_index D s i) (next_index R s i).
  Proof. intros. apply s_at. apply agrees_refl. Qed.
  Lemma s_in_use : forall s i, agrees (in_use D s i) (in_use R s i).
  Proof. intros. unfold in_use. cbn [DBG]. apply agrees_cassert. apply s_in_array. apply agrees_refl. Qed.
  Lemma s_set_in_use : forall s i, agrees (set_in_use D s i) (set_in_use R s i).
  Proof. intros. unfold set_in_use. cbn [DBG]. apply agrees_cassert. apply s_in_array. apply agrees_refl. Qed.
  Lemma s_reset_in_use : forall s i, agrees (reset_in_use D s i) (reset_in_use R s i).
  Proof. intros. unfold reset_in_use. cbn [DBG]. apply agrees_cassert. apply s_in_array. apply agrees_refl. Qed.
  Lemma s_set_prev : forall s i p, agrees (set_prev D s i p) (set_prev R s i p).
  Proof. intros. unfold set_prev. cbn [DBG]. agree. apply s_at. apply agrees_refl. Qed.
  Lemma s_set_next : forall s i p, agrees (set_next D s i p) (set_next R s i p).
  Proof. intros. unfold set_next. cbn [DBG]. agree. apply s_at. apply agrees_refl. Qed.
  Lemma s_set_prev_next : forall s i p k, agrees (set_prev_next D s i p k) (set_prev_next R s i p k).
  Proof. intros. unfold set_prev_next. cbn [DBG]. agree. apply s_at. apply agrees_refl. Qed.
  Hint Resolve s_prev s_next s_in_use s_set_in_use s_reset_in_use s_set_prev s_set_next s_set_prev_next : build.
  Lemma s_bindex : forall x, bindex D x = bindex R x.
  Proof. reflexivity. Qed.

  Lemma s_pointer : forall s p, agrees (pointer_to_block_index D s p) (pointer_to_block_index R s p).
  Proof. intros. unfold pointer_to_block_index. cbn [DBG BS MB]. rewrite s_bindex. agree. Qed.
  Lemma s_index : forall s p, agrees (block_index_to_pointer D s p) (block_index_to_pointer R s p).
  Proof. intros. unfold block_index_to_pointer. cbn [DBG BS MB]. agree. Qed.
  Lemma s_block_size : forall s p, agrees (block_size D s p) (block_size R s p).
  Proof. intros. unfold block_size. agree. Qed.
  Hint Resolve s_pointer s_index s_block_size : build.
  Lemma s_block_bytes : forall s p, agrees (block_size_in_bytes D s p) (block_size_in_bytes R s p).
  Proof. intros. unfold block_size_in_bytes. cbn [BS]. agree. Qed.
  Hint Resolve s_block_bytes : build.
  Lemma s_not_matched : forall s a b d e, agrees (allocate_not_matched D s a b d e) (allocate_not_matched R s a b d e).
  Proof. intros. unfold allocate_not_matched. cbn [DBG]. rewrite s_bindex. agree. Qed.
  Lemma s_begin_matched : forall s a b d, agrees (allocate_begin_matched D s a b d) (allocate_begin_matched R s a b d).
  Proof. intros. unfold allocate_begin_matched. cbn [DBG]. rewrite s_bindex. agree. Qed.
  Lemma s_end_matched : forall s a b d, agrees (allocate_end_matched D s a b d) (allocate_end_matched R s a b d).
  Proof. intros. unfold allocate_end_matched. cbn [DBG]. rewrite s_bindex. agree. Qed.
  Lemma s_matched : forall s a, agrees (allocate_matched D s a) (allocate_matched R s a).
  Proof. intros. unfold allocate_matched. cbn [DBG]. agree. Qed.
  Hint Resolve s_not_matched s_begin_matched s_end_matched s_matched : build.
  Lemma s_allocate_blocks : forall s r p k, agrees (allocate_blocks D s r p k) (allocate_blocks R s r p k).
  Proof.
    intros. unfold allocate_blocks. apply agrees_bind; [agree|intros f]. apply agrees_bind; [agree|intros l].
    apply agrees_bind; [agree|intros x]. cbv zeta. rewrite !s_bindex. agree.
  Qed.
  Hint Resolve s_allocate_blocks : build.

  Lemma calm_in_use : forall s i, in_use D s i <> Hang.
  Proof. intros. unfold in_use, in_array, cassert. cbn [DBG]. destruct (i <? bc s); [|discriminate]. destruct (_ && _); discriminate. Qed.
  Lemma s_merge : forall s l r, agrees (merge_if_both_not_in_use D s l r) (merge_if_both_not_in_use R s l r).
  Proof.
    intros. unfold merge_if_both_not_in_use. cbn [DBG]. apply agrees_if; [agree|]. apply agrees_cassert.
    apply agrees_bind; [agree|intros u]. cbn [andb]. apply agrees_check.
    - agree.
    - destruct u; [apply calm_in_use|discriminate].
  Qed.
  Hint Resolve s_merge : build.
  Lemma s_adjacent : forall s i, agrees (merge_adjacent_blocks D s i) (merge_adjacent_blocks R s i).
  Proof.
    intros. unfold merge_adjacent_blocks. cbn [DBG]. apply agrees_bind; [agree|intros p]. apply agrees_check; [agree|apply calm_in_use].
  Qed.
  Hint Resolve s_adjacent : build.
  Lemma s_deallocate_blocks : forall s i, agrees (deallocate_blocks D s i) (deallocate_blocks R s i).
  Proof. intros. unfold deallocate_blocks. cbn [DBG]. agree. Qed.
  Hint Resolve s_deallocate_blocks : build.

  Lemma s_loop : forall A p p' (f f' : state -> A -> Z -> res (state * A * bool)),
    (forall s i, agrees (p s i) (p' s i)) -> (forall s a i, agrees (f s a i) (f' s a i)) ->
    forall fuel s a i, agrees (apply_loop fuel D p f s a i) (apply_loop fuel R p' f' s a i).
  Proof.
    intros A p p' f f' Hp Hf. induction fuel as [|fuel IH]; intros s a i; [apply agrees_refl|].
    cbn [apply_loop]. apply agrees_bind; [agree|intros _]. apply agrees_bind; [apply Hp|intros b].
    apply agrees_bind.
    - destruct b; [|agree]. apply agrees_bind; [apply Hf|]. intros [[s1 a1] r]. agree.
    - intros [[s1 a1] j]. destruct (j =? 0); [agree|apply IH].
  Qed.
  Lemma s_alloc_pred : forall s i, agrees (alloc_pred D s i) (alloc_pred R s i).
  Proof. intros. unfold alloc_pred. agree. Qed.
  Lemma s_alloc_act : forall k a s p i, agrees (alloc_act D k a s p i) (alloc_act R k a s p i).
  Proof. intros. unfold alloc_act. cbn [DBG]. agree. Qed.
  Lemma s_search : forall fuel s k a, agrees (search_buffer D fuel s k a) (search_buffer R fuel s k a).
  Proof.
    intros. unfold search_buffer. cbn [DBG BS]. apply agrees_if; [agree|]. do 3 (apply agrees_bind; [agree|intros]).
    apply agrees_if; [|agree]. apply s_loop; [apply s_alloc_pred|intros; apply s_alloc_act].
  Qed.
  Hint Resolve s_search : build.
  Lemma calm_aligned : forall p a, is_aligned true p a <> Hang.
  Proof. intros. unfold is_aligned, cassert. destruct (is_power_of_2 a); discriminate. Qed.
  Lemma s_allocate : forall fuel s k a ans, agrees (allocate_impl D fuel s k a ans) (allocate_impl R fuel s k a ans).
  Proof.
    intros. unfold allocate_impl. cbn [DBG BS]. apply agrees_if; [agree|]. apply agrees_cassert.
    apply agrees_bind; [agree|]. intros [s1 p]. destruct ((p =? 0) && has_up s1); apply agrees_check; [agree|apply calm_aligned|agree|apply calm_aligned].
  Qed.
  Lemma s_deallocate : forall s p, agrees (deallocate_impl D s p) (deallocate_impl R s p).
  Proof. intros. unfold deallocate_impl. cbn [DBG BS]. unfold size_. cbn [BS]. agree. Qed.
  Lemma s_release_act : forall s a i, agrees (release_act D s a i) (release_act R s a i).
  Proof. intros. unfold release_act. agree. Qed.
  Lemma s_release : forall fuel s, agrees (release D fuel s) (release R fuel s).
  Proof.
    intros. unfold release. apply agrees_bind; [|intros [? ?]; agree]. apply s_loop; [intros; agree|apply s_release_act].
  Qed.
  Hint Resolve s_allocate s_deallocate s_release : build.
  Lemma s_step : forall fuel s o, agrees (step D fuel s o) (step R fuel s o).
  Proof. intros fuel s []; cbn [step]; agree. Qed.
  Lemma s_construct : forall b k up, agrees (construct D b k up) (construct R b k up).
  Proof.
    intros. unfold construct, origin_and_block_count. cbn [DBG BS MB]. agree.
  Qed.
  Lemma s_run : forall fuel ops s, agrees (run D fuel s ops) (run R fuel s ops).
  Proof.
    intros fuel ops. induction ops as [|o ops IH]; intros s; cbn [run]; [agree|].
    apply agrees_bind; [apply s_step|]. intros [s1 e]. apply agrees_bind; [apply IH|]. intros [s2 es]. agree.
  Qed.
End Simple.
#[export] Hint Resolve b_mono_step s_step s_allocate s_deallocate : build.

(** * Programs *)

Lemma b_body : forall fuel b o, agrees (body_step true fuel b o) (body_step false fuel b o).
Proof. intros fuel [] o; cbn [body_step]; agree. Qed.
#[export] Hint Resolve b_body : build.
Lemma b_object : forall fuel a o, agrees (object_step true fuel a o) (object_step false fuel a o).
Proof. intros. unfold object_step. agree. Qed.
#[export] Hint Resolve b_object : build.
Lemma b_world : forall fuel W o, agrees (world_step true fuel W o) (world_step false fuel W o).
Proof. intros fuel W [x o|x y|x y]; cbn [world_step]; [destruct (W x); agree|agree|agree]. Qed.
#[export] Hint Resolve b_world : build.
Lemma b_program : forall fuel ops W, agrees (world_run true fuel W ops) (world_run false fuel W ops).
Proof. intros fuel ops. induction ops as [|o ops IH]; intros W; cbn [world_run]; agree. Qed.
