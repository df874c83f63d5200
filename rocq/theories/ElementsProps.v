(** The theorems about the elements of arrays.  [left v]: what a move from [v] leaves behind;
    [throws i]: the [i]-th element operation of the program throws. *)

Require Import List Arith Bool Lia.
Require Import Verif.ElementsSpec Verif.ElementsModel Verif.ElementsProofs.
Import ListNotations.

(** * C123: concatenate_arrays copies lvalues once and only moves from rvalues *)

(** Any element type, any arguments, the same object any number of times among them: exactly
    what the result holds, how often each element was copied and moved, and what the
    arguments hold afterwards. *)
Theorem C123_exact : forall (V : Type) (left : V -> V) throws a rest (w : world V), let args := a :: rest in
  let total := operations (arrays w) (length args) 0 args in
  quiet throws (done w) total ->
  exists w', concatenate_arrays left throws a rest w = Returned (parts left (arrays w) (length args) [] args) w' /\
     (forall o, arrays w' o = map (remains left (robbed o args)) (arrays w o)) /\
     (forall o, vals w' o = vals w o) /\ done w' = done w + total.
Proof. exact @concatenate_exact. Qed.
Print Assumptions C123_exact.

(** arrays 0 and 1 of strings (here numbers, 0 when moved from): copied and moved *)
Definition two_arrays : world nat := World (fun o => if o =? 0 then [7; 8] else if o =? 1 then [9] else []) (fun o => o + 5) 0.

Example C123_instance :
  match concatenate_arrays (fun _ => 0) (fun _ => false) (0, Lvalue) [(1, Rvalue); (1, ConstRvalue)] two_arrays with
  | Returned cells w' => cells = [Cell 7 1 2; Cell 8 1 2; Cell 9 0 3; Cell 0 1 1] /\
      arrays w' 0 = [7; 8] /\ arrays w' 1 = [0] /\ done w' = 11
  | _ => False
  end.
Proof. vm_compute. repeat split. Qed.

(** Arguments that are different objects: the values arrive as they were, and exactly the
    arrays given as non-const rvalues are moved from, each element once. *)
Theorem C123_distinct : forall (V : Type) (left : V -> V) throws a rest (w : world V), let args := a :: rest in
  quiet throws (done w) (operations (arrays w) (length args) 0 args) -> NoDup (map fst args) ->
  exists cells w', concatenate_arrays left throws a rest w = Returned cells w' /\
    map val cells = flat_map (fun x => arrays w (fst x)) args /\
    (forall o, In (o, Rvalue) args -> arrays w' o = map left (arrays w o)) /\
    (forall o, ~ In (o, Rvalue) args -> arrays w' o = arrays w o).
Proof. exact @concatenate_distinct. Qed.
Print Assumptions C123_distinct.

Example C123_distinct_instance : NoDup (map fst [(0, Lvalue); (1, Rvalue)]) /\
  quiet (fun _ => false) 0 (operations (arrays two_arrays) 2 0 [(0, Lvalue); (1, Rvalue)]) /\
  match concatenate_arrays (fun _ => 0) (fun _ => false) (0, Lvalue) [(1, Rvalue)] two_arrays with
  | Returned cells w' => cells = [Cell 7 1 1; Cell 8 1 1; Cell 9 0 2] /\ arrays w' 1 = [0]
  | _ => False
  end.
Proof.
  split; [|split].
  - repeat constructor; cbn; intuition discriminate.
  - intros i _. reflexivity.
  - vm_compute. split; reflexivity.
Qed.

(** The elements of the [k]-th argument form a block of the result: none of them was copied if
    it is a non-const rvalue, each was copied exactly once otherwise. *)
Theorem C123_blocks : forall (V : Type) (left : V -> V) (A : nat -> list V) n args earlier k a,
  nth_error args k = Some a ->
  exists before behind, parts left A n earlier args = before ++ part left A n (earlier ++ firstn k args) a ++ behind /\
    length before = list_sum (map (fun x => length (A (fst x))) (firstn k args)).
Proof. exact @parts_nth. Qed.
Print Assumptions C123_blocks.

Example C123_blocks_instance : nth_error [(0, Lvalue); (1, Rvalue)] 1 = Some (1, Rvalue) /\
  part (fun _ => 0) (arrays two_arrays) 2 [(0, Lvalue)] (1, Rvalue) = [Cell 9 0 2].
Proof. split; reflexivity. Qed.

(** * C124: exceptions of the element type reach the caller *)

(** concatenate_arrays: no exception ever leaves it; the program is terminated exactly when one
    of the operations of the call throws. *)
Theorem C124_concatenate_exact_partial : forall (V : Type) (left : V -> V) throws a rest (w : world V), let args := a :: rest in
  (concatenate_arrays left throws a rest w = Terminated <->
   exists i, done w <= i < done w + operations (arrays w) (length args) 0 args /\ throws i = true) /\
  (forall w', concatenate_arrays left throws a rest w <> Threw w').
Proof. exact @concatenate_terminates. Qed.
Print Assumptions C124_concatenate_exact_partial.

(** So in every call with at least one element, whichever of its operations throws. *)
Theorem C124_refuted : forall (V : Type) (left : V -> V) a rest (w : world V) i, let args := a :: rest in
  i < operations (arrays w) (length args) 0 args ->
  concatenate_arrays left (fun j => j =? done w + i) a rest w = Terminated.
Proof. exact concatenate_refuted. Qed.
Print Assumptions C124_refuted.

(** Copying the second string of an lvalue array fails for lack of memory: terminated. *)
Example C124_concatenate_instance : operations (arrays two_arrays) 2 0 [(0, Lvalue); (1, Lvalue)] = 6 /\
  concatenate_arrays (fun _ => 0) (fun i => i =? 1) (0, Lvalue) [(1, Lvalue)] two_arrays = Terminated /\
  concatenate_arrays (fun _ => 0) (fun i => i =? 1) (0, Lvalue) [] two_arrays = Terminated.
Proof. repeat split. Qed.

(** make_array(args...): the first exception leaves it; the arguments before the one that threw have
    been moved from, the others are as before. *)
Theorem C124_make_array_partial : forall (V : Type) (left : V -> V) throws args (w : world V),
  (quiet throws (done w) (length args) ->
   exists w', make_array left throws args w = Returned (built left (vals w) [] args) w' /\
     (forall o, vals w' o = remains left (robbed o args) (vals w o)) /\
     (forall o, arrays w' o = arrays w o) /\ done w' = done w + length args) /\
  (forall k, first_throw throws (done w) (length args) k ->
   exists w', make_array left throws args w = Threw w' /\
     (forall o, vals w' o = remains left (robbed o (firstn k args)) (vals w o)) /\
     (forall o, arrays w' o = arrays w o) /\ done w' = done w + S k).
Proof. exact @make_array_exact. Qed.
Print Assumptions C124_make_array_partial.

Example C124_make_array_instance :
  match make_array (fun _ => 0) (fun i => i =? 2) [(0, Rvalue); (1, Lvalue); (2, Rvalue)] two_arrays with
  | Threw w' => vals w' 0 = 0 /\ vals w' 1 = 6 /\ vals w' 2 = 7
  | _ => False
  end /\
  match make_array (fun _ => 0) (fun _ => false) [(0, Rvalue); (1, Lvalue); (0, Lvalue)] two_arrays with
  | Returned cells _ => cells = [Cell 5 0 1; Cell 6 1 0; Cell 0 1 0]
  | _ => False
  end /\
  first_throw (fun i => i =? 2) 0 3 2.
Proof.
  split; [vm_compute; repeat split|]. split; [vm_compute; reflexivity|].
  split; [lia|]. split; [reflexivity|]. intros i [_ H]. cbn in H. apply Nat.eqb_neq. lia.
Qed.

(** make_array<T, N>(v) and make_zero_array<T, N>(): what the first operation throws (the copy into
    the inner parameter, T{}) leaves the call, what one of the N moves throws terminates. *)
Theorem C124_filled_exact_partial : forall (V : Type) (left : V -> V) throws N v (w : world V),
  (throws (done w) = true -> exists w', make_array_filled left throws N v w = Threw w' /\
     arrays w' = arrays w /\ vals w' = vals w) /\
  (throws (done w) = false -> quiet throws (S (done w)) N ->
     exists w', make_array_filled left throws N v w = Returned (from_one left N v 1) w' /\
     arrays w' = arrays w /\ vals w' = vals w /\ done w' = done w + S N) /\
  (throws (done w) = false -> ~ quiet throws (S (done w)) N -> make_array_filled left throws N v w = Terminated).
Proof. exact @filled_exact. Qed.
Print Assumptions C124_filled_exact_partial.

Theorem C124_zero_exact_partial : forall (V : Type) (left : V -> V) throws N z (w : world V),
  (throws (done w) = true -> exists w', make_zero_array left throws N z w = Threw w' /\
     arrays w' = arrays w /\ vals w' = vals w) /\
  (throws (done w) = false -> quiet throws (S (done w)) N ->
     exists w', make_zero_array left throws N z w = Returned (from_one left N z 0) w' /\
     arrays w' = arrays w /\ vals w' = vals w /\ done w' = done w + S N) /\
  (throws (done w) = false -> ~ quiet throws (S (done w)) N -> make_zero_array left throws N z w = Terminated).
Proof. exact @zero_exact. Qed.
Print Assumptions C124_zero_exact_partial.

Example C124_filled_instance :
  make_array_filled (fun _ => 0) (fun i => i =? 2) 3 7 two_arrays = Terminated /\
  (exists w', make_array_filled (fun _ => 0) (fun i => i =? 0) 3 7 two_arrays = Threw w') /\
  match make_array_filled (fun _ => 0) (fun i => i =? 4) 3 7 two_arrays with
  | Returned cells _ => cells = [Cell 7 1 1; Cell 0 1 1; Cell 0 1 1]
  | _ => False
  end /\
  make_zero_array (fun _ => 0) (fun i => i =? 3) 3 0 two_arrays = Terminated /\
  (exists w', make_zero_array (fun _ => 0) (fun i => i =? 0) 3 0 two_arrays = Threw w').
Proof.
  split; [reflexivity|]. split; [eexists; reflexivity|]. split; [reflexivity|]. split; [reflexivity|]. eexists; reflexivity.
Qed.

(** make_array<N, ValueType>(view): N conversions and N moves, each exception terminates. *)
Theorem C124_view_exact_partial : forall (V : Type) (left : V -> V) throws (C : Type) (conv : C -> V) N sv (w : world V),
  N <= length sv ->
  (quiet throws (done w) (2 * N) ->
   exists w', make_array_sv left throws conv N sv w = Returned (map (fun c => Cell (conv c) 0 1) (firstn N sv)) w' /\
     arrays w' = arrays w /\ vals w' = vals w /\ done w' = done w + 2 * N) /\
  (~ quiet throws (done w) (2 * N) -> make_array_sv left throws conv N sv w = Terminated).
Proof. exact @sv_exact. Qed.
Print Assumptions C124_view_exact_partial.

Example C124_view_instance :
  match make_array_sv (fun _ => 0) (fun _ => false) (fun c => c + 100) 2 [1; 2; 3] two_arrays with
  | Returned cells w' => cells = [Cell 101 0 1; Cell 102 0 1] /\ done w' = 4
  | _ => False
  end /\
  make_array_sv (fun _ => 0) (fun i => i =? 3) (fun c => c + 100) 2 [1; 2; 3] two_arrays = Terminated.
Proof. split; [vm_compute; split; reflexivity|vm_compute; reflexivity]. Qed.

(** is_equal: elements are compared in order up to the first that differ or whose comparison throws;
    that exception leaves the call.  [differ]: the operator !=, None: it throws. *)
Theorem C124_is_equal_partial : forall (V : Type) (differ : V -> V -> option bool) (xs ys : list V) k,
  k <= length xs -> length xs = length ys ->
  (is_equal differ xs ys k = Some true <->
     forall i x y, i < k -> nth_error xs i = Some x -> nth_error ys i = Some y -> differ x y = Some false) /\
  (forall r, is_equal differ xs ys k = r -> r <> Some true ->
     exists i x y, i < k /\ nth_error xs i = Some x /\ nth_error ys i = Some y /\
       differ x y = option_map negb r /\
       forall j x' y', j < i -> nth_error xs j = Some x' -> nth_error ys j = Some y' -> differ x' y' = Some false).
Proof. exact @is_equal_exact. Qed.
Print Assumptions C124_is_equal_partial.

(** [!=] throws for 3 *)
Example C124_is_equal_instance :
  let differ x y := if x =? 3 then None else Some (negb (x =? y)) in
  is_equal differ [1; 2; 3] [1; 2; 3] 3 = None /\ is_equal differ [1; 2; 3] [1; 2; 3] 2 = Some true /\
  is_equal differ [1; 2; 3] [1; 4; 3] 3 = Some false.
Proof. repeat split. Qed.

(** for_each_arg and for_each_in_tuple: an exception of the callable leaves the call after exactly the
    calls before it; without one, every argument is visited. *)
Theorem C124_for_each_partial : forall (S A : Type) (f : S -> A -> S * bool) xs s s' bad, for_each_arg f s xs = (s', bad) ->
  if bad then exists before x behind s1, xs = before ++ x :: behind /\ for_each_arg f s before = (s1, false) /\ f s1 x = (s', true)
  else s' = fold_left (fun t x => fst (f t x)) xs s /\
       forall before x behind, xs = before ++ x :: behind ->
         snd (f (fold_left (fun t y => fst (f t y)) before s) x) = false.
Proof. exact @for_each_exact. Qed.
Print Assumptions C124_for_each_partial.

Example C124_for_each_instance :
  let f (s : list nat) x := (s ++ [x], x =? 3) in
  for_each_arg f [] [1; 2; 3; 4] = ([1; 2; 3], true) /\ for_each_arg f [] [1; 2; 4] = ([1; 2; 4], false).
Proof. split; reflexivity. Qed.
