(** Model of the array and raw-memory helpers: common.h (arrays, is_equal,
    memvcmp, bit_cast, for_each_arg) and memory/memory.h (secure_zero_memory,
    memmove, memcpy). *)

Require Import ZArith List Bool.
Require Import Verif.Outcome Verif.Machine.
Import ListNotations.
Open Scope Z_scope.
Open Scope res_scope.

(** * Memory: partial map from addresses to bytes; [None] is an address the
    program may not access.  Addresses are not wrapped: every theorem is about
    ranges inside the address space. *)
Definition mem := Z -> option Z.

(** the language: reading a byte (common.h:359-368, memory.h:48-155) *)
Definition load (m : mem) (a : Z) : res Z :=
  match m a with Some b => Ok b | None => UB end.

(** the language: writing a byte (memory.h:48-155) *)
Definition store (m : mem) (a b : Z) : res mem :=
  match m a with
  | Some _ => Ok (fun x => if x =? a then Some b else m x)
  | None => UB
  end.

(** Trusted meaning of std::memcmp == 0: every byte of both ranges is read. *)
Fixpoint memcmp_eq (m : mem) (a b : Z) (n : nat) : res bool :=
  match n with
  | O => Ok true
  | S n' =>
    x <- load m a;;
    y <- load m b;;
    r <- memcmp_eq m (a + 1) (b + 1) n';;
    Ok ((x =? y) && r)
  end.

(** common.h:359-368 memvcmp *)
Definition memvcmp (m : mem) (p val : Z) (size : nat) : res bool :=
  if (size =? 0)%nat || (p =? 0) then Ok false
  else
    b <- load m p;;
    if b =? val then memcmp_eq m p (p + 1) (size - 1) else Ok false.

(** memory.h:48-55, 57-60, 69 handmade_zero_mem, used at compile time and, without
    __STDC_LIB_EXT1__ and MSVC, at run time *)
Fixpoint zero_loop (m : mem) (p : Z) (i size : nat) : res mem :=
  match size with
  | O => Ok m
  | S n => m' <- store m (p + Z.of_nat i) 0;; zero_loop m' p (S i) n
  end.
Definition secure_zero_memory (m : mem) (p : Z) (size : nat) : res mem :=
  zero_loop m p 0 size.

(** memory.h:75-90 secure_zero_memory_safe *)
Definition secure_zero_memory_safe (m : mem) (p : Z) (size : nat) : res (Z * mem) :=
  if p =? 0 then Ok (-1, m)
  else if (size =? 0)%nat then Ok (-2, m)
  else m' <- secure_zero_memory m p size;; Ok (0, m').

(** for (i = 0; i < count; ++i) *(dst + i) = cast( *(src + i)) *)
Fixpoint copy_loop (cast : Z -> Z) (m : mem) (dst src : Z) (i count : nat) : res mem :=
  match count with
  | O => Ok m
  | S n =>
    b <- load m (src + Z.of_nat i);;
    m' <- store m (dst + Z.of_nat i) (cast b);;
    copy_loop cast m' dst src (S i) n
  end.

(** memory.h:95-105 memmove, constant evaluated branch *)
Definition memmove_constant (m : mem) (dst src : Z) (count : nat) : res (Z * mem) :=
  if dst =? src then Ok (dst, m)
  else m' <- copy_loop (fun b => b) m dst src 0 count;; Ok (dst, m').

(** Reading a range: all bytes or UB. *)
Fixpoint load_range (m : mem) (a : Z) (n : nat) : res (list Z) :=
  match n with
  | O => Ok []
  | S n' => b <- load m a;; l <- load_range m (a + 1) n';; Ok (b :: l)
  end.
Fixpoint store_range (m : mem) (a : Z) (l : list Z) : res mem :=
  match l with
  | [] => Ok m
  | b :: l' => m' <- store m a b;; store_range m' (a + 1) l'
  end.

(** Trusted meaning of std::memmove (memory.h:108): as if through a temporary. *)
Definition memmove_runtime (m : mem) (dst src : Z) (count : nat) : res (Z * mem) :=
  l <- load_range m src count;; m' <- store_range m dst l;; Ok (dst, m').

(** Trusted meaning of std::memcpy: undefined for overlapping ranges. *)
Definition overlapping (a b n : Z) : bool := (0 <? n) && (a <? b + n) && (b <? a + n).
Definition std_memcpy (m : mem) (dst src : Z) (count : nat) : res mem :=
  if overlapping dst src (Z.of_nat count) then UB
  else l <- load_range m src count;; store_range m dst l.

(** The one-byte element types memcpy accepts: character types and std::byte
    keep the byte under static_cast<To>, bool normalises it; void pointers cannot
    be constant evaluated. *)
Inductive byte_type : Type := BChar | BBool | BVoid.
Definition byte_cast (t : byte_type) (b : Z) : Z :=
  match t with BBool => if b =? 0 then 0 else 1 | _ => b end.

(** memory.h:121-155 memcpy<To, From>.  [None]: not a constant expression. *)
Definition memcpy_constant (dbg : bool) (to from : byte_type) (m : mem) (dst src : Z) (count : nat)
  : option (res mem) :=
  match to, from with
  | BVoid, _ | _, BVoid => None
  | _, _ => Some (cassert dbg (negb (dst =? 0)) (cassert dbg (negb (src =? 0))
                   (copy_loop (byte_cast to) m dst src 0 count)))
  end.
Definition memcpy_runtime (dbg : bool) (m : mem) (dst src : Z) (count : nat) : res mem :=
  cassert dbg (negb (dst =? 0)) (cassert dbg (negb (src =? 0)) (std_memcpy m dst src count)).

(** common.h:663-677 bit_cast<To>(src): [dst] is the local object of type To, an
    object of the same size that overlaps nothing; [None] when the sizes differ. *)
Definition bit_cast (m : mem) (dst src : Z) (size_to size_from : nat) : option (res (list Z)) :=
  if (size_to =? size_from)%nat then
    Some (m' <- std_memcpy m dst src size_to;; load_range m' dst size_to)
  else None.

(** * Arrays: std::array<T, N> is a list of N elements *)
Section Arrays.
  Variable T : Type.

  (** no code: the expansion of a pack (common.h:140-182) is well-formed when each element is *)
  Fixpoint all_some {A : Type} (l : list (option A)) : option (list A) :=
    match l with
    | [] => Some []
    | None :: _ => None
    | Some a :: l' => match all_some l' with Some r => Some (a :: r) | None => None end
    end.

  (** std::get<I>(array): rejected by the compiler when I is out of range *)
  Definition get (a : list T) (i : nat) : option T := nth_error a i.

  (** common.h:140-149 concatenate_2_arrays with index_sequence<0..N1-1>, <0..N2-1> *)
  Definition concatenate_2_arrays (a1 a2 : list T) (i1 i2 : list nat) : option (list T) :=
    all_some (map (get a1) i1 ++ map (get a2) i2).

  (** common.h:151-169 details::concatenate_arrays, 211-219 concatenate_arrays *)
  Fixpoint concatenate_arrays_impl (a1 : list T) (rest : list (list T)) : option (list T) :=
    match rest with
    | [] => Some a1
    | a2 :: rest' =>
      match concatenate_2_arrays a1 a2 (seq 0 (length a1)) (seq 0 (length a2)) with
      | Some a => concatenate_arrays_impl a rest'
      | None => None
      end
    end.
  Definition concatenate_arrays (arrays : list (list T)) : option (list T) :=
    match arrays with
    | [] => None
    | a :: rest => concatenate_arrays_impl a rest
    end.

  (** common.h:171-182 make_array_with_value_impl: every element is initialised
      from std::move of the same parameter, left to right.  [mv v] is the result
      of move-constructing from [v]: the new object and what is left in [v]. *)
  Fixpoint fill_moving (mv : T -> T * T) (v : T) (n : nat) : list T :=
    match n with
    | O => []
    | S n' => let (e, v') := mv v in e :: fill_moving mv v' n'
    end.
  (** common.h:234-239 make_array<T, N>(aValue) *)
  Definition make_array_value (mv : T -> T * T) (v : T) (n : nat) : list T := fill_moving mv v n.
  (** common.h:327-332 make_zero_array<T, N>(); [zero] is T{} *)
  Definition make_zero_array (mv : T -> T * T) (zero : T) (n : nat) : list T := fill_moving mv zero n.

  (** sv[i] *)
  Definition sv_at (sv : list T) (i : nat) : res T :=
    match nth_error sv i with Some c => Ok c | None => UB end.
  Fixpoint sv_select {U : Type} (cast : T -> U) (sv : list T) (is : list nat) : res (list U) :=
    match is with
    | [] => Ok []
    | i :: is' => c <- sv_at sv i;; l <- sv_select cast sv is';; Ok (cast c :: l)
    end.
  (** common.h:243-264 make_array<N, ValueType>(sv) *)
  Definition make_array_sv {U : Type} (cast : T -> U) (dbg : bool) (n : nat) (sv : list T)
    : res (list U) :=
    cassert dbg (n <=? length sv)%nat (sv_select cast sv (seq 0 n)).
  (** common.h:314-325 sv_to_array<Len...>(sv) *)
  Definition sv_to_array (is : list nat) (sv : list T) : res (list T) :=
    sv_select (fun c => c) sv is.

  (** common.h:334-350 is_equal(lhs, rhs, kCount) *)
  Variable eqb : T -> T -> bool.
  Fixpoint is_equal_loop (lhs rhs : list T) (i count : nat) : res bool :=
    match count with
    | O => Ok true
    | S n =>
      x <- sv_at lhs i;;
      y <- sv_at rhs i;;
      if negb (eqb x y) then Ok false else is_equal_loop lhs rhs (S i) n
    end.
  Definition is_equal (dbg : bool) (lhs rhs : list T) (count : nat) : res bool :=
    cassert dbg (count <=? length lhs)%nat (is_equal_loop lhs rhs 0 count).
End Arrays.

(** common.h:221-232 make_array(args...), arguments of integer types given as
    (type, value) pairs.  std::common_type_t of the list folds from the left
    ([meta.trans.other]); no argument gives the empty array. *)
Definition common_list (t : ity) (ts : list ity) : ity := fold_left common ts t.

(** [None]: the call does not compile *)
Definition make_array_ints (args : list (ity * Z)) : option (list Z) :=
  match args with
  | [] => Some []
  | (t0, _) :: rest =>
    let c := common_list t0 (map fst rest) in
    if forallb (fun a => no_narrowing (fst a) c) args
    then Some (map (fun a => conv c (snd a)) args)
    else None
  end.

(** common.h:648-653 for_each_arg: the initialiser list is evaluated left to
    right; [f] is a callable with state [S] and an observable result per call.
    The log lists the calls made: argument and result. *)
Fixpoint for_each_arg {S A O : Type} (f : S -> A -> S * O) (ts : list A) (s : S)
  : S * list (A * O) :=
  match ts with
  | [] => (s, [])
  | t :: ts' =>
    let (s', o) := f s t in
    let (s'', log) := for_each_arg f ts' s' in
    (s'', (t, o) :: log)
  end.

(** common.h:655-661 for_each_in_tuple: std::apply expands std::get<0..n-1>(t) *)
Definition for_each_in_tuple {S A O : Type} (f : S -> A -> S * O) (t : list A) (s : S)
  : option (S * list (A * O)) :=
  match all_some (map (get A t) (seq 0 (length t))) with
  | Some args => Some (for_each_arg f args s)
  | None => None
  end.
