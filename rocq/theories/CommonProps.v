(** Properties C93 to C96: the type predicates of common.h. *)

Require Import List Bool Arith.
Require Import Verif.CommonSpec Verif.CommonModel Verif.CommonProofs.
Import ListNotations.

(** ** C93 *)

(** is_uint_v<T> is true exactly for the unsigned integer types, const or not; bool with
    const or volatile is left out *)
Theorem C93_is_uint_partial : forall t, (forall c v, t <> Cv c v Bool) ->
  (is_uint t = true <-> unsigned_integer t).
Proof. exact is_uint_iff. Qed.
Print Assumptions C93_is_uint_partial.

(** is_uint_or_byte_v<T> likewise; std::byte with const or volatile is left out too *)
Theorem C93_is_uint_or_byte_partial : forall t,
  (forall c v, t <> Cv c v Bool) -> (forall c v, t <> Cv c v Byte) ->
  (is_uint_or_byte t = true <-> unsigned_integer_or_byte t).
Proof. exact is_uint_or_byte_iff. Qed.
Print Assumptions C93_is_uint_or_byte_partial.

(** const unsigned short, bool, std::byte, int and const int *)
Example C93_instance :
  let u16 := Integer false 3 2 in let i32 := Integer true 4 4 in
  is_uint (Cv true false u16) = true /\ unsigned_integer (Cv true false u16) /\
  is_uint Bool = false /\ is_uint i32 = false /\ is_uint (Cv true false i32) = false /\
  is_uint (LRef u16) = false /\
  is_uint_or_byte Byte = true /\ is_uint_or_byte u16 = true /\ is_uint_or_byte Bool = false /\
  (forall c v, Cv true false u16 <> Cv c v Bool) /\ (forall c v, Byte <> Cv c v Byte).
Proof. cbn. repeat split; try (eexists; eexists; reflexivity); discriminate. Qed.

(** const bool is taken for an unsigned integer type other than bool *)
Theorem C93_cv_bool_refuted : forall c v,
  is_uint (Cv c v Bool) = true /\ ~ unsigned_integer (Cv c v Bool).
Proof. exact cv_bool_is_uint. Qed.
Print Assumptions C93_cv_bool_refuted.

(** const std::byte is not recognised although const unsigned char is *)
Theorem C93_cv_byte_refuted : forall c v,
  is_uint_or_byte (Cv c v Byte) = false /\ unsigned_integer_or_byte (Cv c v Byte).
Proof. exact cv_byte_missed. Qed.
Print Assumptions C93_cv_byte_refuted.

(** exactly, for every type *)
Theorem C93_exact_partial : forall t,
  (is_uint t = true <-> unsigned_integer t \/ exists c v, t = Cv c v Bool) /\
  (is_uint_or_byte t = true <->
   unsigned_integer_or_byte t /\ (forall c v, t <> Cv c v Byte) \/ exists c v, t = Cv c v Bool).
Proof. exact is_uint_exact. Qed.
Print Assumptions C93_exact_partial.

Example C93_refuted_instance : well_formed (Cv true false Bool) /\ well_formed (Cv false true Byte).
Proof. cbn. auto. Qed.

(** ** C94 *)

(** is_equal_sizes_v<Ts...> is true exactly when any two of the types have the same
    sizeof *)
Theorem C94_is_equal_sizes : forall ts, is_equal_sizes ts = true <->
  (forall a b, In a ts -> In b ts -> size_of a = size_of b).
Proof. exact equal_sizes_iff. Qed.
Print Assumptions C94_is_equal_sizes.

Example C94_instance :
  let int_ := Integer true 4 4 in let float_ := Floating 4 in let char_ := Integer true 1 1 in
  is_equal_sizes [int_; LRef float_; StdArray char_ 4] = true /\
  is_equal_sizes [int_; float_; char_] = false /\ is_equal_sizes [] = true.
Proof. cbn. auto. Qed.

(** ** C95 *)

(** is_std_array_v<T>, std_array_size_v<T> and std_array_data_t<T> see through references
    and cv-qualifiers *)
Theorem C95_is_std_array : forall t, is_std_array_v t = true <-> exists e n, bare t = StdArray e n.
Proof. exact is_std_array_iff. Qed.
Print Assumptions C95_is_std_array.

Theorem C95_parts : forall t e n, bare t = StdArray e n ->
  std_array_size_v t = Some n /\ std_array_data_t t = Some e.
Proof. exact std_array_parts. Qed.
Print Assumptions C95_parts.

(** a call of concatenate_arrays compiles exactly when there is an argument and all
    arguments are (references to, const or not) std::arrays with one element type, volatile
    only if there are several arguments and no elements to read, and its type is then the
    std::array of that type and the sum of the sizes *)
Theorem C95_concatenate_arrays : forall ts r, concatenate_arrays_t ts = Some r <->
  ts <> [] /\ readable_arrays ts /\ exists e ns, map bare ts = map (StdArray e) ns /\ r = StdArray e (list_sum ns).
Proof. exact concatenate_arrays_iff. Qed.
Print Assumptions C95_concatenate_arrays.

Example C95_instance :
  let i := Integer true 4 4 in let c := Integer true 1 1 in
  bare (LRef (Cv true false (StdArray i 3))) = StdArray i 3 /\
  concatenate_arrays_t [LRef (Cv true false (StdArray i 3)); StdArray i 0; RRef (StdArray i 2)] = Some (StdArray i 5) /\
  concatenate_arrays_t [StdArray i 3] = Some (StdArray i 3) /\
  concatenate_arrays_t [LRef (Cv true true (StdArray i 3)); StdArray i 2] = None /\
  concatenate_arrays_t [LRef (Cv false true (StdArray i 0)); StdArray i 2] = Some (StdArray i 2) /\
  concatenate_arrays_t [LRef (Cv false true (StdArray i 0))] = None /\
  concatenate_arrays_t [StdArray i 3; StdArray c 3] = None /\
  concatenate_arrays_t [StdArray i 3; Tuple [i; i] 8] = None /\
  concatenate_arrays_t [] = None.
Proof. cbn. repeat split. Qed.

(** ** C96 *)

(** for a T without top-level cv: unwrap_reference_t<T> is U& when T is
    std::reference_wrapper<U> and T otherwise, is_ref_wrapper_v<T> tells which, and
    is_tuple_v<T> tells the tuples *)
Theorem C96_unwrap_partial : forall t, (forall c v u, t <> Cv c v u) ->
  (forall u, unqualified t = RefWrapper u -> is_ref_wrapper t = true /\ unwrap_reference t = LRef u) /\
  ((forall u, unqualified t <> RefWrapper u) -> is_ref_wrapper t = false /\ unwrap_reference t = t) /\
  (is_tuple [t] = true <-> exists ts z, unqualified t = Tuple ts z).
Proof. exact unwrap_spec. Qed.
Print Assumptions C96_unwrap_partial.

Example C96_instance :
  let i := Cv true false (Integer true 4 4) in
  unwrap_reference (RefWrapper i) = LRef i /\ unwrap_reference (LRef (RefWrapper i)) = LRef (RefWrapper i) /\
  is_ref_wrapper (LRef (RefWrapper i)) = false /\
  is_tuple [Tuple [i; RefWrapper i] 16] = true /\ (forall c v u, RefWrapper i <> Cv c v u).
Proof. cbn. repeat split; discriminate. Qed.

(** a const reference_wrapper or tuple is not recognised *)
Theorem C96_cv_refuted : forall u ts z,
  unqualified (Cv true false (RefWrapper u)) = RefWrapper u /\
  is_ref_wrapper (Cv true false (RefWrapper u)) = false /\
  unwrap_reference (Cv true false (RefWrapper u)) <> LRef u /\
  is_tuple [Cv true false (Tuple ts z)] = false.
Proof. intros. repeat split; discriminate. Qed.
Print Assumptions C96_cv_refuted.

(** exactly, for every type: only the unqualified specializations are recognised *)
Theorem C96_exact_partial : forall t,
  (is_ref_wrapper t = true <-> exists u, t = RefWrapper u) /\
  (forall u, t = RefWrapper u -> unwrap_reference t = LRef u) /\
  ((forall u, t <> RefWrapper u) -> unwrap_reference t = t) /\
  forall ts, is_tuple ts = true <-> exists us z, ts = [Tuple us z].
Proof. exact unwrap_exact. Qed.
Print Assumptions C96_exact_partial.
