(** Model of the checkers that the CREATE_*_CHECKERS macros of function_traits.h
    define. *)

Require Import List Bool Arith String.
Require Import Verif.TraitsSpec Verif.TraitsModel Verif.CheckersSpec.
Import ListNotations.
Open Scope string_scope.

(** ** Member types: CREATE_MEMBER_TYPE_CHECKERS *)

(** function_traits.h:38-39  typename T::x *)
Definition type_helper (K : classes) (x : string) : metafun := fun args =>
  match args with
  | [t] =>
      match class_of t with
      | Some k => match K k x with Some (Found _ true (DType u)) => Some u | _ => None end
      | None => None
      end
  | _ => None
  end.

(** function_traits.h:42-50 *)
Definition has_type (K : classes) (x : string) (t : ty) : bool := is_detected (type_helper K x) [t].
(** function_traits.h:52-61 *)
Definition has_exact_type (K : classes) (x : string) (t expected : ty) : bool :=
  is_detected_exact expected (type_helper K x) [t].
(** function_traits.h:63-72 *)
Definition has_convertible_type (conv : ty -> ty -> bool) (K : classes) (x : string) (t to : ty) : bool :=
  is_detected_convertible conv to (type_helper K x) [t].

(** ** Data members: CREATE_MEMBER_DATA_CHECKERS, CREATE_STATIC_MEMBER_DATA_CHECKERS *)

(** function_traits.h:77-78, 108-110  decltype(&T::x) without a target type: a member
    pointer for a data member, an ordinary pointer for a static one (to what it refers
    to if it is a reference), the type of the function if there is just one; ill-formed
    for types, bit-fields, reference members, overload sets and inaccessible names *)
Definition address_of (K : classes) (x : string) : metafun := fun args =>
  match args with
  | [t] =>
      match class_of t with
      | Some k =>
          match K k x with
          | Some (Found o p (DData u b)) =>
              if negb p || b then None
              else match u with LRef _ | RRef _ => None | _ => Some (MemPtr o u) end
          | Some (Found _ p (DStaticData u)) =>
              if negb p then None
              else match u with LRef v | RRef v => Some (Ptr v) | _ => Some (Ptr u) end
          | Some (Found o _ (DFunctions [m])) =>
              if negb (o_public m) then None
              else if o_static m then Some (Ptr (o_type m)) else Some (MemPtr o (o_type m))
          | _ => None
          end
      | None => None
      end
  | _ => None
  end.

(** function_traits.h:361-369  is_member_data_pointer *)
Definition is_member_data_pointer (t : ty) : bool :=
  match t with MemPtr _ u => negb (is_function u) | _ => false end.
(** function_traits.h:351-359  is_data_pointer *)
Definition is_data_pointer (t : ty) : bool :=
  match t with Ptr u => negb (is_function u) | _ => false end.

(** function_traits.h:80-103  has_data_x *)
Definition has_data (K : classes) (x : string) (t : ty) : bool :=
  if is_detected (address_of K x) [t] then
    match address_of K x [t] with Some p => is_member_data_pointer p | None => false end
  else false.
(** function_traits.h:112-135  has_static_data_x *)
Definition has_static_data (K : classes) (x : string) (t : ty) : bool :=
  if is_detected (address_of K x) [t] then
    match address_of K x [t] with Some p => is_data_pointer p | None => false end
  else false.

(** ** Member functions of a given type: CREATE_R_METHOD_CHECKERS *)

(** function_traits.h:137-165  SYMBOLIZED_QUALIFIERS: the suffixes and the tokens of each
    X_IMPL(...) line *)
Record xrow := XRow { x_sc : string; x_sv : string; x_sr : string; x_sn : string;
                      x_c : string; x_v : string; x_r : string; x_n : string }.

(** function_traits.h:137-165, row for row *)
Definition SYMBOLIZED_QUALIFIERS : list xrow :=
  [ XRow "" "" "" "" "" "" "" "";
    XRow "_const" "" "" "" "const" "" "" "";
    XRow "" "_volatile" "" "" "" "volatile" "" "";
    XRow "_const" "_volatile" "" "" "const" "volatile" "" "";
    XRow "" "" "_ref" "" "" "" "&" "";
    XRow "_const" "" "_ref" "" "const" "" "&" "";
    XRow "" "_volatile" "_ref" "" "" "volatile" "&" "";
    XRow "_const" "_volatile" "_ref" "" "const" "volatile" "&" "";
    XRow "" "" "_rref" "" "" "" "&&" "";
    XRow "_const" "" "_rref" "" "const" "" "&&" "";
    XRow "" "_volatile" "_rref" "" "" "volatile" "&&" "";
    XRow "_const" "_volatile" "_rref" "" "const" "volatile" "&&" "";
    XRow "" "" "" "_noexcept" "" "" "" "noexcept";
    XRow "_const" "" "" "_noexcept" "const" "" "" "noexcept";
    XRow "" "_volatile" "" "_noexcept" "" "volatile" "" "noexcept";
    XRow "_const" "_volatile" "" "_noexcept" "const" "volatile" "" "noexcept";
    XRow "" "" "_ref" "_noexcept" "" "" "&" "noexcept";
    XRow "_const" "" "_ref" "_noexcept" "const" "" "&" "noexcept";
    XRow "" "_volatile" "_ref" "_noexcept" "" "volatile" "&" "noexcept";
    XRow "_const" "_volatile" "_ref" "_noexcept" "const" "volatile" "&" "noexcept";
    XRow "" "" "_rref" "_noexcept" "" "" "&&" "noexcept";
    XRow "_const" "" "_rref" "_noexcept" "const" "" "&&" "noexcept";
    XRow "" "_volatile" "_rref" "_noexcept" "" "volatile" "&&" "noexcept";
    XRow "_const" "_volatile" "_rref" "_noexcept" "const" "volatile" "&&" "noexcept" ].

(** the suffix sc##sv##sr##sn *)
Definition x_suffix (w : xrow) : string := x_sc w ++ x_sv w ++ x_sr w ++ x_sn w.

(** the row that defines the name with suffix [s]; None: no row does, or two do (a
    redefinition) *)
Definition find_row (rows : list xrow) (s : string) : option xrow :=
  match filter (fun w => String.eqb (x_suffix w) s) rows with
  | [w] => Some w
  | _ => None
  end.

Notation xrow_named := (find_row SYMBOLIZED_QUALIFIERS).

(** function_traits.h:175-179  method_pointer<suffix> = R (T::* )(Args...) c v r n, for a
    class type T; the parameter types lose their top-level cv.  The outer None: no such
    alias; the inner None: substitution fails *)
Definition method_pointer (s : string) : option (ty -> ty -> list ty -> option ty) :=
  match xrow_named s with
  | None => None
  | Some w => Some (fun r t args =>
      match class_of t with
      | Some k => match declare r (map param args) (x_c w) (x_v w) (x_r w) (x_n w) with
                  | Some f => Some (MemPtr k f)
                  | None => None
                  end
      | None => None
      end)
  end.

(** does the overload [m], static or not, fit the target function type [f]: exactly, or
    by dropping noexcept ([over.over], [conv.fctptr]) *)
Definition fits (static : bool) (f : ty) (m : overload) : bool :=
  Bool.eqb (o_static m) static &&
  (ty_eqb (o_type m) f ||
   match o_type m with
   | Fun r a e q => ty_eqb (Fun r a e (Quals (q_const q) (q_volatile q) (q_ref q) false)) f
   | _ => false
   end).

(** P{&T::x} for a pointer type P: exactly one overload fits and it is accessible.  A
    pointer to a member of a base converts to a pointer to a member of T (the base is
    assumed accessible and unambiguous).  Function templates are not modelled.
    A data member can fit only a pointer to data *)
Definition pointer_to (K : classes) (x : string) (t p : ty) : option ty :=
  match class_of t with
  | Some k =>
      match K k x, p with
      | Some (Found _ _ (DFunctions l)), MemPtr _ f =>
          match filter (fits false f) l with
          | [m] => if o_public m then Some p else None
          | _ => None
          end
      | Some (Found _ _ (DFunctions l)), Ptr f =>
          match filter (fits true f) l with
          | [m] => if o_public m then Some p else None
          | _ => None
          end
      | _, _ => None
      end
  | None => None
  end.

(** function_traits.h:189-210  method_x<suffix>_ptr_t and has_invocable_r_x<suffix> *)
Definition method_ptr_t (K : classes) (x : string) (alias : ty -> ty -> list ty -> option ty) : metafun := fun a =>
  match a with
  | r :: t :: args => match alias r t args with Some p => pointer_to K x t p | None => None end
  | _ => None
  end.

(** function_traits.h:198-208  has_invocable_r_x<suffix> *)
Definition has_invocable_r (K : classes) (s x : string) (r t : ty) (args : list ty) : option bool :=
  match xrow_named s with
  | Some w => match method_pointer (x_suffix w) with
              | Some alias => Some (is_detected (method_ptr_t K x alias) (r :: t :: args))
              | None => None
              end
  | None => None
  end.

(** ** Calls.  Whether a call expression is well-formed, its type and whether it cannot
    throw are taken from the language: a partial function from the argument types *)

(** the call expressions of function_traits.h:215-222, 252-257, 291-345 *)
Definition calls := list ty -> option (ty * bool).

(** std::true_type, std::false_type: classes 1 and 2 *)
Definition true_type : ty := Class 1.
Definition false_type : ty := Class 2.
Definition bool_constant (b : bool) : ty := if b then true_type else false_type.

(** function_traits.h:215-217  decltype of the call *)
Definition call_t (c : calls) : metafun := fun a => match c a with Some (r, _) => Some r | None => None end.
(** function_traits.h:219-222  bool_constant<noexcept(call)> *)
Definition call_noexcept_t (c : calls) : metafun := fun a => match c a with Some (_, n) => Some (bool_constant n) | None => None end.

(** function_traits.h:225-234  has_invocable_x; [c] is declval<T>().x(declval<Args>()...) *)
Definition has_invocable (c : calls) (t : ty) (args : list ty) : bool := is_detected (call_t c) (t :: args).
(** function_traits.h:236-246  has_invocable_x_noexcept *)
Definition has_invocable_noexcept (c : calls) (t : ty) (args : list ty) : bool :=
  is_detected_exact true_type (call_noexcept_t c) (t :: args).

(** function_traits.h:167-169  SYMBOLIZED_STATIC_METHOD_QUALIFIERS: sn and n *)
Definition SYMBOLIZED_STATIC_METHOD_QUALIFIERS : list (string * string) := [("", ""); ("_noexcept", "noexcept")].

(** function_traits.h:248-289: the row that defines the name with suffix [s]; None: no row does,
    or two do *)
Definition srow_named (s : string) : option (string * string) :=
  match filter (fun w => String.eqb (fst w) s) SYMBOLIZED_STATIC_METHOD_QUALIFIERS with
  | [w] => Some w
  | _ => None
  end.

(** function_traits.h:251-256  static_method_result: conditional_t on has_noexcept of the
    stringified token; both branches are formed *)
Definition static_method_result (n : string) (c : calls) : metafun := fun a =>
  match call_noexcept_t c a with
  | Some b => Some (if has_noexcept n then b else true_type)
  | None => None
  end.

(** function_traits.h:264-274  has_static_invocable_x<sn>; [c] is
    T::x(declval<Args>()...), [conv] is std::is_convertible_v *)
Definition has_static_invocable (conv : ty -> ty -> bool) (s : string) (c : calls) (t : ty) (args : list ty) : option bool :=
  match srow_named s with
  | Some (_, n) => Some (is_detected_convertible conv true_type (static_method_result n c) (t :: args))
  | None => None
  end.

(** function_traits.h:181-185  static_method_pointer<sn> = R ( * )(Args...) n *)
Definition static_method_pointer (s : string) : option (ty -> list ty -> option ty) :=
  match srow_named s with
  | Some (_, n) => Some (fun r args =>
      match declare r (map param args) "" "" "" n with Some f => Some (Ptr f) | None => None end)
  | None => None
  end.

(** function_traits.h:258-261, 276-286  has_static_invocable_r_x<sn> *)
Definition has_static_invocable_r (K : classes) (s x : string) (r t : ty) (args : list ty) : option bool :=
  match srow_named s with
  | Some (s', _) =>
      match static_method_pointer s' with
      | Some alias => Some (is_detected (fun a => match a with r :: t :: args => match alias r args with Some p => pointer_to K x t p | None => None end | _ => None end) (r :: t :: args))
      | None => None
      end
  | None => None
  end.

(** ** Free functions: CREATE_FREE_FUNCTION_CHECKERS; [c] is f(declval<Args>()...) *)

(** function_traits.h:298-301  enable_if_t<noexcept(call), decltype(call)> *)
Definition noexcept_return_t (c : calls) : metafun := fun a =>
  match c a with Some (r, true) => Some r | _ => None end.

(** function_traits.h:304-312 *)
Definition is_f_invocable (c : calls) (args : list ty) : bool := is_detected (call_t c) args.
(** function_traits.h:314-323 *)
Definition is_f_noexcept_invocable (c : calls) (args : list ty) : bool := is_detected (noexcept_return_t c) args.
(** function_traits.h:325-334 *)
Definition is_f_invocable_r (c : calls) (r : ty) (args : list ty) : bool := is_detected_exact r (call_t c) args.
(** function_traits.h:336-345 *)
Definition is_f_noexcept_invocable_r (c : calls) (r : ty) (args : list ty) : bool :=
  is_detected_exact r (noexcept_return_t c) args.
