(** Model of detector.h and of the function type traits of function_traits.h. *)

Require Import List Bool Arith String.
Require Import Verif.TraitsSpec.
Import ListNotations.
Open Scope string_scope.

(** ** Type identity (std::is_same) *)

(** the language: the same ref-qualifier *)
Definition refq_eqb (a b : refq) : bool :=
  match a, b with RefNone, RefNone | RefL, RefL | RefR, RefR => true | _, _ => false end.

(** the language: the same qualifiers of a function type *)
Definition quals_eqb (a b : quals) : bool :=
  Bool.eqb (q_const a) (q_const b) && Bool.eqb (q_volatile a) (q_volatile b) &&
  refq_eqb (q_ref a) (q_ref b) && Bool.eqb (q_noexcept a) (q_noexcept b).

(** the language: the same cv-qualifiers *)
Definition cvq_eqb (a b : cvq) : bool :=
  match a, b with CvConst, CvConst | CvVolatile, CvVolatile | CvBoth, CvBoth => true | _, _ => false end.

(** std::is_same (detector.h:59-60 is_detected_exact) *)
Fixpoint ty_eqb (a b : ty) {struct a} : bool :=
  match a, b with
  | Fund n, Fund m => Nat.eqb n m
  | Class n, Class m => Nat.eqb n m
  | Ptr t, Ptr u => ty_eqb t u
  | LRef t, LRef u => ty_eqb t u
  | RRef t, RRef u => ty_eqb t u
  | Cv c t, Cv c' u => cvq_eqb c c' && ty_eqb t u
  | MemPtr k t, MemPtr k' u => Nat.eqb k k' && ty_eqb t u
  | Fun r xs e q, Fun r' ys e' q' =>
      ty_eqb r r' &&
      (fix eq_list (xs ys : list ty) : bool :=
         match xs, ys with
         | [], [] => true
         | x :: xs', y :: ys' => ty_eqb x y && eq_list xs' ys'
         | _, _ => false
         end) xs ys &&
      Bool.eqb e e' && quals_eqb q q'
  | _, _ => false
  end.

(** ** detector.h

    A template template argument [Op] applied to types is a partial function: [None]
    when [Op<Args...>] is ill-formed in the immediate context (substitution failure).
    Hard errors outside the immediate context are not modelled. *)

(** the template parameter Op of detector.h:9-75 *)
Definition metafun := list ty -> option ty.

(** detector.h:35-40  struct nonesuch, a class like any other; it is class 0 here *)
Definition nonesuch : ty := Class 0.

(** detector.h:18-31  the primary template, and the specialization that exists when
    void_t<Op<Args...>> does: value_t and type *)
Definition detector (default : ty) (op : metafun) (args : list ty) : bool * ty :=
  match op args with
  | None => (false, default)
  | Some t => (true, t)
  end.

(** detector.h:42-47  is_detected, is_detected_v *)
Definition is_detected (op : metafun) (args : list ty) : bool := fst (detector nonesuch op args).

(** detector.h:49-51  detected_t *)
Definition detected_t (op : metafun) (args : list ty) : ty := snd (detector nonesuch op args).

(** detector.h:53-57  detected_or, detected_or_t *)
Definition detected_or_t (default : ty) (op : metafun) (args : list ty) : ty :=
  snd (detector default op args).

(** detector.h:59-64  is_detected_exact *)
Definition is_detected_exact (expected : ty) (op : metafun) (args : list ty) : bool :=
  ty_eqb expected (detected_t op args).

(** detector.h:66-72  is_detected_convertible; [conv] is std::is_convertible_v *)
Definition is_detected_convertible (conv : ty -> ty -> bool) (to : ty) (op : metafun) (args : list ty) : bool :=
  conv (detected_t op args) to.

(** ** The qualifier table *)

(** function_traits.h:9-33  QUALIFIERS: the macro arguments c, v, r, n of each X(...)
    line as they are stringified; an empty argument is the empty string *)
Record row := Row { r_c : string; r_v : string; r_r : string; r_n : string }.

(** function_traits.h:9-33, row for row *)
Definition QUALIFIERS : list row :=
  [ Row "" "" "" "";
    Row "const" "" "" "";
    Row "" "volatile" "" "";
    Row "const" "volatile" "" "";
    Row "" "" "&" "";
    Row "const" "" "&" "";
    Row "" "volatile" "&" "";
    Row "const" "volatile" "&" "";
    Row "" "" "&&" "";
    Row "const" "" "&&" "";
    Row "" "volatile" "&&" "";
    Row "const" "volatile" "&&" "";
    Row "" "" "" "noexcept";
    Row "const" "" "" "noexcept";
    Row "" "volatile" "" "noexcept";
    Row "const" "volatile" "" "noexcept";
    Row "" "" "&" "noexcept";
    Row "const" "" "&" "noexcept";
    Row "" "volatile" "&" "noexcept";
    Row "const" "volatile" "&" "noexcept";
    Row "" "" "&&" "noexcept";
    Row "const" "" "&&" "noexcept";
    Row "" "volatile" "&&" "noexcept";
    Row "const" "volatile" "&&" "noexcept" ].

(** the qualifiers the tokens [c v r n] give to the declarator [R(Args...) c v r n]
    (the syntax of C++, not a function of the library): const and volatile in either
    order and each at most once, then & or &&, then noexcept; None: the tokens do not
    form a declarator.  The number counts how far the reading has come *)
Definition read_token (st : option (nat * quals)) (t : string) : option (nat * quals) :=
  match st with
  | None => None
  | Some (k, Quals c v r n) =>
      if t =? "" then st
      else if (t =? "const") && Nat.eqb k 0 && negb c then Some (0, Quals true v r n)
      else if (t =? "volatile") && Nat.eqb k 0 && negb v then Some (0, Quals c true r n)
      else if (t =? "&") && Nat.eqb k 0 then Some (1, Quals c v RefL n)
      else if (t =? "&&") && Nat.eqb k 0 then Some (1, Quals c v RefR n)
      else if (t =? "noexcept") && Nat.ltb k 2 then Some (2, Quals c v r true)
      else None
  end.
Definition spell (c v r n : string) : option quals :=
  match fold_left read_token [c; v; r; n] (Some (0, Quals false false RefNone false)) with
  | Some (_, q) => Some q
  | None => None
  end.

(** the type [R(Args...) c v r n] *)
Definition declare (r : ty) (args : list ty) (c v ref n : string) : option ty :=
  match spell c v ref n with Some q => Some (Fun r args false q) | None => None end.

(** do the tokens spell the qualifiers [q] *)
Definition spells (c v r n : string) (q : quals) : bool :=
  match spell c v r n with Some q' => quals_eqb q' q | None => false end.

(** a template with one partial specialization for [R(Args...) c v r n] per row of
    the table and an undefined primary template (e.g. function_traits.h:545-555): the
    specialization that [t] selects, with R, Args and the row.  None: no row matches
    (the primary template is incomplete) or several do (ambiguous), or some row is no
    declarator and the header does not compile *)
Definition well_spelled (w : row) : bool :=
  match spell (r_c w) (r_v w) (r_r w) (r_n w) with Some _ => true | None => false end.
Definition row_matches (q : quals) (w : row) : bool := spells (r_c w) (r_v w) (r_r w) (r_n w) q.

(** the specialization selected (function_traits.h:545-555 and the like) *)
Definition select (t : ty) : option (ty * list ty * row) :=
  if forallb well_spelled QUALIFIERS then
    match t with
    | Fun r args false q =>
        match filter (row_matches q) QUALIFIERS with
        | [w] => Some (r, args, w)
        | _ => None
        end
    | _ => None
    end
  else None.

(** ** has_const and its siblings on string literals *)

(** function_traits.h:389-399  qualifier_size: the array bound N of the literal, its
    terminating NUL included *)
Definition qualifier_size (s : string) : nat := S (String.length s).

(** function_traits.h:401-413 *)
Definition has_const (s : string) : bool := Nat.eqb (qualifier_size s) (qualifier_size "const").
(** function_traits.h:415-427 *)
Definition has_volatile (s : string) : bool := Nat.eqb (qualifier_size s) (qualifier_size "volatile").
(** function_traits.h:429-441 *)
Definition has_lvalue_reference (s : string) : bool := Nat.eqb (qualifier_size s) (qualifier_size "&").
(** function_traits.h:443-455 *)
Definition has_rvalue_reference (s : string) : bool := Nat.eqb (qualifier_size s) (qualifier_size "&&").
(** function_traits.h:457-469 *)
Definition has_noexcept (s : string) : bool := Nat.eqb (qualifier_size s) (qualifier_size "noexcept").

(** ** Traits of function types; None when the program does not compile *)

(** function_traits.h:608-621 *)
Definition has_const_qualifier (t : ty) : option bool :=
  match select t with Some (_, _, w) => Some (has_const (r_c w)) | None => None end.
(** function_traits.h:623-637 *)
Definition has_volatile_qualifier (t : ty) : option bool :=
  match select t with Some (_, _, w) => Some (has_volatile (r_v w)) | None => None end.
(** function_traits.h:639-653 *)
Definition has_lvalue_reference_qualifier (t : ty) : option bool :=
  match select t with Some (_, _, w) => Some (has_lvalue_reference (r_r w)) | None => None end.
(** function_traits.h:655-669 *)
Definition has_rvalue_reference_qualifier (t : ty) : option bool :=
  match select t with Some (_, _, w) => Some (has_rvalue_reference (r_r w)) | None => None end.
(** function_traits.h:671-685 *)
Definition has_noexcept_qualifier (t : ty) : option bool :=
  match select t with Some (_, _, w) => Some (has_noexcept (r_n w)) | None => None end.

(** function_traits.h:545-555  R(Args...) v r n *)
Definition remove_const_qualifier (t : ty) : option ty :=
  match select t with Some (r, a, w) => declare r a "" (r_v w) (r_r w) (r_n w) | None => None end.
(** function_traits.h:557-567  R(Args...) c r n *)
Definition remove_volatile_qualifier (t : ty) : option ty :=
  match select t with Some (r, a, w) => declare r a (r_c w) "" (r_r w) (r_n w) | None => None end.
(** function_traits.h:569-579  R(Args...) c v n *)
Definition remove_reference_qualifier (t : ty) : option ty :=
  match select t with Some (r, a, w) => declare r a (r_c w) (r_v w) "" (r_n w) | None => None end.
(** function_traits.h:581-591  R(Args...) c v r *)
Definition remove_noexcept_qualifier (t : ty) : option ty :=
  match select t with Some (r, a, w) => declare r a (r_c w) (r_v w) (r_r w) "" | None => None end.
(** function_traits.h:593-606  R(Args...) *)
Definition remove_all_qualifiers (t : ty) : option ty :=
  match select t with Some (r, a, w) => declare r a "" "" "" "" | None => None end.

(** function_traits.h:687-700 *)
Definition return_type (t : ty) : option ty :=
  match select t with Some (r, _, _) => Some r | None => None end.
(** function_traits.h:702-715 *)
Definition params_list (t : ty) : option (list ty) :=
  match select t with Some (_, a, _) => Some a | None => None end.

(** ** is_invocable, signature *)

(** std::is_function *)
Definition is_function (t : ty) : bool := match t with Fun _ _ _ _ => true | _ => false end.

(** the class named by [T::], if [T] is a class type *)
Fixpoint class_of (t : ty) : option nat :=
  match t with
  | Class k => Some k
  | Cv _ t => class_of t
  | _ => None
  end.

(** function_traits.h:375-376  decltype(&T::operator()): ill-formed unless T is a class
    type with exactly one call operator that is no template and is accessible; a static
    call operator would give an ordinary pointer *)
Definition is_simple_functor_impl (P : program) : metafun := fun args =>
  match args with
  | [t] =>
      match class_of t with
      | Some k =>
          match ops_all (P k) with
          | [o] => if o_template o || negb (o_public o) then None
                   else if o_static o then Some (Ptr (o_type o))
                   else Some (MemPtr (ops_owner (P k)) (o_type o))
          | _ => None
          end
      | None => None
      end
  | _ => None
  end.

(** function_traits.h:487-491 *)
Definition is_simple_functor (P : program) (t : ty) : bool :=
  is_detected (is_simple_functor_impl P) [t].

(** function_traits.h:378-387, 493-500  member_signature *)
Definition member_signature (t : ty) : option ty :=
  match t with MemPtr _ u => Some u | _ => None end.

(** function_traits.h:502-509  functor_signature *)
Definition functor_signature (P : program) (t : ty) : option ty :=
  match is_simple_functor_impl P [t] with Some p => member_signature p | None => None end.

(** function_traits.h:511-533  is_invocable: the primary template, the specialization
    for U T::*, and the two for R( * )(Args...) without and with noexcept.  The three
    patterns are disjoint, so the order of the cases does not matter *)
Definition is_invocable (P : program) (t : ty) : bool :=
  match t with
  | MemPtr _ u => is_function u
  | Ptr (Fun _ _ false q) =>
      if spells "" "" "" "" q then true
      else if spells "" "" "" "noexcept" q then true
      else is_function t || is_simple_functor P t
  | _ => is_function t || is_simple_functor P t
  end.

(** function_traits.h:471-484, 535-543  signature *)
Definition signature (P : program) (t : ty) : option ty :=
  if is_function t then Some t
  else match is_simple_functor_impl P [t] with
       | Some p => member_signature p
       | None => None
       end.
