(** Special member functions of the classes of the library: which are declared, what the compiler
    adds, and what the type traits say. *)

Require Import Bool List ZArith.
Require Import Verif.OffersSpec.
Import ListNotations.

(** A special member function in a class definition: not mentioned, = default, = delete, or with
    a body.  [accessible]: public; [body]: the body compiles if it is instantiated; [nothrow]:
    its noexcept specification (destructors: noexcept unless said otherwise). *)
Inductive declared := Absent | Defaulted | Deleted | Written (accessible body nothrow : bool).

(** a class: its special members, whether there are further constructors, its bases and members,
    and whether it has pure virtual functions *)
Record class_ := Class { decl : deed -> declared; other_ctors : bool; parts : list powers; abstract : bool }.

(** what overload resolution finds for a deed *)
Inductive found := Nothing | Usable (body nothrow : bool).

(** [class.ctor]: whether a class declares the function itself, in whatever way *)
Definition mentioned (k : declared) : bool := match k with Absent => false | _ => true end.
(** [class.default.ctor]: no default constructor is declared implicitly beside any other *)
Definition any_ctor (c : class_) : bool :=
  other_ctors c || mentioned (decl c Default) || mentioned (decl c Copy) || mentioned (decl c Move).

(** a defaulted function does the deed for every part ([class.default.ctor], [class.copy.ctor],
    [class.copy.assign], [class.dtor]); defaulted constructors need the destructors of the parts *)
Definition memberwise (c : class_) (d : deed) : found :=
  if forallb (fun p => can p d) (parts c)
  then Usable true (forallb (fun p => quiet p d) (parts c)) else Nothing.

(** the language: what overload resolution finds for a declaration of the classes below
    (memory.h:156-285, allocator.h:13-27, timer.h:78-131, fast_pimpl.h:17-97); [absent] if there is none *)
Definition picks (c : class_) (d : deed) (k : declared) (absent : found) : found :=
  match k with
  | Absent => absent
  | Defaulted => memberwise c d
  | Deleted => Nothing
  | Written accessible body nothrow => if accessible then Usable body nothrow else Nothing
  end.

(** [class.copy.ctor]: the implicit copy constructor is deleted beside a declared move operation *)
Definition copy_found (c : class_) : found :=
  picks c Copy (decl c Copy)
    (if mentioned (decl c Move) || mentioned (decl c MoveAssign) then Nothing else memberwise c Copy).
(** [class.copy.assign]: so is the implicit copy assignment *)
Definition copy_assign_found (c : class_) : found :=
  picks c CopyAssign (decl c CopyAssign)
    (if mentioned (decl c Move) || mentioned (decl c MoveAssign) then Nothing else memberwise c CopyAssign).
(** no move operation is declared implicitly beside a mentioned special member, and a defaulted one
    that would be deleted is ignored; the copying one is called then *)
Definition moves_implied (c : class_) (other : deed) : bool :=
  negb (mentioned (decl c Copy) || mentioned (decl c CopyAssign) || mentioned (decl c other) || mentioned (decl c Destroy)).
Definition or_else (f g : found) : found := match f with Nothing => g | _ => f end.
Definition found_for (c : class_) (d : deed) : found :=
  match d with
  | Default => picks c Default (decl c Default) (if any_ctor c then Nothing else memberwise c Default)
  | Copy => copy_found c
  | Move =>
    match decl c Move with
    | Defaulted => or_else (memberwise c Move) (copy_found c)
    | k => picks c Move k (if moves_implied c MoveAssign then or_else (memberwise c Move) (copy_found c) else copy_found c)
    end
  | CopyAssign => copy_assign_found c
  | MoveAssign =>
    match decl c MoveAssign with
    | Defaulted => or_else (memberwise c MoveAssign) (copy_assign_found c)
    | k => picks c MoveAssign k
        (if moves_implied c Move then or_else (memberwise c MoveAssign) (copy_assign_found c) else copy_assign_found c)
    end
  | Destroy => picks c Destroy (decl c Destroy) (memberwise c Destroy)
  end.

(** no code: a function was found that may be called *)
Definition usable (f : found) : bool := match f with Usable _ _ => true | Nothing => false end.
(** no code: its body compiles *)
Definition body_of (f : found) : bool := match f with Usable b _ => b | Nothing => false end.
(** no code: it is declared noexcept *)
Definition nothrow_of (f : found) : bool := match f with Usable _ n => n | Nothing => false end.

(** The traits look at declarations only; a program that does the deed also instantiates the
    bodies.  Variables need a class that is not abstract and a destructor. *)
Definition both (c : class_) (get : found -> bool) (d : deed) : bool :=
  get (found_for c d) && (negb (constructs d) || (get (found_for c Destroy) && negb (abstract c))).
Definition answers_of (c : class_) : answers := Answers (both c usable) (both c body_of) (both c nothrow_of).

(** the class as a base or member of another (an abstract base is no variable) *)
Definition powers_of (c : class_) : powers :=
  Powers (fun d => body_of (found_for c d)) (fun d => nothrow_of (found_for c d)).

(** pointers, integers, arrays of bytes *)
Definition plain : powers := Powers (fun _ => true) (fun _ => true).

(** memory.h:156-219 memory_resource: a protected constructor with two parameters, a virtual
    destructor = default (182), two pointers, is_equal pure virtual *)
Definition c_memory_resource : class_ :=
  Class (fun d => match d with Destroy => Defaulted | _ => Absent end) true [plain; plain] true.

(** memory.h:229-285 system_memory_resource and null_memory_resource: copy constructor deleted,
    default constructor private *)
Definition c_system_memory_resource : class_ :=
  Class (fun d => match d with Default => Written false true false | Copy => Deleted | _ => Absent end) false
        [powers_of c_memory_resource] false.
Definition c_null_memory_resource : class_ := c_system_memory_resource.

(** monotonic_buffer_resource.h:13-99: copy constructor deleted, other constructors *)
Definition c_monotonic_buffer_resource : class_ :=
  Class (fun d => match d with Copy => Deleted | _ => Absent end) true
        [powers_of c_memory_resource; plain; plain; plain; plain] false.

(** simple_resource.h:144-200, 549-555: default and copy constructor deleted, a destructor *)
Definition c_simple_resource : class_ :=
  Class (fun d => match d with Default | Copy => Deleted | Destroy => Written true true true | _ => Absent end) true
        [powers_of c_memory_resource; plain; plain; plain; plain; plain; plain; plain] false.

(** allocator.h:13-27, 97: default and copy constructor defaulted, copy assignment deleted *)
Definition c_allocator : class_ :=
  Class (fun d => match d with Default | Copy => Defaulted | CopyAssign => Deleted | _ => Absent end) true [plain] false.

(** timer.h:78-131: default and copies deleted, moves and the destructor written *)
Definition c_timer : class_ :=
  Class (fun d => match d with
                  | Default | Copy | CopyAssign => Deleted
                  | Move | MoveAssign | Destroy => Written true true true
                  end) true [plain; plain; plain] false.

(** fast_pimpl.h:17-84, 90-97: everything written; every body calls T's function of the same kind, the
    destructor also checks Size and Alignment.  The noexcept specifications ask
    is_nothrow_constructible_v<T> and so on, which are false where T cannot. *)
Definition c_fast_pimpl (T : powers) (size align Size Alignment : Z) : class_ :=
  let fits := (Size =? size)%Z && (Alignment =? align)%Z in
  Class (fun d => match d with
                  | Destroy => Written true (able T Destroy && fits) true
                  | _ => Written true (able T d) (says_quiet (as_is T) d)
                  end) true [plain] false.

(** a class of a user with members [ps] (not of the library) *)
Definition deed_eqb (d e : deed) : bool :=
  match d, e with
  | Default, Default | Copy, Copy | Move, Move | CopyAssign, CopyAssign | MoveAssign, MoveAssign | Destroy, Destroy => true
  | _, _ => false
  end.
Definition c_holder (mention : option deed) (ps : list powers) : class_ :=
  Class (fun d => match mention with Some e => if deed_eqb d e then Defaulted else Absent | None => Absent end) false ps false.
