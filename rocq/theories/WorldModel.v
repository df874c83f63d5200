(** Several memory resources in one program: calls go through the member function
    pointers of memory_resource, and resources can be assigned to each other. *)

Require Import ZArith List Bool Arith.
Require Import Verif.Outcome Verif.SimpleSpec Verif.WorldSpec Verif.MonoModel Verif.SimpleModel.
Import ListNotations.
Open Scope Z_scope.
Open Scope res_scope.

(** the classes derived from memory_resource: monotonic_buffer_resource.h:12,
    simple_resource.h:145 (a class for each MaxBlockCount and BlockSize),
    memory.h:259 null_memory_resource.  system_memory_resource (memory.h:229) has no
    data members either and is left out, as its memory is the C library's. *)
Inductive rclass : Type := CMono | CSimple (mb bs : Z) | CNull.
Definition class_eqb (a b : rclass) : bool :=
  match a, b with
  | CMono, CMono => true
  | CSimple m b, CSimple n c => (m =? n) && (b =? c)
  | CNull, CNull => true
  | _, _ => false
  end.

(** the data members of the derived class *)
Inductive body : Type := BMono (s : mono) | BSimple (mb bs : Z) (s : state) | BNull.
Definition class_of (b : body) : rclass :=
  match b with BMono _ => CMono | BSimple m n _ => CSimple m n | BNull => CNull end.

(** an object: the two pointers of memory_resource (memory.h:217-218), which name the
    class whose allocate_impl and deallocate_impl they call (memory.h:165-175), and the
    members of its own class *)
Record object := Obj { allocate_ : rclass; deallocate_ : rclass; members : body }.

(** memory.h:177-180, and the constructors of the classes: monotonic_buffer_resource.h:20-22,
    simple_resource.h:274-275, memory.h:270-275 *)
Definition made_of (b : body) : object := Obj (class_of b) (class_of b) b.

(** one call of the class's own code *)
Definition body_step (dbg : bool) (fuel : nat) (b : body) (o : op) : res (body * event) :=
  match b with
  | BMono s => ' (s', e) <- mono_step dbg s o;; Ok (BMono s', e)
  | BSimple m n s => ' (s', e) <- step (Cfg m n dbg) fuel s o;; Ok (BSimple m n s', e)
  | BNull =>
    Ok (b, match o with
           | OAllocate size align _ => EAllocate size align 0 []
           | ODeallocate p => EDeallocate p []
           | ORelease => ERelease
           end)
  end.

(** memory.h:184-200 allocate and deallocate of memory_resource: std::invoke of the
    stored pointer, whose code (memory.h:165-175) casts the object down to the class it
    names; that is undefined for an object of another class.  release() is called on the
    class itself. *)
Definition through (o : object) (c : op) : rclass :=
  match c with
  | OAllocate _ _ _ => allocate_ o
  | ODeallocate _ => deallocate_ o
  | ORelease => class_of (members o)
  end.
Definition object_step (dbg : bool) (fuel : nat) (o : object) (c : op) : res (object * event) :=
  if class_eqb (through o c) (class_of (members o)) then
    ' (b, e) <- body_step dbg fuel (members o) c;; Ok (Obj (allocate_ o) (deallocate_ o) b, e)
  else UB.

(** no code: the resource objects of a program, by name *)
Definition world := nat -> option object.
(** no code: one object has changed *)
Definition put (W : world) (x : nat) (o : object) : world :=
  fun y => if Nat.eqb y x then Some o else W y.

(** Assignment.  The classes declare no assignment operator and delete the copy
    constructor only (monotonic_buffer_resource.h:17, simple_resource.h:178,
    memory.h:232, 262; memory.h:157-219 declares neither), so the implicit copy assignment
    copies every member: of the whole object for two objects of one class ([WAssign];
    it does not compile for different classes, which is [UB] here and never used), of
    memory_resource alone through references to it ([WAssignBase]). *)
Definition world_step (dbg : bool) (fuel : nat) (W : world) (o : wop) : res (world * list (nat * event)) :=
  match o with
  | WCall x c =>
    match W x with
    | Some a => ' (a', e) <- object_step dbg fuel a c;; Ok (put W x a', [(x, e)])
    | None => UB
    end
  | WAssign x y =>
    match W x, W y with
    | Some a, Some b =>
      if class_eqb (class_of (members a)) (class_of (members b)) then Ok (put W x b, []) else UB
    | _, _ => UB
    end
  | WAssignBase x y =>
    match W x, W y with
    | Some a, Some b => Ok (put W x (Obj (allocate_ b) (deallocate_ b) (members a)), [])
    | _, _ => UB
    end
  end.

(** a client's history of calls and assignments (memory.h:184-200 and below) *)
Fixpoint world_run (dbg : bool) (fuel : nat) (W : world) (ops : list wop)
  : res (world * list (nat * event)) :=
  match ops with
  | [] => Ok (W, [])
  | o :: ops' =>
    ' (W1, e) <- world_step dbg fuel W o;;
    ' (W2, es) <- world_run dbg fuel W1 ops';;
    Ok (W2, e ++ es)
  end.

(** one resource by itself, called directly *)
Fixpoint body_run (dbg : bool) (fuel : nat) (b : body) (ops : list op) : res (body * list event) :=
  match ops with
  | [] => Ok (b, [])
  | o :: ops' =>
    ' (b1, e) <- body_step dbg fuel b o;;
    ' (b2, es) <- body_run dbg fuel b1 ops';;
    Ok (b2, e :: es)
  end.
