(** allocator<T> (memory/allocator.h) seen by std::allocator_traits: which of the requests of a
    container compile. *)

Require Import ZArith List Bool String PeanoNat.
Require Import Verif.ForwardSpec Verif.ForwardModel Verif.DefaultSpec Verif.DefaultModel Verif.OffersSpec Verif.OffersModel.
Require Import Verif.ContainSpec.
Import ListNotations.
Open Scope string_scope.

(** parameters of member functions: a number, one with a default, a pointer to a given type, a
    pointer to any type (deduced), void*, a parameter pack *)
Inductive param := PSize | PSizeOpt | PPtr (T : nat) | PAnyPtr | PVoidPtr | PPack.
(** arguments: a number, a pointer to a type, any other *)
Inductive given := GSize | GPtr (T : nat) | GOther.

(** the language: whether a parameter of allocator.h:29-62 accepts an argument (no conversions but
    those to void* ) *)
Definition takes (p : param) (g : given) : bool :=
  match p, g with
  | PSize, GSize | PSizeOpt, GSize => true
  | PPtr T, GPtr U => Nat.eqb T U
  | PAnyPtr, GPtr _ | PVoidPtr, GPtr _ => true
  | PPack, _ => true
  | _, _ => false
  end.
(** the language: the same for the whole parameter list (allocator.h:29-62) *)
Fixpoint accepts (ps : list param) (gs : list given) : bool :=
  match ps, gs with
  | [], [] => true
  | [PPack], _ => true
  | PSizeOpt :: ps', [] => accepts ps' []
  | p :: ps', g :: gs' => takes p g && accepts ps' gs'
  | _, _ => false
  end.

(** allocator.h:29, 35, 37-38, 43-45, 49, 51-52, 57-58, 63-64, 76-77: the public member functions
    with their parameters.  Those of 51-83 are templates of U; allocate_object and new_object
    have U given explicitly, which allocator_traits never does. *)
Definition members (T : nat) : list (string * list param) :=
  [("allocate", [PSize]); ("deallocate", [PPtr T]); ("construct", [PAnyPtr; PPack]);
   ("allocate_bytes", [PSize; PSizeOpt]); ("deallocate_bytes", [PVoidPtr]);
   ("allocate_object", [PSizeOpt]); ("deallocate_object", [PAnyPtr]);
   ("new_object", [PPack]); ("delete_object", [PAnyPtr]); ("resource", [])].
Definition member_call (T : nat) (name : string) (gs : list given) : bool :=
  existsb (fun m => String.eqb (fst m) name && accepts (snd m) gs) (members T).

Section Traits.
  Variable W : types.
  (** how each type can be constructed *)
  Variable C : nat -> constructors.

  (** std::allocator_traits<allocator<T>>: required members are called; for optional ones there is
      a replacement when the call of the member is ill-formed.  Whether the call is ill-formed is
      seen from the declarations; the body is compiled when the call is chosen. *)
  Definition traits_compile (T : nat) (q : request) : bool :=
    match q with
    | Copy_ => compiles (answers_of c_allocator) Copy
    | Select => if member_call T "select_on_container_copy_construction" [] then true
                else compiles (answers_of c_allocator) Copy
    | Convert U => match allocator_from T (AllocOf U 0%Z) with Some _ => true | None => false end
    | Same => match allocators_equal (AllocOf T 0%Z) (AllocOf T 0%Z), allocators_different (AllocOf T 0%Z) (AllocOf T 0%Z) with
              | Some _, Some _ => true | _, _ => false end
    | SameAs U => match allocators_equal (AllocOf T 0%Z) (AllocOf U 0%Z), allocators_different (AllocOf T 0%Z) (AllocOf U 0%Z) with
                  | Some _, Some _ => true | _, _ => false end
    | Get => member_call T "allocate" [GSize]
    | GiveBack => member_call T "deallocate" [GPtr T; GSize]
    | Make U args =>
      if member_call T "construct" (GPtr U :: map (fun _ => GOther) args)
      then match construct_calls W (C U) T false args with Some _ => true | None => false end
      else match C U args with Some _ => true | None => false end
    | Unmake U => true   (* destroy is not declared: p->~U() *)
    | Largest => true    (* max_size is not declared: a number *)
    end.

  (** a container compiles if all its requests do *)
  Definition container_compiles (T : nat) (uses : list request) : bool := forallb (traits_compile T) uses.
End Traits.
