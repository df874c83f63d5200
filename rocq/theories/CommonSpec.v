(** Object types, and what the type predicates of common.h are meant to say.  Nothing
    here depends on the model. *)

Require Import List Bool Arith.
Import ListNotations.

(** C++ types.  Integer types differ by name (unsigned long and unsigned long long have
    the same size); [Named] is any other type, known by its size.  [Cv c v t] is t with a
    top-level const (c) and volatile (v) *)
Inductive ctype : Type :=
| Bool
| Byte
| Integer (signed : bool) (name size : nat)
| Floating (size : nat)
| Named (name size : nat)
| StdArray (elem : ctype) (n : nat)
| Tuple (ts : list ctype) (size : nat)
| RefWrapper (t : ctype)
| Cv (c v : bool) (t : ctype)
| LRef (t : ctype)
| RRef (t : ctype).

(** without a top-level const or volatile *)
Definition unqualified (t : ctype) : ctype := match t with Cv _ _ u => u | _ => t end.
(** without reference and, then, without top-level const and volatile *)
Definition bare (t : ctype) : ctype :=
  match t with LRef u | RRef u => unqualified u | _ => unqualified t end.

(** volatile, or a reference to something volatile *)
Definition is_volatile (t : ctype) : bool :=
  match t with LRef (Cv _ v _) | RRef (Cv _ v _) | Cv _ v _ => v | _ => false end.

(** types are written in one way only: cv-qualifiers are gathered in one [Cv], which adds
    one at least and is never put on a reference; there are no references to references *)
Fixpoint well_formed (t : ctype) : Prop :=
  match t with
  | Bool | Byte | Integer _ _ _ | Floating _ | Named _ _ => True
  | StdArray e _ => well_formed e
  | Tuple ts _ => fold_right (fun u P => well_formed u /\ P) True ts
  | RefWrapper u => well_formed u
  | Cv c v u => c || v = true /\ match u with Cv _ _ _ | LRef _ | RRef _ => False | _ => True end /\ well_formed u
  | LRef u | RRef u => match u with LRef _ | RRef _ => False | _ => True end /\ well_formed u
  end.

(** an unsigned integer type, const or not; bool is none *)
Definition unsigned_integer (t : ctype) : Prop :=
  exists name size, unqualified t = Integer false name size.
Definition unsigned_integer_or_byte (t : ctype) : Prop :=
  unsigned_integer t \/ unqualified t = Byte.

(** sizeof; that of a reference is that of what it refers to; a reference_wrapper has
    the size of a pointer *)
Fixpoint size_of (t : ctype) : nat :=
  match t with
  | Bool | Byte => 1
  | Integer _ _ s | Floating s | Named _ s | Tuple _ s => s
  | StdArray e n => match n with 0 => 1 | _ => n * size_of e end
  | RefWrapper _ => 8
  | Cv _ _ u | LRef u | RRef u => size_of u
  end.

(** the elements of these arrays can be read: nothing reads a volatile std::array unless it
    is one of several and empty *)
Definition readable_arrays (ts : list ctype) : Prop :=
  forall t, In t ts -> is_volatile t = true -> 1 < length ts /\ exists e, bare t = StdArray e 0.
