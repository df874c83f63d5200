(** Start-up and exit of a program that uses the resources of memory/memory.h.

    The functions system_memory_resource and null_memory_resource each keep their resource
    in a local static.  Such an object is constructed when control first passes its
    declaration; objects with static storage duration are destroyed in the reverse order of
    their construction; using one that is destroyed, and passing its declaration again, is
    undefined ([basic.start.term]).  Simplification: one thread. *)

Require Import List Bool Arith.
Require Import Verif.Outcome Verif.ExitSpec.
Import ListNotations.
Open Scope res_scope.

(** the objects with static storage duration: the resources of memory.h:289-299 and the client's own *)
Inductive static : Type := Resource (r : nat) | Object (x : nat).

(** the default resource, which resources have been constructed, which destroyed, and what
    has been constructed, the latest first *)
Record estate := Estate { default_ : option nat; made : nat -> bool; gone : nat -> bool; order : list static }.
Definition estart : estate := Estate None (fun _ => false) (fun _ => false) [].

(** no code: a set of resources with one more *)
Definition mark (f : nat -> bool) (r : nat) : nat -> bool := fun q => Nat.eqb q r || f q.

(** memory.h:289-293 system_memory_resource, 295-299 null_memory_resource *)
Definition function_static (s : estate) (r : nat) : res estate :=
  if gone s r then UB
  else if made s r then Ok s
  else Ok (Estate (default_ s) (mark (made s) r) (gone s) (Resource r :: order s)).

(** memory.h:226-227, 301-305 set_default_resource, 307-310 get_default_resource: the
    pointer is null before its initialisation; it is never destroyed *)
Definition use_step (s : estate) (u : use) : res estate :=
  match u with
  | Call r => function_static s r
  | UseDefault => match default_ s with Some r => if gone s r then UB else Ok s | None => UB end
  | SetDefault r => s' <- function_static s r;; Ok (Estate (Some r) (made s') (gone s') (order s'))
  end.
Fixpoint use_run (s : estate) (us : list use) : res estate :=
  match us with [] => Ok s | u :: us' => s' <- use_step s u;; use_run s' us' end.

(** the program from its start to the return of main (no code of the library) *)
Fixpoint main_run (s : estate) (l : list event) : res estate :=
  match l with
  | [] => Ok s
  | Do u :: l' => s' <- use_step s u;; main_run s' l'
  | Complete x :: l' => main_run (Estate (default_ s) (made s) (gone s) (Object x :: order s)) l'
  end.

(** exit.  The destructors of the resources use nothing.  Resources that are constructed
    in the destructor of an object are destroyed after it, before what is older *)
Definition destroy (s : estate) (r : nat) : estate := Estate (default_ s) (made s) (mark (gone s) r) (order s).
Fixpoint destroy_all (s : estate) (l : list static) : estate :=
  match l with
  | Resource r :: l' => destroy_all (destroy s r) l'
  | _ :: l' => destroy_all s l'
  | [] => s
  end.
Fixpoint exit_run (destructor : nat -> list use) (l : list static) (s : estate) : res estate :=
  match l with
  | [] => Ok s
  | Resource r :: l' => exit_run destructor l' (destroy s r)
  | Object x :: l' =>
    s' <- use_run (Estate (default_ s) (made s) (gone s) []) (destructor x);;
    exit_run destructor l' (destroy_all s' (order s'))
  end.
Definition program_run (p : program) : res estate :=
  s <- main_run estart (until_exit p);; exit_run (destructor p) (order s) s.
