(** Property C139: allocator<T> and the standard containers. *)

Require Import ZArith List Bool PeanoNat.
Require Import Verif.Outcome Verif.AllocModel Verif.ForwardSpec Verif.ForwardModel.
Require Import Verif.ContainSpec Verif.ContainModel Verif.ContainProofs.
Import ListNotations.

(** C139: no container that owns memory can be used with allocator<T>, whatever the types: memory is
    given back with deallocate(p, n), and allocator<T>::deallocate takes the pointer only *)
Theorem C139_container_refuted : forall W C T uses, owns_memory uses -> container_compiles W C T uses = false.
Proof. exact no_container. Qed.
Print Assumptions C139_container_refuted.

(** exactly: a program that makes these requests through std::allocator_traits compiles if it never
    gives memory back, rebinds the allocator to no other type and constructs only from what
    construct can pass on (C81, C116) *)
Theorem C139_exact_partial : forall W C T uses,
  container_compiles W C T uses = true <->
  ~ In GiveBack uses /\
  forall q, In q uses ->
    match q with
    | Convert U | SameAs U => U = T
    | Make U args => exists b, construct_calls W (C U) T false args = Some b
    | _ => True
    end.
Proof. exact container_exact. Qed.
Print Assumptions C139_exact_partial.

(** in particular no element can be copied into a container: construct rejects a const T& *)
Theorem C139_insert_refuted : forall W C T U, traits_compile W C T (Make U [Arg T true LValue]) = false.
Proof. exact insert_never. Qed.
Print Assumptions C139_insert_refuted.

(** and where a container counts on an exception when there is no memory, allocate returns a null
    pointer *)
Theorem C139_null_refuted : forall count size align, allocate_count null_resource tt count size align = Ok (tt, 0%Z).
Proof. exact null_answer. Qed.
Print Assumptions C139_null_refuted.

(** a vector and a list of a type with all constructors; a program that only asks for memory, moves
    an element into it and destroys the element does compile *)
Example C139_instance :
  let W := Types (fun _ _ => false) (fun _ _ => false) in
  let C := fun (_ : nat) (_ : list argument) => Some true in
  owns_memory (vector_uses 1) /\ owns_memory (list_uses 1 2) /\
  container_compiles W C 1 (vector_uses 1) = false /\ container_compiles W C 1 (list_uses 1 2) = false /\
  container_compiles W C 1 [Copy_; Select; Same; Get; Largest; Make 1 [Arg 1 false RValue]; Unmake 1] = true /\
  container_compiles W C 1 [Copy_; Convert 2] = false.
Proof.
  cbv zeta. split; [cbn; unfold owns_memory; cbn; tauto|]. split; [unfold owns_memory; cbn; tauto|].
  repeat split; vm_compute; reflexivity.
Qed.
