(** The expectations of /repo/tests/src/timer_tests.cpp, allocator_tests.cpp,
    fast_pimpl_tests.cpp and monotonic_buffer_resource_tests.cpp, evaluated in the model.
    They prove no property; they check that the model computes what the project's own
    tests observe. *)

Require Import ZArith List Bool.
Require Import Verif.Outcome.
Require Verif.TimerSpec Verif.TimerModel Verif.AcceptSpec Verif.AcceptModel Verif.OffersSpec Verif.OffersModel.
Require Verif.DefaultSpec Verif.DefaultModel Verif.PimplSpec Verif.PimplModel Verif.SimpleSpec Verif.MonoModel.
Import ListNotations.
Open Scope Z_scope.

(** timer_tests.cpp:9-17, 19-21, 28-35 DefaultConstructor, CopyConstructor, CopyAssignment, and the
    static_asserts of MoveConstructor and MoveAssignment *)
Example timer_special_members :
  map (OffersSpec.says_quiet (OffersModel.answers_of OffersModel.c_timer))
      [OffersSpec.Default; OffersSpec.Copy; OffersSpec.Move; OffersSpec.CopyAssign; OffersSpec.MoveAssign] =
  [false; false; true; false; true].
Proof. vm_compute. reflexivity. Qed.

(** timer_tests.cpp:41-56 ConstructWithFunctionRef, ConstructWithFunctionPointer, ConstructWithFunctor *)
Example timer_arguments :
  map (AcceptModel.constructor_compiles 8 8 8 8)
    [AcceptSpec.Function true true AcceptSpec.ConstTimerRef;
     AcceptSpec.Pointer AcceptSpec.ConstTimerRef;
     AcceptSpec.Object (AcceptSpec.Functor (AcceptSpec.Plain AcceptSpec.ConstTimerRef) true AcceptSpec.NoRef true true 1 1)
       false true] = [true; true; true].
Proof. vm_compute. reflexivity. Qed.

Section Timer.
Import TimerSpec TimerModel.

(** print_duration as eight bytes *)
Definition print_duration : callable := (0%nat, [16; 17; 18; 19; 20; 21; 22; 23]).

Definition events (r : res (store * list tevent)) : option (list tevent) :=
  match r with Ok (_, es) => Some es | _ => None end.

(** timer_tests.cpp:19-26 MoveConstructor; the locals end in the opposite order *)
Example move_constructor : forall now,
  events (timer_run 8 no_timers
    [TNew 0 now print_duration; TStart 0; TMove 1 0; TStart 1; TDestroy 1; TDestroy 0]) =
  Some [TStarted 0 now; TStarted 1 now; TCalled 1 print_duration now].
Proof. intros now. reflexivity. Qed.

(** timer_tests.cpp:33-39 MoveAssignment: line 37 constructs t2; what remains of t1 is asked *)
Example move_assignment : forall now,
  events (timer_run 8 no_timers
    [TNew 0 now print_duration; TMove 1 0; TStart 0; TStart 1; TDestroy 1; TDestroy 0]) =
  Some [TStarted 0 now; TStarted 1 now; TCalled 1 print_duration now].
Proof. intros now. reflexivity. Qed.
End Timer.

(** allocator_tests.cpp:10-14 DefaultConstructor: the resource of a default constructed
    allocator is the default resource *)
Example default_constructor : forall init,
  let s := DefaultModel.make DefaultSpec.KAllocator (DefaultModel.at_start init) 0 in
  DefaultModel.pointer_of s 0 = Some (snd (DefaultModel.get_default_resource s)).
Proof. reflexivity. Qed.

Section Pimpl.
Import PimplSpec PimplModel.

(** fast_pimpl_tests.cpp:4-9 my_type: a char, a float and an int without constructors *)
Definition my_type : cls :=
  Cls (Z * Z * Z) (0, 0, 0) (fun x => x) (fun _ x => (x, x)) (fun _ _ y => y) (fun _ _ y => (y, y))
      (fun _ x => x) (fun _ x => x) true true true true true true.

(** fast_pimpl_tests.cpp:11-14 DefaultConstructor *)
Example pimpl_default_constructor :
  pimpl_compiles 12 4 12 4 = true /\
  (match pimpl_run my_type (no_pimpls my_type) [PDefault 0 false; PDestroy 0 false] with
   | Ok (_, es) => Some es | _ => None end) = Some [EBegin 0%nat (0, 0, 0); EEnd 0%nat (0, 0, 0)].
Proof. split; reflexivity. Qed.
End Pimpl.

(** monotonic_buffer_resource_tests.cpp:7-24 Construct: a buffer of 256 bytes at a multiple of 16,
    release() in the destructor of the fixture *)
Example monotonic_construct : forall k up, 0 < k ->
  let s := MonoModel.mono_construct (16 * k) 256 up in
  (match MonoModel.mono_run true s [SimpleSpec.ORelease] with Ok (s', es) => Some (s', es) | _ => None end) =
  Some (s, [SimpleSpec.ERelease]) /\
  MonoModel.mdata s = 16 * k /\ MonoModel.msize s = 256 /\ MonoModel.mnext s = 16 * k.
Proof. intros [|k|k] up H; try discriminate H. repeat split. Qed.
