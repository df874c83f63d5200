(** Model of a monotonic_buffer_resource with the default upstream, the system resource
    (monotonic_buffer_resource.h:30-47, memory.h:229-256). *)

Require Import ZArith List Bool.
Require Import Verif.Outcome Verif.SimpleSpec Verif.MonoModel Verif.HeapSpec Verif.HeapModel Verif.FallSpec Verif.FallModel.
Import ListNotations.
Open Scope Z_scope.
Open Scope res_scope.

(** monotonic_buffer_resource.h:61-93 allocate_impl and deallocate_impl, 58 release, with the
    calls of the system they lead to (memory.h:250-256) *)
Definition spill_step (dbg msvc : bool) (word : Z) (s : mono) (o : fall_op) : res (mono * event * list system_call) :=
  ' (s', e) <- mono_step dbg s (as_op msvc word o);;
  Ok (s', e, flat_map (by_upstream msvc word o) (up_calls e)).

(** a history *)
Fixpoint spill_run (dbg msvc : bool) (word : Z) (s : mono) (ops : list fall_op) : res (mono * list event * list system_call) :=
  match ops with
  | [] => Ok (s, [], [])
  | o :: ops' =>
    ' (s1, e, a) <- spill_step dbg msvc word s o;;
    ' (s2, es, b) <- spill_run dbg msvc word s1 ops';;
    Ok (s2, e :: es, a ++ b)
  end.

(** what the client sees of it *)
Definition spill_seen (r : res (mono * list event * list system_call)) : res (mono * list event) :=
  ' (s, es, _) <- r;; Ok (s, es).
