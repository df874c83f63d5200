(** Model of a simple_resource with the default upstream: the system resource, which calls
    aligned_malloc and aligned_free (memory.h:229-256). *)

Require Import ZArith List Bool.
Require Import Verif.Outcome Verif.SimpleSpec Verif.SimpleModel Verif.HeapSpec Verif.HeapModel Verif.FallSpec.
Import ListNotations.
Open Scope Z_scope.
Open Scope res_scope.

(** simple_resource.h:188-200: the constructors without an upstream argument take
    get_default_resource(), which is system_memory_resource() (memory.h:220-227, 289-293, 307-310) unless it was
    changed.  A call of the resource, where the upstream's allocate is memory.h:250-254, which
    is aligned_malloc (memory.h:21-34). *)
Definition as_op (msvc : bool) (word : Z) (o : fall_op) : op :=
  match o with
  | FAllocate size align failed p => OAllocate size align (fun sz al => fst (aligned_malloc msvc word sz al failed p))
  | FDeallocate p => ODeallocate p
  | FRelease => ORelease
  end.

(** the calls of the system a call of the upstream makes: memory.h:250-254 and 256 *)
Definition by_upstream (msvc : bool) (word : Z) (o : fall_op) (u : upcall) : list system_call :=
  match u, o with
  | UpAllocate sz al, FAllocate _ _ failed p => snd (aligned_malloc msvc word sz al failed p)
  | UpAllocate _ _, _ => []
  | UpDeallocate q, _ => aligned_free msvc q
  end.

(** the calls of the upstream an event shows *)
Definition up_calls (e : event) : list upcall :=
  match e with EAllocate _ _ _ calls => calls | EDeallocate _ calls => calls | ERelease => [] end.

(** simple_resource.h allocate_impl, deallocate_impl and release (SimpleModel), with the calls
    of the system they lead to *)
Definition fall_step (c : cfg) (msvc : bool) (word : Z) (fuel : nat) (s : state) (o : fall_op) : res (state * event * list system_call) :=
  ' (s', e) <- step c fuel s (as_op msvc word o);;
  Ok (s', e, flat_map (by_upstream msvc word o) (up_calls e)).

(** a history *)
Fixpoint fall_run (c : cfg) (msvc : bool) (word : Z) (fuel : nat) (s : state) (ops : list fall_op) : res (state * list event * list system_call) :=
  match ops with
  | [] => Ok (s, [], [])
  | o :: ops' =>
    ' (s1, e, a) <- fall_step c msvc word fuel s o;;
    ' (s2, es, b) <- fall_run c msvc word fuel s1 ops';;
    Ok (s2, e :: es, a ++ b)
  end.

(** what the client sees of it *)
Definition seen (r : res (state * list event * list system_call)) : res (state * list event) :=
  ' (s, es, _) <- r;; Ok (s, es).
