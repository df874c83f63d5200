(** Model of aligned_malloc and aligned_free (memory.h:21-43) with all their branches: the
    calls of the system they make.  The functions of sysops::memory::ops are taken to be those
    of the system. *)

Require Import ZArith List Bool.
Require Import Verif.HeapSpec.
Import ListNotations.
Open Scope Z_scope.

(** memory.h:21-34 aligned_malloc.  [msvc]: _MSC_VER is defined (24-25), else 26-32; [word] is
    the size of a pointer; the system fails or not and stores or returns [p].  _aligned_malloc returns
    the null pointer when it fails. *)
Definition aligned_malloc (msvc : bool) (word size align : Z) (failed : bool) (p : Z) : Z * list system_call :=
  if msvc then (if failed then 0 else p, [Obtain Crt align size failed p])
  else
    let align := if word <=? align then align else word in
    let result := p in
    let result := if failed then 0 else result in
    (result, [Obtain Posix align size failed p]).

(** memory.h:36-43 aligned_free *)
Definition aligned_free (msvc : bool) (p : Z) : list system_call :=
  if msvc then [Return_ Crt p] else [Return_ Posix p].

(** a history of calls *)
Definition heap_step (msvc : bool) (word : Z) (o : heap_op) : heap_event * list system_call :=
  match o with
  | Malloc size align failed p =>
    let (r, cs) := aligned_malloc msvc word size align failed p in (Malloced size align r, cs)
  | Free p => (Freed p, aligned_free msvc p)
  end.
Fixpoint heap_run (msvc : bool) (word : Z) (ops : list heap_op) : list heap_event * list system_call :=
  match ops with
  | [] => ([], [])
  | o :: ops' =>
    let (e, a) := heap_step msvc word o in
    let (es, b) := heap_run msvc word ops' in
    (e :: es, a ++ b)
  end.
