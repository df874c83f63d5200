(** Specification for C159: a simple_resource whose upstream is the system resource, as it is
    by default. *)

Require Import ZArith List Bool.
Require Import Verif.BitsSpec Verif.SimpleSpec Verif.HeapSpec Verif.LoneSpec.
Import ListNotations.
Open Scope Z_scope.

(** The calls of a client.  [failed], [p]: what the allocation function of the system will
    answer if it is asked during this call (a pointer also if it fails). *)
Inductive fall_op : Type :=
  | FAllocate (size align : Z) (failed : bool) (p : Z)
  | FDeallocate (p : Z)
  | FRelease.

(** the alignment the system is asked for: at least that of a pointer with posix_memalign *)
Definition asked (msvc : bool) (word align : Z) : Z := if msvc then align else Z.max word align.

(** A system that keeps its promise: an answer is aligned as it was asked to be and is not in
    the buffer, whose blocks are the [n] bytes from [d] on. *)
Definition promise (msvc : bool) (word d n align p : Z) : Prop :=
  0 < p < 2 ^ 64 /\ (asked msvc word align | p) /\ own d n p = false.

(** Requests with alignments that are powers of two, a system that keeps its promise, and a
    client that gives back only what points into the buffer, what the system has answered
    before ([got]), or null.  What points into the buffer need not be live. *)
Fixpoint fair (msvc : bool) (word d n : Z) (got : list Z) (ops : list fall_op) : Prop :=
  match ops with
  | [] => True
  | FAllocate size align failed p :: ops' =>
    0 <= size /\ pow2 align /\ align < 2 ^ 64 /\ (failed = false -> promise msvc word d n align p) /\
    fair msvc word d n (if failed then got else p :: got) ops'
  | FDeallocate p :: ops' => 0 <= p < 2 ^ 64 /\ (own d n p = false -> p = 0 \/ In p got) /\ fair msvc word d n got ops'
  | FRelease :: ops' => fair msvc word d n got ops'
  end.

(** any calls, with alignments that are powers of two *)
Definition plain (o : fall_op) : Prop :=
  match o with
  | FAllocate size align failed p => 0 <= size /\ pow2 align /\ align < 2 ^ 64
  | FDeallocate p => 0 <= p < 2 ^ 64
  | FRelease => True
  end.

(** the system is asked for memory aligned to blocks of [b] bytes *)
Definition wide (msvc : bool) (word b : Z) (o : fall_op) : Prop :=
  match o with FAllocate size align failed p => b <= asked msvc word align | _ => True end.

(** the same calls for a resource without upstream: what the system answered cannot be given
    back there (null is given back instead) *)
Definition no_heap (d n : Z) (o : fall_op) : op :=
  match o with
  | FAllocate size align _ _ => OAllocate size align (fun _ _ => 0)
  | FDeallocate p => ODeallocate (if own d n p then p else 0)
  | FRelease => ORelease
  end.

(** what the client has had from the system, as a user of the heap: its requests that were
    passed on, and what it gave back that is not in the buffer *)
Definition from_heap (d n : Z) (e : event) : list heap_event :=
  match e with
  | EAllocate size align p (_ :: _) => [Malloced size align p]
  | EDeallocate p _ => if (p =? 0) || own d n p then [] else [Freed p]
  | _ => []
  end.

(** A call that asked the system was answered what the system answered, or null when that failed. *)
Definition passed_on (o : fall_op) (e : event) : Prop :=
  match o, e with
  | FAllocate size align failed p, EAllocate size' align' q calls =>
    size' = size /\ align' = align /\ (calls = [] \/ (calls = [UpAllocate size align] /\ q = if failed then 0 else p))
  | FDeallocate p, EDeallocate p' calls => p' = p /\ (calls = [] \/ calls = [UpDeallocate p])
  | FRelease, ERelease => True
  | _, _ => False
  end.
