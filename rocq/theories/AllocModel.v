(** Model of memory/memory.h (memory_resource, aligned_malloc, the system and null
    resources, the default resource) and of memory/allocator.h. *)

Require Import ZArith List Bool.
Require Import Verif.Outcome Verif.Machine Verif.AllocSpec Verif.SimpleSpec
  Verif.SimpleModel Verif.MonoModel.
Import ListNotations.
Open Scope Z_scope.
Open Scope res_scope.

(** memory.h:157-219 memory_resource: the two member function pointers a derived
    class passes to the constructor (177-180), applied to the object's state.
    allocate (184-189) and deallocate (197-200) call them. *)
Record resource := Resource {
  rstate : Type;
  r_allocate : rstate -> Z -> Z -> res (rstate * Z);
  r_deallocate : rstate -> Z -> res rstate
}.

(** the C library: posix_memalign returns an error code and stores a pointer *)
Record libc := Libc {
  heap : Type;
  (* alignment, size *)
  posix_memalign : heap -> Z -> Z -> heap * Z * Z;
  free_ : heap -> Z -> heap
}.


(** memory.h:21-34 aligned_malloc, other compilers than MSVC; pointers have 8 bytes *)
Definition aligned_malloc (L : libc) (h : heap L) (size align : Z) : heap L * Z :=
  let align := if 8 <=? align then align else 8 in
  match posix_memalign L h align size with
  | (h', err, result) => (h', if err =? 0 then result else 0)
  end.

(** memory.h:36-43 aligned_free *)
Definition aligned_free (L : libc) (h : heap L) (p : Z) : heap L := free_ L h p.

(** memory.h:229-257 system_memory_resource *)
Definition system_resource (L : libc) : resource :=
  Resource (heap L) (fun h size align => Ok (aligned_malloc L h size align))
    (fun h p => Ok (aligned_free L h p)).

(** memory.h:259-286 null_memory_resource *)
Definition null_resource : resource :=
  Resource unit (fun s size align => Ok (s, 0)) (fun s p => Ok s).

(** monotonic_buffer_resource with the resource [up] as its upstream.  The upstream
    is asked, in the state it has then, only if the call list says so. *)
Definition ask_up (up : resource) (u : rstate up) (size align : Z) : Z :=
  match r_allocate up u size align with Ok (_, p) => p | _ => 0 end.
Definition after_calls (up : resource) (u : rstate up) (calls : list upcall) : res (rstate up) :=
  match calls with
  | [UpAllocate size align] => ' (u', _) <- r_allocate up u size align;; Ok u'
  | [UpDeallocate p] => r_deallocate up u p
  | _ => Ok u
  end.
Definition mono_resource (dbg : bool) (up : resource) : resource :=
  Resource (mono * rstate up)
    (fun su size align => let (s, u) := su in
       ' (s', p, calls) <- mono_allocate dbg s size align (ask_up up u);;
       u' <- after_calls up u calls;; Ok ((s', u'), p))
    (fun su p => let (s, u) := su in
       let (s', calls) := mono_deallocate s p in
       u' <- after_calls up u calls;; Ok (s', u')).

(** simple_resource with the resource [up] as its upstream *)
Definition simple_memory (c : cfg) (fuel : nat) (up : resource) : resource :=
  Resource (state * rstate up)
    (fun su size align => let (s, u) := su in
       ' (s', p, calls) <- allocate_impl c fuel s size align (ask_up up u);;
       u' <- after_calls up u calls;; Ok ((s', u'), p))
    (fun su p => let (s, u) := su in
       ' (s', calls) <- deallocate_impl c s p;;
       u' <- after_calls up u calls;; Ok (s', u')).

(** a client's calls on a resource *)
Definition res_step (R : resource) (s : rstate R) (q : request) : res (rstate R * reply) :=
  match q with
  | Ask size align => ' (s', p) <- r_allocate R s size align;; Ok (s', Got size align p)
  | Give p => s' <- r_deallocate R s p;; Ok (s', Gave p)
  end.
Fixpoint res_run (R : resource) (s : rstate R) (qs : list request) : res (rstate R * list reply) :=
  match qs with
  | [] => Ok (s, [])
  | q :: qs' =>
    ' (s1, r) <- res_step R s q;;
    ' (s2, tr) <- res_run R s1 qs';;
    Ok (s2, r :: tr)
  end.

(** allocator.h:29-33 allocate(aCount), 43-48 allocate_bytes, 52-56
    allocate_object<U>(aCount); [size] is sizeof, [align] alignof *)
Definition allocate_count (R : resource) (s : rstate R) (count size align : Z) : res (rstate R * Z) :=
  r_allocate R s (wrap 64 (count * size)) align.

(** allocator.h:64-74 new_object<U>; the construction itself is noexcept (67) *)
Definition new_object (R : resource) (s : rstate R) (size align : Z) : res (rstate R * Z * list action) :=
  ' (s', p) <- allocate_count R s 1 size align;;
  Ok (s', p, AAsk size align p :: if p =? 0 then [] else [AConstruct p]).

(** allocator.h:76-84 delete_object *)
Definition delete_object (R : resource) (s : rstate R) (p : Z) : res (rstate R * list action) :=
  if p =? 0 then Ok (s, [])
  else s' <- r_deallocate R s p;; Ok (s', [ADestroy p; AGive p]).

(** one call of a client's history: new_object (allocator.h:64-74) or delete_object (76-84) *)
Definition obj_step (R : resource) (s : rstate R) (o : obj_op) : res (rstate R * list action) :=
  match o with
  | New size align => ' (s', _, a) <- new_object R s size align;; Ok (s', a)
  | Delete p => delete_object R s p
  end.
(** a history of such calls (allocator.h:64-84), the actions in order *)
Fixpoint obj_run (R : resource) (s : rstate R) (ops : list obj_op) : res (rstate R * list action) :=
  match ops with
  | [] => Ok (s, [])
  | o :: ops' =>
    ' (s1, a) <- obj_step R s o;;
    ' (s2, b) <- obj_run R s1 ops';;
    Ok (s2, a ++ b)
  end.

(** memory.h:226-227 default_resource, 301-305 set_default_resource (exchange),
    307-310 get_default_resource (load).  Both are one atomic step with
    sequentially consistent order, the default of std::atomic. *)
Definition reg_step (v : Z) (o : reg_op) : Z * Z :=
  match o with RGet => (v, v) | RSet w => (w, v) end.

(** Threads with programs [prog] under a schedule: at each point the named thread
    performs its next operation (nothing if it has finished). *)
Definition set_prog (prog : nat -> list reg_op) (t : nat) (l : list reg_op) : nat -> list reg_op :=
  fun u => if Nat.eqb u t then l else prog u.
Fixpoint reg_run (v : Z) (prog : nat -> list reg_op) (sched : list nat) : Z * list reg_event :=
  match sched with
  | [] => (v, [])
  | t :: sched' =>
    match prog t with
    | [] => reg_run v prog sched'
    | o :: rest =>
      let (v1, r) := reg_step v o in
      let (v2, es) := reg_run v1 (set_prog prog t rest) sched' in
      (v2, (t, o, r) :: es)
    end
  end.

(** memory.h:289-299 system_memory_resource() and null_memory_resource() are static
    functions with a static local object: every translation unit has its own.
    is_equal (234-237, 264-267) and the is_equal of the buffer resources
    (monotonic_buffer_resource.h:49-52, simple_resource.h:209-212) compare
    addresses; objects are named here by the unit that defines them. *)
Inductive resource_id : Type := SystemIn (unit_ : nat) | NullIn (unit_ : nat) | Other (addr : Z).
Definition system_memory_resource (unit_ : nat) : resource_id := SystemIn unit_.
Definition is_equal (a b : resource_id) : bool :=
  match a, b with
  | SystemIn i, SystemIn j => Nat.eqb i j
  | NullIn i, NullIn j => Nat.eqb i j
  | Other x, Other y => x =? y
  | _, _ => false
  end.
(** allocator.h:88-98 operator==, operator!= of allocators of the same type *)
Definition allocator_eq (a b : resource_id) : bool := is_equal a b.
