(** Threads calling memory resources that are connected by their upstream pointers, and the
    accesses to the resource objects these calls make.

    Calls are steps: a schedule names the thread that makes its next call.  That is
    faithful for executions without a data race; ones with a data race are undefined in C++,
    and the second part shows for the monotonic buffer what happens when a call is cut into
    its reads and writes. *)

Require Import ZArith List Bool Arith.
Require Import Verif.Outcome Verif.Machine Verif.BitsModel Verif.SimpleSpec.
Require Import Verif.SimpleModel Verif.MonoModel Verif.WorldModel Verif.ThreadsSpec.
Import ListNotations.
Open Scope Z_scope.
Open Scope res_scope.

(** no code: the resources of a program, by name *)
Definition store := nat -> option body.
(** no code: the members of one resource have changed *)
Definition store_put (W : store) (x : nat) (b : body) : store := fun y => if Nat.eqb y x then Some b else W y.

(** a resource without a buffer: null_memory_resource (memory.h:259-286) or a monotonic buffer
    constructed with no buffer (monotonic_buffer_resource.h:17-27) *)
Definition bufferless (b : body) : Prop := match b with BNull => True | BMono s => mdata s = 0 | BSimple _ _ _ => False end.

(** monotonic_buffer_resource.h:73-82: the request is served from the buffer, next_ is written *)
Definition mono_serves (dbg : bool) (s : mono) (size align : Z) : bool :=
  match skip_to_align dbg (mnext s) align with
  | Ok skip => wrap 64 (wrap 64 (mnext s + skip) + size) <=? wrap 64 (mdata s + msize s)
  | _ => false
  end.

(** Whether a call may write members of the object; it always reads some (memory.h:186-200: the
    member function pointers).  monotonic_buffer_resource.h:58, 61-93; simple_resource.h:214-219,
    283-373; memory.h:280-285.  For simple_resource every search in a buffer, every deallocation
    that is not passed on and every release counts as writing (some of them only read). *)
Definition writes (dbg : bool) (b : body) (o : op) (calls : list upcall) : bool :=
  match b, o with
  | BMono s, OAllocate size align _ => negb (size =? 0) && negb (mdata s =? 0) && mono_serves dbg s size align
  | BMono _, ODeallocate _ => false
  | BSimple _ _ s, OAllocate size _ _ => negb (size =? 0) && negb (data s =? 0)
  | BSimple _ _ _, ODeallocate p => negb (p =? 0) && match calls with [] => true | _ => false end
  | BNull, _ => false
  | _, ORelease => true
  end.

(** no code: the call with the upstream's answer filled in (monotonic_buffer_resource.h:84-88,
    simple_resource.h:323-327) *)
Definition with_answer (o : op) (p : Z) : op :=
  match o with OAllocate size align _ => OAllocate size align (fun _ _ => p) | _ => o end.
(** memory.h:229-258 system_memory_resource: what aligned_malloc answers, as the call says *)
Definition library_answer (o : op) (size align : Z) : Z :=
  match o with OAllocate _ _ ans => ans size align | _ => 0 end.
(** no code: the calls of the upstream that a call makes *)
Definition calls_of (e : event) : list upcall :=
  match e with EAllocate _ _ _ calls | EDeallocate _ calls => calls | ERelease => [] end.
(** no code: the pointer an allocate returned *)
Definition pointer_of (e : event) : Z := match e with EAllocate _ _ p _ => p | _ => 0 end.
(** the call the upstream gets; [o] is the call that is passed on *)
Definition passed (c : upcall) (o : op) : op :=
  match c with
  | UpAllocate size align => OAllocate size align (library_answer o)
  | UpDeallocate p => ODeallocate p
  end.

Section Linked.
Context (links : nat -> link) (dbg : bool) (fuel : nat).

(** One call of resource [x]: its own code, with the upstream called where the code calls it
    (monotonic_buffer_resource.h:84-88, simple_resource.h:323-327, 353-356).  What the code does up to that
    point does not depend on the answer, so it is found out with the answer null first.
    [n] bounds the length of the chain of upstreams.  The result: the objects, what the call
    shows, the accesses. *)
Fixpoint linked_step (n : nat) (W : store) (x : nat) (o : op) : res (store * event * list (nat * bool)) :=
  match n with
  | O => Hang
  | S n' =>
    match W x with
    | None => UB
    | Some b =>
      ' (b0, e0) <- body_step dbg fuel b (with_answer o 0);;
      let mine := (x, writes dbg b o (calls_of e0)) in
      match calls_of e0, links x with
      | [], _ => Ok (store_put W x b0, e0, [mine])
      | _ :: _, NoUpstream => UB
      | UpAllocate size align :: _, SystemUpstream =>
        ' (b1, e1) <- body_step dbg fuel b (with_answer o (library_answer o size align));;
        Ok (store_put W x b1, e1, [mine])
      | UpDeallocate _ :: _, SystemUpstream => Ok (store_put W x b0, e0, [mine])
      | c :: _, Upstream y =>
        ' (W1, e, l) <- linked_step n' W y (passed c o);;
        ' (b1, e1) <- body_step dbg fuel b (with_answer o (pointer_of e));;
        Ok (store_put W1 x b1, e1, mine :: l)
      end
    end
  end.

(** no code: thread [t] has [rest] left to do *)
Definition next_calls (prog : nat -> list call) (t : nat) (rest : list call) : nat -> list call :=
  fun u => if Nat.eqb u t then rest else prog u.

(** threads with programs [prog] under a schedule; a thread that has finished does nothing *)
Fixpoint threads_run (n : nat) (W : store) (prog : nat -> list call) (sched : list nat)
  : res (store * list (nat * (nat * event)) * list access) :=
  match sched with
  | [] => Ok (W, [], [])
  | t :: sched' =>
    match prog t with
    | [] => threads_run n W prog sched'
    | (x, o) :: rest =>
      ' (W1, e, l) <- linked_step n W x o;;
      ' (W2, es, log) <- threads_run n W1 (next_calls prog t rest) sched';;
      Ok (W2, (t, (x, e)) :: es, map (fun a => (t, fst a, snd a)) l ++ log)
    end
  end.
End Linked.

(** * One monotonic buffer, read and written step by step *)

(** where a thread is in allocate_impl (monotonic_buffer_resource.h:61-91): before the first read of
    next_ (74), with the number of bytes to skip, with supposed_result (75) after the comparison
    (76-77) said that it fits, after the write (79); [Done 0]: it did not fit and there is no
    upstream.  Asserts are left out, the reads of data_ and size_ (never written after
    construction) belong to the step of line 75. *)
Inductive place : Type := Start | Skipped (skip : Z) | Fits (q : Z) | Done (p : Z).

(** monotonic_buffer_resource.h:61-91 allocate_impl, one access to next_ at a time *)
Definition small_step (s : mono) (size align : Z) (k : place) : mono * place :=
  match k with
  | Start => (s, match skip_to_align false (mnext s) align with Ok skip => Skipped skip | _ => Done 0 end)
  | Skipped skip =>
    let q := wrap 64 (mnext s + skip) in
    (s, if wrap 64 (q + size) <=? wrap 64 (mdata s + msize s) then Fits q else Done 0)
  | Fits q => (Mono (mdata s) (msize s) (mup s) (wrap 64 (q + size)), Done q)
  | Done p => (s, Done p)
  end.

(** [want t]: size and alignment of the one request of thread [t] *)
Fixpoint small_run (s : mono) (want : nat -> Z * Z) (at_ : nat -> place) (sched : list nat) : mono * (nat -> place) :=
  match sched with
  | [] => (s, at_)
  | t :: sched' =>
    let (s1, k) := small_step s (fst (want t)) (snd (want t)) (at_ t) in
    small_run s1 want (fun u => if Nat.eqb u t then k else at_ u) sched'
  end.
