(** Model of how allocators and buffer resources get their resource (memory.h,
    allocator.h, monotonic_buffer_resource.h, simple_resource.h), of the start-up of the
    default resource, and of the conversions and comparisons of allocators of different
    types.

    Resources are addresses.  Of the objects only the pointer to the resource is
    modelled. *)

Require Import ZArith List Bool.
Require Import Verif.Outcome Verif.AllocSpec Verif.AllocModel Verif.DefaultSpec.
Import ListNotations.
Open Scope Z_scope.
Open Scope res_scope.

(** the default resource and the pointers in the objects *)
Record dstate := Dstate { default_ : Z; pointer_of : nat -> option Z }.

(** memory.h:301-305 set_default_resource, 307-310 get_default_resource *)
Definition set_default_resource (s : dstate) (r : Z) : dstate * Z :=
  let (v, old) := reg_step (default_ s) (RSet r) in (Dstate v (pointer_of s), old).
Definition get_default_resource (s : dstate) : dstate * Z :=
  let (v, r) := reg_step (default_ s) RGet in (Dstate v (pointer_of s), r).

(** no code: object [x] now keeps resource [r] (allocator.h:27, 101; upstream_ of the resources) *)
Definition put_pointer (s : dstate) (x : nat) (r : Z) : dstate :=
  Dstate (default_ s) (fun y => if Nat.eqb y x then Some r else pointer_of s y).

(** The constructors that name a resource: allocator.h:27,
    monotonic_buffer_resource.h:18-28 and 36-41, simple_resource.h:180-187 and 202-207 *)
Definition make_on (k : kind) (s : dstate) (x : nat) (r : Z) : dstate := put_pointer s x r.

(** The constructors that do not *)
Definition make (k : kind) (s : dstate) (x : nat) : dstate :=
  match k with
  | KAllocator =>   (* allocator.h:18, 101 *)
      let (s, r) := get_default_resource s in put_pointer s x r
  | KMono =>        (* monotonic_buffer_resource.h:30-34 *)
      let (s, r) := get_default_resource s in make_on KMono s x r
  | KMonoArray =>   (* monotonic_buffer_resource.h:43-47 *)
      let (s, r) := get_default_resource s in make_on KMono s x r
  | KSimple =>      (* simple_resource.h:188-194 *)
      let (s, r) := get_default_resource s in make_on KSimple s x r
  | KSimpleArray => (* simple_resource.h:196-200 *)
      let (s, r) := get_default_resource s in make_on KSimple s x r
  end.

(** allocator.h:19 copy constructor (defaulted) *)
Definition copy (s : dstate) (x y : nat) : res dstate :=
  match pointer_of s y with Some r => Ok (put_pointer s x r) | None => UB end.

(** one act of a program (allocator.h:18-48, memory.h:301-310 and the constructors above) *)
Definition default_step (s : dstate) (o : dop) : res (dstate * list devent) :=
  match o with
  | DSet r => let (s', old) := set_default_resource s r in Ok (s', [DOld old])
  | DMake k x => Ok (make k s x, [])
  | DMakeOn k x r => Ok (make_on k s x r, [])
  | DCopy x y => s' <- copy s x y;; Ok (s', [])
  | DAsk x => match pointer_of s x with Some r => Ok (s, [DAsked x r]) | None => UB end
  end.
(** a sequence of such acts (no code of its own) *)
Fixpoint default_run (s : dstate) (ops : list dop) : res (dstate * list devent) :=
  match ops with
  | [] => Ok (s, [])
  | o :: ops' =>
    ' (s1, a) <- default_step s o;;
    ' (s2, b) <- default_run s1 ops';;
    Ok (s2, a ++ b)
  end.
(** memory.h:226-227: the default resource at the start, before any object exists *)
Definition at_start (init : Z) : dstate := Dstate init (fun _ => None).

(** memory.h:226-227: before its dynamic initialisation the atomic pointer is
    zero-initialised; then it is the system resource [sys] (not null).  What each
    initialiser reads (307-310) *)
Fixpoint startup_run (sys : Z) (d : Z) (l : list startup) : list (nat * Z) :=
  match l with
  | [] => []
  | InitDefault :: l' => startup_run sys sys l'
  | Init u _ :: l' => (u, snd (reg_step d RGet)) :: startup_run sys d l'
  end.

(** allocator.h:29-33, 43-48: the resource is dereferenced *)
Definition allocator_allocate (s : dstate) (x : nat) : res Z :=
  match pointer_of s x with
  | Some r => if r =? 0 then UB else Ok r
  | None => UB
  end.

(** ** Access to the private member resource_ (allocator.h:100-101).  The code that may
    use it: members of the same specialisation and its friends (88-98) *)
Inductive code : Type := MemberOf (T : nat) | FriendOf (T : nat) | OtherCode.
Definition may_access (c : code) (T : nat) : bool :=
  match c with MemberOf U | FriendOf U => Nat.eqb U T | OtherCode => false end.
Definition resource_member (c : code) (a : alloc_value) : option Z :=
  match a with AllocOf T r => if may_access c T then Some r else None end.

(** allocator.h:19 copy constructor (preferred for the same type), 22-25 converting
    constructor; None: does not compile *)
Definition allocator_from (T : nat) (a : alloc_value) : option alloc_value :=
  match a with
  | AllocOf U r =>
    if Nat.eqb U T then Some (AllocOf T r)
    else match resource_member (MemberOf T) a with Some r => Some (AllocOf T r) | None => None end
  end.

(** allocator.h:88-92 the friend (preferred for the same type: it is no template),
    104-108 the template (preferred for different types: no conversion); two resources
    are equal when they are the same *)
Definition allocators_equal (a b : alloc_value) : option bool :=
  match a, b with
  | AllocOf T _, AllocOf U _ =>
    let c := if Nat.eqb T U then FriendOf T else OtherCode in
    match resource_member c a, resource_member c b with
    | Some r, Some q => Some (r =? q)
    | _, _ => None
    end
  end.
(** allocator.h:94-98, 110-114 *)
Definition allocators_different (a b : alloc_value) : option bool :=
  match allocators_equal a b with Some e => Some (negb e) | None => None end.
