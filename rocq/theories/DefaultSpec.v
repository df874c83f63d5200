(** Who uses which memory resource: histories of set_default_resource and of the
    construction of allocators and buffer resources.  Nothing here depends on the
    model. *)

Require Import ZArith List Bool.
Import ListNotations.
Open Scope Z_scope.

(** what is constructed: an allocator, or a buffer resource (from pointer and size, or
    from an array), whose upstream is meant *)
Inductive kind : Type := KAllocator | KMono | KMonoArray | KSimple | KSimpleArray.

(** A history.  Resources are addresses, 0 is the null pointer; objects have names. *)
Inductive dop : Type :=
| DSet (r : Z)                         (* set_default_resource(r) *)
| DMake (k : kind) (x : nat)           (* x is constructed, no resource is named *)
| DMakeOn (k : kind) (x : nat) (r : Z) (* x is constructed on resource r *)
| DCopy (x y : nat)                    (* x is constructed as a copy of the allocator y *)
| DAsk (x : nat).                      (* x is asked for memory it has to get from its resource *)

(** what the client sees: the resource that set_default_resource returns, the resource
    that is asked *)
Inductive devent : Type := DOld (r : Z) | DAsked (x : nat) (r : Z).

(** the default resource after a history, the latest call first, when it was [init] at
    the start *)
Fixpoint default_after (init : Z) (past : list dop) : Z :=
  match past with
  | [] => init
  | DSet r :: _ => r
  | _ :: past' => default_after init past'
  end.

(** the resource of object [x] after a history, the latest call first: the one named at
    its construction or, if none was, the default resource of that moment *)
Fixpoint resource_of (init : Z) (past : list dop) (x : nat) : option Z :=
  match past with
  | [] => None
  | DMake _ y :: past' => if Nat.eqb y x then Some (default_after init past') else resource_of init past' x
  | DMakeOn _ y r :: past' => if Nat.eqb y x then Some r else resource_of init past' x
  | DCopy y z :: past' => if Nat.eqb y x then resource_of init past' z else resource_of init past' x
  | _ :: past' => resource_of init past' x
  end.

(** the events of a history after the [past] *)
Fixpoint expected (init : Z) (past : list dop) (ops : list dop) : list devent :=
  match ops with
  | [] => []
  | o :: ops' =>
    match o with
    | DSet _ => [DOld (default_after init past)]
    | DAsk x => match resource_of init past x with Some r => [DAsked x r] | None => [] end
    | _ => []
    end ++ expected init (o :: past) ops'
  end.

(** every object is constructed before it is asked or copied *)
Fixpoint proper (init : Z) (past : list dop) (ops : list dop) : Prop :=
  match ops with
  | [] => True
  | o :: ops' =>
    match o with
    | DAsk x | DCopy _ x => resource_of init past x <> None
    | _ => True
    end /\ proper init (o :: past) ops'
  end.

(** ** Start-up: the initialisation of the variables with static storage duration.

    [InitDefault] initialises the default resource; [Init u v] initialises a variable of
    translation unit [u], which gets the default resource by a function of unit [v]. *)
Inductive startup : Type := InitDefault | Init (u v : nat).

Definition is_init_default (x : startup) : bool := match x with InitDefault => true | Init _ _ => false end.

(** the orders the language allows ([basic.start.dynamic]): a variable of a unit that
    includes the header is defined after the inline variable and therefore initialised
    after it; nothing is said about other units *)
Definition allowed (includes : nat -> bool) (l : list startup) : Prop :=
  (forall before u v after, l = before ++ Init u v :: after -> includes u = true -> In InitDefault before) /\
  (forall before after, l = before ++ InitDefault :: after -> ~ In InitDefault before /\ ~ In InitDefault after).

(** ** Allocators of several value types *)

Inductive alloc_value : Type := AllocOf (T : nat) (resource : Z).
