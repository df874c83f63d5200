(** What a client of a memory resource, of an allocator and of the default-resource
    register sees.  Nothing here refers to the model. *)

Require Import ZArith List Bool.
Require Import Verif.BitsSpec Verif.SimpleSpec.
Import ListNotations.
Open Scope Z_scope.

(** * Memory resources *)

Inductive request : Type := Ask (size align : Z) | Give (p : Z).
Inductive reply : Type := Got (size align p : Z) | Gave (p : Z).

(** the storage the client holds, latest first *)
Definition owned_after (l : list alloc) (r : reply) : list alloc :=
  match r with
  | Got size align p => if p =? 0 then l else (p, size) :: l
  | Gave p => remove_ptr p l
  end.
Definition owned (tr : list reply) : list alloc := fold_left owned_after tr [].

(** The client asks only for sizes and alignments of the class [ok] and gives back
    only what it holds. *)
Definition allowed (ok : Z -> Z -> Prop) (l : list alloc) (q : request) : Prop :=
  match q with Ask size align => ok size align | Give p => p = 0 \/ In p (map fst l) end.
Fixpoint fair_trace (ok : Z -> Z -> Prop) (l : list alloc) (tr : list reply) : Prop :=
  match tr with
  | [] => True
  | r :: tr' =>
    allowed ok l (match r with Got size align p => Ask size align | Gave p => Give p end) /\
    fair_trace ok (owned_after l r) tr'
  end.

(** what the client holds is disjoint, inside [mem], and aligned as asked for *)
Record good_trace (mem : Z -> Prop) (tr : list reply) : Prop := {
  good_disjoint : pairwise_disjoint (owned tr);
  good_inside : forall a x, In a (owned tr) -> fst a <= x < fst a + snd a -> mem x;
  good_pointer : forall a, In a (owned tr) -> 0 < fst a < 2 ^ 64;
  good_aligned : forall size align p, In (Got size align p) tr -> p <> 0 -> (align | p)
}.

(** alignments posix_memalign accepts *)
Definition posix_legal (align : Z) : Prop := pow2 align /\ (8 | align) /\ align < 2 ^ 64.

(** * Objects *)

(** what an allocator does on behalf of a client, in order *)
Inductive action : Type :=
| AAsk (size align p : Z)   (** storage was asked for and [p] was the answer *)
| AConstruct (p : Z)        (** an object was constructed at [p] *)
| ADestroy (p : Z)          (** the object at [p] was destroyed *)
| AGive (p : Z).            (** the storage at [p] was given back *)

(** the storage held and the objects alive *)
Definition storage_after (l : list alloc) (a : action) : list alloc :=
  match a with
  | AAsk size align p => if p =? 0 then l else (p, size) :: l
  | AGive p => remove_ptr p l
  | _ => l
  end.
Fixpoint remove_one (p : Z) (l : list Z) : list Z :=
  match l with [] => [] | q :: l' => if q =? p then l' else q :: remove_one p l' end.
Definition alive_after (l : list Z) (a : action) : list Z :=
  match a with AConstruct p => p :: l | ADestroy p => remove_one p l | _ => l end.
Definition storage (tr : list action) : list alloc := fold_left storage_after tr [].
Definition alive (tr : list action) : list Z := fold_left alive_after tr [].

(** Objects are constructed in storage that is held and empty, only living objects
    are destroyed, and storage is given back after its object died. *)
Fixpoint proper_life (st : list alloc) (ob : list Z) (tr : list action) : Prop :=
  match tr with
  | [] => True
  | a :: tr' =>
    match a with
    | AAsk size align p => ~ In p ob
    | AConstruct p => In p (map fst st) /\ ~ In p ob
    | ADestroy p => In p ob
    | AGive p => In p (map fst st) /\ ~ In p ob
    end /\ proper_life (storage_after st a) (alive_after ob a) tr'
  end.

Definition constructions (tr : list action) : list action :=
  filter (fun a => match a with AConstruct _ => true | _ => false end) tr.
Definition destructions (tr : list action) : list action :=
  filter (fun a => match a with ADestroy _ => true | _ => false end) tr.

(** calls of new_object<U> with sizeof(U), alignof(U), and of delete_object *)
Inductive obj_op : Type := New (size align : Z) | Delete (p : Z).

(** * A shared register *)

Inductive reg_op : Type := RGet | RSet (v : Z).
(** what happened, in order: which thread did what and what it got back *)
Definition reg_event := (nat * reg_op * Z)%type.

(** the value after the events, from [init] *)
Definition reg_value (init : Z) (es : list reg_event) : Z :=
  fold_left (fun v e => match e with (_, RSet w, _) => w | _ => v end) es init.
(** values installed and values handed back by set, in order *)
Definition installed (es : list reg_event) : list Z :=
  flat_map (fun e => match e with (_, RSet w, _) => [w] | _ => [] end) es.
Definition handed_back (es : list reg_event) : list Z :=
  flat_map (fun e => match e with (_, RSet _, r) => [r] | _ => [] end) es.
(** what thread [t] did, in order *)
Definition ops_of (t : nat) (es : list reg_event) : list reg_op :=
  flat_map (fun e => match e with (u, o, _) => if Nat.eqb u t then [o] else [] end) es.

(** the client's part: sizes and alignments of the class [ok], and only living
    objects are deleted *)
Fixpoint fair_life (ok : Z -> Z -> Prop) (ob : list Z) (tr : list action) : Prop :=
  match tr with
  | [] => True
  | a :: tr' =>
    match a with AAsk size align p => ok size align | ADestroy p => In p ob | _ => True end /\
    fair_life ok (alive_after ob a) tr'
  end.
