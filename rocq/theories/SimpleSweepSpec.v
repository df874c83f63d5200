(** What release() of simple_resource does block by block.  [nxt], [prv] and [inuse] are what
    next_index(), prev_index() and in_use() show. *)

Require Import ZArith List Bool.
Require Import Verif.Outcome Verif.SimpleModel Verif.SimpleSpec Verif.SimpleView.
Import ListNotations.
Open Scope Z_scope.

(** the first block in use that the walk by next_index() from block [i] meets, if any *)
Inductive meets (next : Z -> Z) (used : Z -> bool) : Z -> option Z -> Prop :=
| meets_here : forall i, used i = true -> meets next used i (Some i)
| meets_none : forall i, used i = false -> next i = 0 -> meets next used i None
| meets_later : forall i r, used i = false -> next i <> 0 -> meets next used (next i) r -> meets next used i r.

(** From block [i] the blocks [js] are given back, one after the other, with outcome [r]: the
    first block in use on the way is given back as deallocate would; if nothing follows the
    free region it ends up in, that is all, and otherwise the walk starts again, at block 1. *)
Inductive sweeps (c : cfg) : state -> Z -> list Z -> res state -> Prop :=
| sweeps_none : forall s i, meets (nxt s) (inuse s) i None -> sweeps c s i [] (Ok s)
| sweeps_abort : forall s i j, meets (nxt s) (inuse s) i (Some j) ->
    deallocate_impl c s (data s + j * BS c) = Abort -> sweeps c s i [j] Abort
| sweeps_last : forall s i j s2, meets (nxt s) (inuse s) i (Some j) ->
    deallocate_impl c s (data s + j * BS c) = Ok (s2, []) ->
    nxt s2 (joined (prv s) (inuse s) j) = 0 -> sweeps c s i [j] (Ok s2)
| sweeps_again : forall s i j s2 js r, meets (nxt s) (inuse s) i (Some j) ->
    deallocate_impl c s (data s + j * BS c) = Ok (s2, []) ->
    nxt s2 (joined (prv s) (inuse s) j) <> 0 -> sweeps c s2 1 js r -> sweeps c s i (j :: js) r.

(** The blocks that the calls of release() in a history give back, one list for each. *)
Inductive released (c : cfg) (fuel : nat) : state -> list op -> list (list Z) -> Prop :=
| released_none : forall s, released c fuel s [] []
| released_here : forall s js s1 ops g, sweeps c s 0 js (Ok s1) -> released c fuel s1 ops g ->
    released c fuel s (ORelease :: ops) (js :: g)
| released_later : forall s o s1 e ops g, o <> ORelease -> step c fuel s o = Ok (s1, e) ->
    released c fuel s1 ops g -> released c fuel s (o :: ops) g.

(** [counted_op], or a call of release() *)
Definition countable (room : Z) (o : op) : Prop := o = ORelease \/ counted_op room o.

(** The blocks that the calls of release() in a history give back, by what in_use() shows:
    those that were in use before the call and are not afterwards. *)
Inductive freed (c : cfg) (fuel : nat) : state -> list op -> list (list Z) -> Prop :=
| freed_none : forall s, freed c fuel s [] []
| freed_here : forall s s1 e js ops g, step c fuel s ORelease = Ok (s1, e) -> NoDup js ->
    (forall i, In i js <-> inuse s i = true /\ inuse s1 i = false) -> freed c fuel s1 ops g ->
    freed c fuel s (ORelease :: ops) (js :: g)
| freed_later : forall s o s1 e ops g, o <> ORelease -> step c fuel s o = Ok (s1, e) ->
    freed c fuel s1 ops g -> freed c fuel s (o :: ops) g.
