(** The words in which the theorems about simple_resource speak of the model:
    which configurations and buffers are meant and what a consistent state is. *)

Require Import ZArith List Bool Permutation.
Require Import Verif.Outcome Verif.BitsSpec Verif.SimpleSpec Verif.SimpleModel.
Import ListNotations.
Open Scope Z_scope.

(** BlockSize is a power of two (simple_resource.h:113).  MaxBlockCount = 0 is
    rejected (simple_resource.h:114) and MaxBlockCount = 1 has no BIndex (its width
    is bits_count(0)). *)
Record cfg_ok (c : cfg) : Prop := {
  mb_range : 2 <= MB c < 2 ^ 64;
  bs_pow2 : pow2 (BS c);
  bs_range : BS c < 2 ^ 64
}.

(** a buffer of [size] bytes at address [buffer], inside the address space *)
Definition buffer_ok (buffer size : Z) : Prop :=
  0 <= buffer /\ 0 <= size /\ buffer + size < 2 ^ 64.

(** [s] is a resource just made from that buffer, which has room for a block.  In
    debug builds pointer_to_block_index computes data + MaxBlockCount * BlockSize
    (simple_resource.h:451), which is to lie inside the address space too. *)
Record made (c : cfg) (buffer size : Z) (up : bool) (s : state) : Prop := {
  made_cfg : cfg_ok c;
  made_buffer : buffer_ok buffer size;
  made_max : DBG c = true -> buffer + BS c + MB c * BS c < 2 ^ 64;
  made_from : construct c buffer size up = Ok s;
  made_blocks : bc s <> 0;
  made_ordinary : ordinary_buffer (data s) (bc s * BS c)
}.

(** where the blocks are *)
Record geometry (c : cfg) (s : state) : Prop := {
  g_data : 0 < data s;
  g_aligned : (BS c | data s);
  g_bc : 1 <= bc s <= MB c;
  g_end : data s + bc s * BS c < 2 ^ 64;
  g_max : DBG c = true -> data s + MB c * BS c < 2 ^ 64
}.

(** what a walk over next_index(), prev_index() and in_use() shows *)
Definition regions_of (s : state) (rs : list region) : Prop :=
  tiles (nxt s) (prv s) (inuse s) (bc s) 0 0 rs.

(** a consistent state, with its regions *)
Record wf (c : cfg) (s : state) (rs : list region) : Prop := {
  wf_geom : geometry c s;
  wf_tiles : regions_of s rs;
  wf_coal : coalesced rs;
  wf_heads : forall i, inuse s i = true -> In i (map rstart rs);
  wf_free : freec s = Z.of_nat (length (free rs));
  wf_busy : busyc s = Z.of_nat (length (busy rs))
}.

(** the resource is where it was *)
Definition same_place (s s' : state) : Prop :=
  data s' = data s /\ bc s' = bc s /\ has_up s' = has_up s.

(** enough fuel for the loops over a resource of [n] blocks *)
Definition enough (n : Z) : nat := (S (Z.to_nat n) * S (Z.to_nat n) + 1)%nat.

(** The call does not return, whatever the fuel. *)
Definition never_returns {A : Type} (f : nat -> res A) : Prop := forall fuel, f fuel = Hang.

(** What allocate does where the search comes to [v] ([None]: it never ends): the block found
    is given unless it leaves no byte to spare, when it aborts; where the search ends without a
    block upstream is asked, or null is the answer. *)
Definition follows (c : cfg) (s : state) (size align : Z) (ans : Z -> Z -> Z) (v : option sight) : Prop :=
  match v with
  | Some (Holds f) =>
    (can_hold_spare (data s) (BS c) (from_block (nxt s) (bc s) f) size align ->
     exists s' q, first_aligned (data s) (BS c) (from_block (nxt s) (bc s) f) align q /\
       forall fuel, (2 * Z.to_nat (bc s) + 1 < fuel)%nat -> allocate_impl c fuel s size align ans = Ok (s', q, [])) /\
    (~ can_hold_spare (data s) (BS c) (from_block (nxt s) (bc s) f) size align -> DBG c = true ->
     forall fuel, (2 * Z.to_nat (bc s) + 1 < fuel)%nat -> allocate_impl c fuel s size align ans = Abort)
  | Some _ =>
    (has_up s = true -> answer_fits (BS c) (ans size align)) ->
    forall fuel, (2 * Z.to_nat (bc s) + 1 < fuel)%nat ->
    allocate_impl c fuel s size align ans =
      Ok (if has_up s then (s, ans size align, [UpAllocate size align]) else (s, 0, []))
  | None => never_returns (fun fuel => allocate_impl c fuel s size align ans)
  end.

(** A history of a fresh resource: alignments are powers of two and only live
    pointers are given back. *)
Definition history (c : cfg) (up : bool) (s : state) (ops : list op) (s' : state) (es : list event) : Prop :=
  exists buffer size fuel, made c buffer size up s /\ Forall sane_op ops /\
    run c fuel s ops = Ok (s', es) /\ polite [] es.

(** no block has been granted twice and, where allocate does not check that, none behind the
    buffer *)
Definition well_granted (c : cfg) (s : state) (L : list alloc) : Prop :=
  pairwise_disjoint (map (granted (BS c)) L) /\
  (DBG c = false -> Forall (inside (data s) (bc s * BS c)) (map (granted (BS c)) L)).

(** What next_index(), prev_index(), in_use(), free_count() and busy_count() show after the
    events [es] is right: regions that tile the buffer, no two free ones side by side, those in
    use being exactly the memory granted to the live allocations. *)
Definition in_order (c : cfg) (s : state) (es : list event) : Prop :=
  exists rs, regions_of s rs /\ tiling (bc s) rs /\
    freec s = Z.of_nat (length (free rs)) /\ busyc s = Z.of_nat (length (busy rs)) /\
    Permutation (map (granted (BS c)) (live es)) (map (extent (data s) (BS c)) (busy rs)).
