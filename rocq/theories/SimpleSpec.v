(** What a client of a block allocator can say about it: regions, tilings,
    placements and live allocations.  Nothing here refers to the model. *)

Require Import ZArith List Bool.
Require Import Verif.BitsSpec.
Import ListNotations.
Open Scope Z_scope.

(** * Regions *)

(** [rlen] consecutive blocks from block [rstart], allocated or free *)
Record region := Reg { rstart : Z; rlen : Z; rbusy : bool }.

(** The regions [rs] laid end to end from block [a] to block [n], as seen through
    next_index(), prev_index() and in_use(); [p] is the region before the first.
    The last region has next_index() = 0, the first one prev_index() = 0. *)
Fixpoint tiles (next prev : Z -> Z) (used : Z -> bool) (n p a : Z) (rs : list region) : Prop :=
  match rs with
  | [] => a = n
  | r :: rs' =>
    rstart r = a /\ 0 < rlen r /\ a + rlen r <= n /\
    prev a = p /\ next a = (if a + rlen r =? n then 0 else a + rlen r) /\
    used a = rbusy r /\
    tiles next prev used n a (a + rlen r) rs'
  end.

(** no two neighbours are both free *)
Definition coalesced (rs : list region) : Prop :=
  forall l r1 r2 t, rs = l ++ r1 :: r2 :: t -> rbusy r1 = true \/ rbusy r2 = true.

Definition busy (rs : list region) : list region := filter rbusy rs.
Definition free (rs : list region) : list region := filter (fun r => negb (rbusy r)) rs.

(** * Placement of a request in a region, in bytes *)

Definition region_addr (data bs : Z) (r : region) : Z := data + rstart r * bs.

(** [q] is the lowest address of region [r], or above, that is a multiple of [align] *)
Definition first_aligned (data bs : Z) (r : region) (align q : Z) : Prop :=
  region_addr data bs r <= q /\ (align | q) /\
  forall q', region_addr data bs r <= q' -> (align | q') -> q <= q'.

(** some multiple of [align] has [size] bytes of the region after it *)
Definition can_hold (data bs : Z) (r : region) (size align : Z) : Prop :=
  exists q, region_addr data bs r <= q /\ (align | q) /\
    q + size <= region_addr data bs r + rlen r * bs.
(** the same with at least one byte to spare *)
Definition can_hold_spare (data bs : Z) (r : region) (size align : Z) : Prop :=
  exists q, region_addr data bs r <= q /\ (align | q) /\
    q + size < region_addr data bs r + rlen r * bs.

(** * Allocations *)

(** a live allocation: its address and the size asked for *)
Definition alloc := (Z * Z)%type.

Definition in_bounds (lo hi : Z) (a : alloc) : Prop := lo <= fst a /\ fst a + snd a <= hi.
Definition disjoint (a b : alloc) : Prop := fst a + snd a <= fst b \/ fst b + snd b <= fst a.
Definition pairwise_disjoint (l : list alloc) : Prop :=
  forall l1 a l2 b l3, l = l1 ++ a :: l2 ++ b :: l3 -> disjoint a b.

(** * Histories: what a client calls and what it sees *)

(** calls made on the upstream resource *)
Inductive upcall : Type :=
| UpAllocate (size align : Z)
| UpDeallocate (p : Z).

Inductive op : Type :=
| OAllocate (size align : Z) (ans : Z -> Z -> Z)  (** [ans]: what the upstream would answer *)
| ODeallocate (p : Z)
| ORelease.

(** what one call shows to the client and to the upstream *)
Inductive event : Type :=
| EAllocate (size align p : Z) (calls : list upcall)
| EDeallocate (p : Z) (calls : list upcall)
| ERelease.


(** The live allocations served from the buffer, as the client and the upstream
    can tell from the calls: served means a non-null pointer without a call of the
    upstream. *)
Fixpoint remove_ptr (p : Z) (l : list alloc) : list alloc :=
  match l with
  | [] => []
  | a :: l' => if fst a =? p then l' else a :: remove_ptr p l'
  end.
Definition live_after (l : list alloc) (e : event) : list alloc :=
  match e with
  | EAllocate size align p [] => if p =? 0 then l else (p, size) :: l
  | EDeallocate p [] => remove_ptr p l
  | ERelease => []
  | _ => l
  end.
Definition live (es : list event) : list alloc := fold_left live_after es [].

(** how many calls were served from the buffer, how many pointers it took back *)
Definition is_served (e : event) : bool :=
  match e with EAllocate _ _ p [] => negb (p =? 0) | _ => false end.
Definition is_returned (e : event) : bool :=
  match e with EDeallocate p [] => negb (p =? 0) | _ => false end.
Definition count (f : event -> bool) (es : list event) : Z := Z.of_nat (length (filter f es)).

(** * Buffers *)

(** [g] is the greatest power of two dividing the address [d] *)
Definition alignment_of (d g : Z) : Prop :=
  pow2 g /\ (g | d) /\ forall g', pow2 g' -> (g' | d) -> g' <= g.

(** every block as long as the buffer and aligned like it contains a multiple of
    [align] *)
Definition alignment_within_reach (d n align : Z) : Prop :=
  exists g, alignment_of d g /\ guaranteed_alignment g n align.

(** the address is not a multiple of a huge power of two and the buffer is below
    2 GiB: the range in which max_alignment_inside_block is right (C06) *)
Definition ordinary_buffer (d n : Z) : Prop :=
  forall g, pow2 g -> (g | d) -> g + n - 1 < 2 ^ 31.

(** * Searching the free regions for a place *)

Definition nothing_fits (d b : Z) (rs : list region) (size align : Z) : Prop :=
  forall r, In r rs -> rbusy r = false -> ~ can_hold d b r size align.

(** [f] is the first free region, in address order, that can hold the request *)
Definition first_fit (d b : Z) (rs : list region) (size align : Z)
    (l : list region) (f : region) (t : list region) : Prop :=
  rs = l ++ f :: t /\ rbusy f = false /\ can_hold d b f size align /\
  nothing_fits d b l size align.

(** The condition under which the search is right: a free region that is too small
    and comes before the first fit is the last region or a single block at the
    very start, and the first fit has a byte to spare. *)
Definition search_safe (d b : Z) (rs : list region) (size align : Z) : Prop :=
  (forall l f t, rs = l ++ f :: t -> rbusy f = false -> nothing_fits d b (l ++ [f]) size align ->
     t = [] \/ (l = [] /\ rlen f = 1)) /\
  (forall l f t, first_fit d b rs size align l f t -> can_hold_spare d b f size align).

(** * The ideal allocator: first fit over a list of regions *)

(** the regions lie end to end from block [a] to block [n] *)
Fixpoint contiguous (n a : Z) (rs : list region) : Prop :=
  match rs with
  | [] => a = n
  | r :: rs' => rstart r = a /\ 0 < rlen r /\ contiguous n (a + rlen r) rs'
  end.
(** a complete description of a buffer of [n] blocks; such a list is determined by
    its busy regions *)
Definition tiling (n : Z) (rs : list region) : Prop := contiguous n 0 rs /\ coalesced rs.

(** One call on an allocator with [n] blocks of [b] bytes from address [d], and an
    upstream or none.  A request for [size] bytes is given [size / b + 1] blocks. *)
Inductive spec_step (d b n : Z) (up : bool) : list region -> op -> list region -> event -> Prop :=
| spec_nothing : forall rs align ans,
    spec_step d b n up rs (OAllocate 0 align ans) rs (EAllocate 0 align 0 [])
| spec_serve : forall rs size align ans l f t q i rs', 0 < size ->
    first_fit d b rs size align l f t -> first_aligned d b f align q -> q = d + i * b ->
    tiling n rs' -> busy rs' = busy l ++ Reg i (size / b + 1) true :: busy t ->
    spec_step d b n up rs (OAllocate size align ans) rs' (EAllocate size align q [])
| spec_refuse : forall rs size align ans, 0 < size -> nothing_fits d b rs size align -> up = false ->
    spec_step d b n up rs (OAllocate size align ans) rs (EAllocate size align 0 [])
| spec_pass_on : forall rs size align ans, 0 < size -> nothing_fits d b rs size align -> up = true ->
    spec_step d b n up rs (OAllocate size align ans) rs
      (EAllocate size align (ans size align) [UpAllocate size align])
| spec_null : forall rs, spec_step d b n up rs (ODeallocate 0) rs (EDeallocate 0 [])
| spec_free : forall rs l r t rs', rs = l ++ r :: t -> rbusy r = true ->
    tiling n rs' -> busy rs' = busy l ++ busy t ->
    spec_step d b n up rs (ODeallocate (region_addr d b r)) rs' (EDeallocate (region_addr d b r) [])
| spec_forward : forall rs p, 0 < p -> ~ d <= p < d + n * b -> up = true ->
    spec_step d b n up rs (ODeallocate p) rs (EDeallocate p [UpDeallocate p])
| spec_release : forall rs, spec_step d b n up rs ORelease [Reg 0 n false] ERelease.

Inductive spec_run (d b n : Z) (up : bool) : list region -> list op -> list region -> list event -> Prop :=
| spec_run_nil : forall rs, spec_run d b n up rs [] rs []
| spec_run_cons : forall rs o rs1 e ops rs2 es, spec_step d b n up rs o rs1 e ->
    spec_run d b n up rs1 ops rs2 es -> spec_run d b n up rs (o :: ops) rs2 (e :: es).

(** * Clients *)

(** The calls [ops] are ones a correct client may make: deallocate is given null, a
    live pointer or, if there is an upstream, a block-aligned pointer from outside
    the buffer; every allocate satisfies [allowed] in the regions of that moment;
    the upstream answers with block-aligned pointers (or null); the live pointers
    given back satisfy [may_free]; release only if [rel].  The regions are those of
    the ideal allocator. *)
Definition answer_fits (b p : Z) : Prop := 0 <= p < 2 ^ 64 /\ (b | p).

Definition valid_op (d b n : Z) (up rel : bool) (allowed : list region -> Z -> Z -> Prop)
    (may_free : list region -> region -> Prop)
    (rs : list region) (o : op) : Prop :=
  match o with
  | OAllocate size align ans =>
    size = 0 \/ (0 < size /\ pow2 align /\ allowed rs size align /\
                 (up = true -> answer_fits b (ans size align)))
  | ODeallocate p =>
    p = 0 \/ (exists r, In r rs /\ rbusy r = true /\ may_free rs r /\ p = region_addr d b r) \/
    (up = true /\ 0 < p < 2 ^ 64 /\ (b | p) /\ ~ d <= p < d + n * b)
  | ORelease => rel = true
  end.

Fixpoint valid_client (d b n : Z) (up rel : bool) (allowed : list region -> Z -> Z -> Prop)
    (may_free : list region -> region -> Prop)
    (rs : list region) (ops : list op) : Prop :=
  match ops with
  | [] => True
  | o :: ops' =>
    valid_op d b n up rel allowed may_free rs o /\
    forall rs' e, spec_step d b n up rs o rs' e -> valid_client d b n up rel allowed may_free rs' ops'
  end.

(** requests for which the implemented search is right *)
Definition careful (d b n : Z) (rs : list region) (size align : Z) : Prop :=
  size + align <= 2 ^ 64 /\
  (alignment_within_reach d (n * b) align \/ nothing_fits d b rs size align) /\
  search_safe d b rs size align.

(** requests that need exactly [k] blocks and no special alignment *)
Definition pool_request (b k : Z) (rs : list region) (size align : Z) : Prop :=
  (k - 1) * b < size < k * b /\ align <= b.

(** any order of deallocation *)
Definition any_order (rs : list region) (r : region) : Prop := True.
(** last in, first out *)
Definition last_first (rs : list region) (r : region) : Prop :=
  forall r', In r' rs -> rbusy r' = true -> rstart r' <= rstart r.

(** requests that are not a multiple of the block size, without special alignment *)
Definition odd_request (b : Z) (rs : list region) (size align : Z) : Prop :=
  size + align <= 2 ^ 64 /\ align <= b /\ ~ (b | size).

(** any call whose alignment is a power of two *)
Definition sane_op (o : op) : Prop :=
  match o with OAllocate size align ans => 0 <= size /\ pow2 align /\ align < 2 ^ 64 | _ => True end.

(** any call but release; the alignments do not lead out of the address space *)
Definition counted_op (room : Z) (o : op) : Prop :=
  match o with
  | OAllocate size align ans => 0 <= size /\ pow2 align /\ room + align <= 2 ^ 64
  | ODeallocate p => True
  | ORelease => False
  end.

(** clients of a fresh resource: any calls for which the search is right; requests
    of exactly [k] blocks in any order; a stack; single blocks, with release *)
Definition careful_client (d b n : Z) (up : bool) (ops : list op) : Prop :=
  valid_client d b n up false (careful d b n) any_order [Reg 0 n false] ops.
Definition pool_client (d b n k : Z) (up : bool) (ops : list op) : Prop :=
  valid_client d b n up false (pool_request b k) any_order [Reg 0 n false] ops.
Definition stack_client (d b n : Z) (up : bool) (ops : list op) : Prop :=
  valid_client d b n up false (odd_request b) last_first [Reg 0 n false] ops.
Definition single_block_client (d b n : Z) (up : bool) (ops : list op) : Prop :=
  valid_client d b n up true (pool_request b 1) any_order [Reg 0 n false] ops.

(** requests whose alignment the buffer is sure to offer *)
Definition reachable_request (d b n : Z) (rs : list region) (size align : Z) : Prop :=
  size + align <= 2 ^ 64 /\ alignment_within_reach d (n * b) align.
(** any order, but the region at block 0 is kept *)
Definition keeps_first (rs : list region) (r : region) : Prop := rstart r <> 0.
(** a client that holds block 0, and nothing else, to begin with, and keeps it *)
Definition pinned_client (d b n : Z) (up : bool) (ops : list op) : Prop :=
  forall rs, tiling n rs -> busy rs = [Reg 0 1 true] ->
  valid_client d b n up false (reachable_request d b n) keeps_first rs ops.

(** what the client saw is free of its own mistakes: it only gave back live pointers *)
Fixpoint polite (l : list alloc) (es : list event) : Prop :=
  match es with
  | [] => True
  | e :: es' =>
    match e with EDeallocate p [] => p = 0 \/ In p (map fst l) | _ => True end /\
    polite (live_after l e) es'
  end.

(** the blocks visited by following next_index() from block [i], ending at 0 *)
Fixpoint path (next : Z -> Z) (i : Z) (l : list Z) : Prop :=
  match l with
  | [] => False
  | x :: l' => x = i /\ match l' with [] => next i = 0 | _ => next i <> 0 /\ path next (next i) l' end
  end.

(** [k] blocks of [b] bytes are just enough for [size] bytes *)
Definition blocks_for (b size k : Z) : Prop := size <= k * b /\ forall j, size <= j * b -> k <= j.

(** The blocks from block 1 up to the one that next_index() of block 1 names (the end
    of the buffer if that is 0), whether or not block 1 is the start of a region. *)
Definition from_block_1 (next : Z -> Z) (n : Z) : region :=
  Reg 1 ((if next 1 =? 0 then n else next 1) - 1) false.

(** the first free region is too small and not the last region *)
Definition passes_first_free (d b : Z) (rs : list region) (size align : Z) : Prop :=
  exists l f t, rs = l ++ f :: t /\ (forall x, In x l -> rbusy x = true) /\ rbusy f = false /\
    ~ can_hold d b f size align /\ t <> [].

(** * What a search by next_index() and in_use() comes upon, whatever the links are *)

(** the blocks from block [i] up to the one that next_index() of it names (the end of the
    buffer if that is 0) *)
Definition from_block (next : Z -> Z) (n i : Z) : region :=
  Reg i ((if next i =? 0 then n else next i) - i) false.

(** [f] is the first block not in use on the way from block [i] by next_index() *)
Inductive first_free_from (next : Z -> Z) (used : Z -> bool) : Z -> Z -> Prop :=
| free_here : forall i, used i = false -> first_free_from next used i i
| free_later : forall i f, used i = true -> next i <> 0 -> first_free_from next used (next i) f ->
    first_free_from next used i f.

(** Going from block [i] to the first free block: it can hold the request; or there is none,
    or it is too small and the last one; or it is too small and others follow. *)
Inductive sight : Type := Holds (f : Z) | Ends | GoesOn.
Inductive looks (d b n : Z) (next : Z -> Z) (used : Z -> bool) (size align i : Z) : sight -> Prop :=
| looks_holds : forall f, first_free_from next used i f -> can_hold d b (from_block next n f) size align ->
    looks d b n next used size align i (Holds f)
| looks_ends : (forall f, first_free_from next used i f ->
      next f = 0 /\ ~ can_hold d b (from_block next n f) size align) ->
    looks d b n next used size align i Ends
| looks_on : forall f, first_free_from next used i f -> ~ can_hold d b (from_block next n f) size align ->
    next f <> 0 -> looks d b n next used size align i GoesOn.

(** The search as it is: from block 0, and where others follow on from block 1, again and
    again. *)
Inductive search_from_0 (d b n : Z) (next : Z -> Z) (used : Z -> bool) (size align : Z) : option sight -> Prop :=
| search_0 : forall v, looks d b n next used size align 0 v -> v <> GoesOn ->
    search_from_0 d b n next used size align (Some v)
| search_1 : forall v, looks d b n next used size align 0 GoesOn -> looks d b n next used size align 1 v ->
    v <> GoesOn -> search_from_0 d b n next used size align (Some v)
| search_forever : looks d b n next used size align 0 GoesOn -> looks d b n next used size align 1 GoesOn ->
    search_from_0 d b n next used size align None.

(** * What giving a block back joins, whatever the links are *)

(** the block that prev_index() of block [i] names, and the one that next_index() names, exist
    and are not in use *)
Definition gap_before (prev : Z -> Z) (used : Z -> bool) (i : Z) : bool := negb (i =? 0) && negb (used (prev i)).
Definition gap_after (next : Z -> Z) (used : Z -> bool) (i : Z) : bool :=
  negb (next i =? 0) && negb (used (next i)).
(** where the joined blocks start *)
Definition joined (prev : Z -> Z) (used : Z -> bool) (i : Z) : Z := if gap_before prev used i then prev i else i.

(** the requests of a client that asks for no alignment beyond BlockSize *)
Definition small_alignment (b : Z) (o : op) : Prop :=
  match o with OAllocate size align ans => align <= b | _ => True end.

(** The memory of the blocks an allocation is given, [size / b + 1] of them, and the memory of a
    region. *)
Definition granted (b : Z) (a : alloc) : alloc := (fst a, (snd a / b + 1) * b).
Definition extent (d b : Z) (r : region) : alloc := (region_addr d b r, rlen r * b).

(** inside the [n] bytes at [d] *)
Definition inside (d n : Z) (a : alloc) : Prop := d <= fst a /\ fst a + snd a <= d + n.

(** any call but release, without alignments beyond BlockSize *)
Definition plain_op (b : Z) (o : op) : Prop :=
  match o with
  | OAllocate size align ans => 0 <= size /\ pow2 align /\ align <= b /\ size + align <= 2 ^ 64
  | ODeallocate p => True
  | ORelease => False
  end.
