(** Model of memory/simple_resource.h, function by function.

    Block indices are of type BIndex, an unsigned type of [iw c] bits; every
    value stored in a BIndex is wrapped to that width.  Pointers are flat 64-bit
    addresses (0 is the null pointer) and pointer arithmetic wraps; forming an
    out-of-bounds pointer is not treated as undefined behaviour here.  Accesses
    to infos_ and in_use_ beyond MaxBlockCount are.  The contents of the buffer
    are never touched by the resource and are not modelled. *)

Require Import ZArith List Bool.
Require Import Verif.Outcome Verif.Machine Verif.BitsModel Verif.ArithModel.
Require Import Verif.SimpleSpec.  (* for op, event and upcall only *)
Import ListNotations.
Open Scope Z_scope.
Open Scope res_scope.

(** template <MaxBlockCount, BlockSize>, and whether assert is active *)
Record cfg := Cfg { MB : Z; BS : Z; DBG : bool }.

(** simple_resource.h:150 BIndex: its width in bits *)
Definition iw (c : cfg) : Z :=
  match bits_count (MB c - 1) with
  | Ok n => match uint_from_nbits n with Some t => bits t | None => 0 end
  | _ => 0
  end.
Definition bindex (c : cfg) (x : Z) : Z := wrap (iw c) x.

(** simple_resource.h:549-555 data members.  infos_ is two maps from block index,
    in_use_ one; upstream_ is null or not. *)
Record state := St {
  data : Z;
  bc : Z;
  has_up : bool;
  prv : Z -> Z;
  nxt : Z -> Z;
  inuse : Z -> bool;
  freec : Z;
  busyc : Z
}.

(** no code: an array (simple_resource.h:549-555) changed at one index *)
Definition upd {A : Type} (f : Z -> A) (i : Z) (v : A) : Z -> A :=
  fun j => if j =? i then v else f j.

(** an element of infos_[MaxBlockCount] or in_use_ is accessed *)
Definition in_array {A : Type} (c : cfg) (i : Z) (k : res A) : res A :=
  if (0 <=? i) && (i <? MB c) then k else UB.

(** simple_resource.h:221-225, 531-535 at(aIndex) *)
Definition at_ {A : Type} (c : cfg) (s : state) (i : Z) (k : res A) : res A :=
  cassert (DBG c) (i <? bc s) (in_array c i k).
(** simple_resource.h:158-160 at(i).prev_index(), at(i).next_index() *)
Definition prev_index (c : cfg) (s : state) (i : Z) : res Z := at_ c s i (Ok (prv s i)).
Definition next_index (c : cfg) (s : state) (i : Z) : res Z := at_ c s i (Ok (nxt s i)).

(** simple_resource.h:231-235 in_use *)
Definition in_use (c : cfg) (s : state) (i : Z) : res bool :=
  cassert (DBG c) (i <? bc s) (in_array c i (Ok (inuse s i))).

(** assignment to the prev_index_ members of infos_ (simple_resource.h:151-169, 552) *)
Definition with_prv (s : state) (f : Z -> Z) : state :=
  St (data s) (bc s) (has_up s) f (nxt s) (inuse s) (freec s) (busyc s).
(** assignment to the next_index_ members of infos_ (simple_resource.h:151-169, 552) *)
Definition with_nxt (s : state) (f : Z -> Z) : state :=
  St (data s) (bc s) (has_up s) (prv s) f (inuse s) (freec s) (busyc s).
(** assignment to in_use_ (simple_resource.h:553) *)
Definition with_inuse (s : state) (f : Z -> bool) : state :=
  St (data s) (bc s) (has_up s) (prv s) (nxt s) f (freec s) (busyc s).
(** assignment to free_count_ (simple_resource.h:554) *)
Definition with_freec (s : state) (n : Z) : state :=
  St (data s) (bc s) (has_up s) (prv s) (nxt s) (inuse s) n (busyc s).
(** assignment to busy_count_ (simple_resource.h:555) *)
Definition with_busyc (s : state) (n : Z) : state :=
  St (data s) (bc s) (has_up s) (prv s) (nxt s) (inuse s) (freec s) n.

(** simple_resource.h:537-541 set_in_use, 543-547 reset_in_use *)
Definition set_in_use (c : cfg) (s : state) (i : Z) : res state :=
  cassert (DBG c) (i <? bc s) (in_array c i (Ok (with_inuse s (upd (inuse s) i true)))).
Definition reset_in_use (c : cfg) (s : state) (i : Z) : res state :=
  cassert (DBG c) (i <? bc s) (in_array c i (Ok (with_inuse s (upd (inuse s) i false)))).

(** simple_resource.h:497-504 set_prev *)
Definition set_prev (c : cfg) (s : state) (i p : Z) : res state :=
  cassert (DBG c) (i <? bc s)
    (if (p <? i) || (p =? 0) then at_ c s i (Ok (with_prv s (upd (prv s) i p))) else Ok s).

(** simple_resource.h:506-513 set_next *)
Definition set_next (c : cfg) (s : state) (i n : Z) : res state :=
  cassert (DBG c) (n <? bc s)
    (if (i <? n) || (n =? 0) then at_ c s i (Ok (with_nxt s (upd (nxt s) i n))) else Ok s).

(** simple_resource.h:515-529 set_prev_next *)
Definition set_prev_next (c : cfg) (s : state) (i p n : Z) : res state :=
  cassert (DBG c) (i <? bc s) (cassert (DBG c) (n <? bc s) (at_ c s i
    (let s1 := if (p <? i) || (p =? 0) then with_prv s (upd (prv s) i p) else s in
     let s2 := if (i <? n) || (n =? 0) then with_nxt s1 (upd (nxt s1) i n) else s1 in
     Ok s2))).

(** ++ and -- on the std::size_t counters *)
Definition inc (x : Z) : Z := wrap 64 (x + 1).
Definition dec (x : Z) : Z := wrap 64 (x - 1).

(** simple_resource.h:22-49 allocate_not_matched *)
Definition allocate_not_matched (c : cfg) (s : state) (free_first first last free_last : Z) : res state :=
  cassert (DBG c) (free_first <? first) (cassert (DBG c) (first <=? last)
   (cassert (DBG c) (last <? free_last)
    (s <- set_in_use c s first;;
     let next := bindex c (last + 1) in
     _ <- next_index c s free_first;;
     s <- set_prev_next c s first free_first next;;
     n <- next_index c s free_first;;
     s <- set_prev_next c s next first n;;
     n <- next_index c s free_first;;
     s <- set_prev c s n next;;
     s <- set_next c s free_first first;;
     Ok (with_busyc (with_freec s (inc (freec s))) (inc (busyc s)))))).

(** simple_resource.h:51-73 allocate_begin_matched *)
Definition allocate_begin_matched (c : cfg) (s : state) (free_first last free_last : Z) : res state :=
  cassert (DBG c) (free_first <=? last) (cassert (DBG c) (last <? free_last)
   (s <- set_in_use c s free_first;;
    let next := bindex c (last + 1) in
    n <- next_index c s free_first;;
    s <- set_prev_next c s next free_first n;;
    n <- next_index c s free_first;;
    s <- set_prev c s n next;;
    s <- set_next c s free_first next;;
    Ok (with_busyc s (inc (busyc s))))).

(** simple_resource.h:75-97 allocate_end_matched *)
Definition allocate_end_matched (c : cfg) (s : state) (free_first first free_last : Z) : res state :=
  cassert (DBG c) (free_first <? first) (cassert (DBG c) (first <=? free_last)
   (s <- set_in_use c s first;;
    let next := if free_last <? wrap 64 (bc s - 1) then bindex c (free_last + 1) else 0 in
    _ <- next_index c s free_first;;
    s <- set_prev_next c s first free_first next;;
    n <- next_index c s free_first;;
    s <- set_prev c s n first;;
    s <- set_next c s free_first first;;
    Ok (with_busyc s (inc (busyc s))))).

(** simple_resource.h:99-107 allocate_matched *)
Definition allocate_matched (c : cfg) (s : state) (free_first : Z) : res state :=
  cassert (DBG c) (free_first <? bc s)
   (s <- set_in_use c s free_first;;
    Ok (with_busyc (with_freec s (dec (freec s))) (inc (busyc s)))).

(** simple_resource.h:109-132 origin_and_block_count *)
Definition origin_and_block_count (c : cfg) (buffer size : Z) : res (Z * Z) :=
  if negb (buffer =? 0) && negb (size =? 0) then
    skip <- skip_to_align (DBG c) buffer (BS c);;
    if skip <? size then
      let count := (size - skip) / BS c in
      if 0 <? count then Ok (wrap 64 (buffer + skip), count) else Ok (0, 0)
    else Ok (0, 0)
  else Ok (0, 0).

(** simple_resource.h:180-187, 272-281, 549-555 constructor *)
Definition construct (c : cfg) (buffer size : Z) (upstream : bool) : res state :=
  ' (origin, count) <- origin_and_block_count c buffer size;;
  Ok (St origin (Z.min count (MB c)) upstream (fun _ => 0) (fun _ => 0) (fun _ => false) 1 0).

(** simple_resource.h:241-249 block_size, 251-255 block_size_in_bytes *)
Definition block_size (c : cfg) (s : state) (i : Z) : res Z :=
  n <- next_index c s i;;
  Ok (wrap 64 ((if n =? 0 then bc s else n) - i)).
Definition block_size_in_bytes (c : cfg) (s : state) (i : Z) : res Z :=
  n <- block_size c s i;; Ok (wrap 64 (n * BS c)).

(** simple_resource.h:257 size *)
Definition size_ (c : cfg) (s : state) : Z := wrap 64 (BS c * bc s).

(** simple_resource.h:446-455 pointer_to_block_index *)
Definition pointer_to_block_index (c : cfg) (s : state) (p : Z) : res Z :=
  cassert (DBG c) (data s <=? p)
   (cassert (DBG c) (p <? wrap 64 (data s + wrap 64 (BS c * MB c)))
     (Ok (bindex c (wrap 64 (p - data s) / BS c)))).

(** simple_resource.h:457-461 block_index_to_pointer *)
Definition block_index_to_pointer (c : cfg) (s : state) (i : Z) : res Z :=
  cassert (DBG c) (i <? bc s) (Ok (wrap 64 (data s + wrap 64 (i * BS c)))).

(** simple_resource.h:463-486 merge_if_both_not_in_use; returns the state and the
    resulting index *)
Definition merge_if_both_not_in_use (c : cfg) (s : state) (l r : Z) : res (state * Z) :=
  if (l =? r) || (r =? 0) then Ok (s, l)
  else
    cassert (DBG c) (l <? r)
     (lu <- in_use c s l;;
      ru <- (if DBG c && lu then in_use c s r else Ok false);;
      cassert (DBG c) (negb lu || negb ru)
       (if lu then Ok (s, r)
        else
          ru <- in_use c s r;;
          if ru then Ok (s, l)
          else
            cassert (DBG c) (0 <? freec s)
             (n <- next_index c s r;;
              s <- set_prev c s n l;;
              n <- next_index c s r;;
              s <- set_next c s l n;;
              Ok (with_freec s (dec (freec s)), l)))).

(** simple_resource.h:488-495 merge_adjacent_blocks *)
Definition merge_adjacent_blocks (c : cfg) (s : state) (i : Z) : res (state * Z) :=
  p <- prev_index c s i;;
  u <- (if DBG c then in_use c s i else Ok false);;
  cassert (DBG c) (negb u)
   (' (s, merged) <- merge_if_both_not_in_use c s p i;;
    n <- next_index c s i;;
    merge_if_both_not_in_use c s merged n).

(** simple_resource.h:375-390 deallocate_blocks *)
Definition deallocate_blocks (c : cfg) (s : state) (i : Z) : res (state * Z) :=
  cassert (DBG c) (i <? bc s)
   (u <- in_use c s i;;
    abort_when (negb u)
     (s <- reset_in_use c s i;;
      cassert (DBG c) (0 <? busyc s)
       (let s := with_busyc s (dec (busyc s)) in
        cassert (DBG c) (freec s <? 2 ^ 64 - 1)
         (let s := with_freec s (inc (freec s)) in
          merge_adjacent_blocks c s i)))).

(** simple_resource.h:392-410 apply.  The actions passed by allocate_impl and
    release are lambdas with return type bool, so the index they return is
    converted to bool and from there back to BIndex: [act] returns a bool, true
    standing for the index 1.  [A] is what the action captures by reference. *)
Definition of_bool (b : bool) : Z := if b then 1 else 0.
Fixpoint apply_loop {A : Type} (fuel : nat) (c : cfg)
    (pred : state -> Z -> res bool) (act : state -> A -> Z -> res (state * A * bool))
    (s : state) (a : A) (i : Z) : res (state * A) :=
  match fuel with
  | O => Hang
  | S fuel' =>
    _ <- next_index c s i;;
    b <- pred s i;;
    ' (s', a', i') <-
      (if b then
         ' (s', a', r) <- act s a i;; Ok (s', a', of_bool r)
       else n <- next_index c s i;; Ok (s, a, n));;
    if i' =? 0 then Ok (s', a') else apply_loop fuel' c pred act s' a' i'
  end.

(** simple_resource.h:412-444 allocate_blocks *)
Definition allocate_blocks (c : cfg) (s : state) (free_region p size : Z) : res state :=
  first <- pointer_to_block_index c s p;;
  last <- pointer_to_block_index c s (wrap 64 (p + size));;
  after_free <- next_index c s free_region;;
  let last_of_free := if after_free =? 0 then bindex c (wrap 64 (bc s - 1))
                      else bindex c (after_free - 1) in
  if free_region =? first then
    if negb (last =? last_of_free)
    then allocate_begin_matched c s free_region last last_of_free
    else allocate_matched c s free_region
  else
    if negb (last =? last_of_free)
    then allocate_not_matched c s free_region first last last_of_free
    else allocate_end_matched c s free_region first last.

(** simple_resource.h:303-323 the lambdas of allocate_impl; the captured pointer
    is 0 until a region is found *)
Definition alloc_pred (c : cfg) (s : state) (i : Z) : res bool :=
  u <- in_use c s i;; Ok (negb u).
Definition alloc_act (c : cfg) (size align : Z) (s : state) (pointer : Z) (i : Z)
  : res (state * Z * bool) :=
  n <- block_size_in_bytes c s i;;
  bp <- block_index_to_pointer c s i;;
  skip <- skip_to_align (DBG c) bp align;;
  if wrap 64 (skip + size) <=? n then
    let pointer := wrap 64 (bp + skip) in
    s <- allocate_blocks c s i pointer size;;
    Ok (s, pointer, false)
  else
    m <- next_index c s i;;
    Ok (s, pointer, negb (m =? 0)).

(** simple_resource.h:296-326: the search in the buffer.  ctz of a non-null
    address is its number of trailing zeros (C11). *)
Definition search_buffer (c : cfg) (fuel : nat) (s : state) (size align : Z) : res (state * Z) :=
  if data s =? 0 then Ok (s, 0)
  else
    z <- calc_ctz (DBG c) (data s);;
    a <- shl i32 1 z;;
    m <- max_alignment_inside_block (DBG c) (conv u64 a) (wrap 64 (bc s * BS c));;
    if align <=? m
    then apply_loop fuel c (alloc_pred c) (alloc_act c size align) s 0 0
    else Ok (s, 0).

(** simple_resource.h:283-332 allocate_impl.  [ans size align] is the pointer the
    upstream resource returns if it is asked. *)
Definition allocate_impl (c : cfg) (fuel : nat) (s : state) (size align : Z) (ans : Z -> Z -> Z)
  : res (state * Z * list upcall) :=
  if size =? 0 then Ok (s, 0, [])
  else
    cassert (DBG c) (is_power_of_2 align)
     (' (s, p) <- search_buffer c fuel s size align;;
      let (p, calls) := if (p =? 0) && has_up s then (ans size align, [UpAllocate size align])
                        else (p, []) in
      al <- (if DBG c then is_aligned true p (BS c) else Ok true);;
      cassert (DBG c) al (Ok (s, p, calls))).

(** simple_resource.h:334-373 deallocate_impl *)
Definition deallocate_impl (c : cfg) (s : state) (p : Z) : res (state * list upcall) :=
  if p =? 0 then Ok (s, [])
  else
    al <- is_aligned (DBG c) p (BS c);;
    abort_when (negb al)
     (if (data s <=? p) && (p <? wrap 64 (data s + size_ c s)) then
        i <- pointer_to_block_index c s p;;
        ' (s, _) <- deallocate_blocks c s i;;
        Ok (s, [])
      else if has_up s then Ok (s, [UpDeallocate p])
      else
        abort_when (p <? data s)
          (abort_when ((wrap 64 (data s + size_ c s) <=? p) && negb (has_up s)) (Ok (s, [])))).

(** simple_resource.h:214-219 release *)
Definition release_act (c : cfg) (s : state) (a : unit) (i : Z) : res (state * unit * bool) :=
  ' (s, m) <- deallocate_blocks c s i;;
  n <- next_index c s m;;
  Ok (s, tt, negb (n =? 0)).
Definition release (c : cfg) (fuel : nat) (s : state) : res state :=
  ' (s, _) <- apply_loop fuel c (in_use c) (release_act c) s tt 0;; Ok s.

(** simple_resource.h:169-176 destructor *)
Definition destroy (s : state) : res unit := abort_when (negb (busyc s =? 0)) (Ok tt).

(** one call of a client's history, with what it shows *)
Definition step (c : cfg) (fuel : nat) (s : state) (o : op) : res (state * event) :=
  match o with
  | OAllocate size align ans =>
    ' (s', p, calls) <- allocate_impl c fuel s size align ans;;
    Ok (s', EAllocate size align p calls)
  | ODeallocate p =>
    ' (s', calls) <- deallocate_impl c s p;; Ok (s', EDeallocate p calls)
  | ORelease => s' <- release c fuel s;; Ok (s', ERelease)
  end.

(** a client's history of calls (simple_resource.h:214-219, 283-373), one after the other *)
Fixpoint run (c : cfg) (fuel : nat) (s : state) (ops : list op) : res (state * list event) :=
  match ops with
  | [] => Ok (s, [])
  | o :: ops' =>
    ' (s1, e) <- step c fuel s o;;
    ' (s2, es) <- run c fuel s1 ops';;
    Ok (s2, e :: es)
  end.
