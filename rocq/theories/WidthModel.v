(** memory/simple_resource.h for a platform on which std::size_t and std::uintptr_t have [w]
    bits.  SimpleModel.v is the case [w = 64] (WidthProofs.v shows it); the functions there
    that compute nothing in these types (at, in_use, set_prev, set_next, set_prev_next,
    apply) are used as they are. [int] has 32 bits. *)

Require Import ZArith List Bool.
Require Import Verif.Outcome Verif.Machine Verif.BitsModel Verif.ArithModel Verif.WordModel Verif.SimpleModel.
Require Import Verif.SimpleSpec.  (* for op, event and upcall only *)
Import ListNotations.
Open Scope Z_scope.
Open Scope res_scope.

(** ++ and -- on the std::size_t counters *)
Definition w_inc (w x : Z) : Z := wrap w (x + 1).
Definition w_dec (w x : Z) : Z := wrap w (x - 1).

(** simple_resource.h:22-49 allocate_not_matched *)
Definition w_allocate_not_matched (w : Z) (c : cfg) (s : state) (free_first first last free_last : Z) : res state :=
  cassert (DBG c) (free_first <? first) (cassert (DBG c) (first <=? last)
   (cassert (DBG c) (last <? free_last)
    (s <- set_in_use c s first;;
     let next := bindex c (last + 1) in
     _ <- next_index c s free_first;;
     s <- set_prev_next c s first free_first next;;
     n <- next_index c s free_first;;
     s <- set_prev_next c s next first n;;
     n <- next_index c s free_first;;
     s <- set_prev c s n next;;
     s <- set_next c s free_first first;;
     Ok (with_busyc (with_freec s (w_inc w (freec s))) (w_inc w (busyc s)))))).

(** simple_resource.h:51-73 allocate_begin_matched *)
Definition w_allocate_begin_matched (w : Z) (c : cfg) (s : state) (free_first last free_last : Z) : res state :=
  cassert (DBG c) (free_first <=? last) (cassert (DBG c) (last <? free_last)
   (s <- set_in_use c s free_first;;
    let next := bindex c (last + 1) in
    n <- next_index c s free_first;;
    s <- set_prev_next c s next free_first n;;
    n <- next_index c s free_first;;
    s <- set_prev c s n next;;
    s <- set_next c s free_first next;;
    Ok (with_busyc s (w_inc w (busyc s))))).

(** simple_resource.h:75-97 allocate_end_matched *)
Definition w_allocate_end_matched (w : Z) (c : cfg) (s : state) (free_first first free_last : Z) : res state :=
  cassert (DBG c) (free_first <? first) (cassert (DBG c) (first <=? free_last)
   (s <- set_in_use c s first;;
    let next := if free_last <? wrap w (bc s - 1) then bindex c (free_last + 1) else 0 in
    _ <- next_index c s free_first;;
    s <- set_prev_next c s first free_first next;;
    n <- next_index c s free_first;;
    s <- set_prev c s n first;;
    s <- set_next c s free_first first;;
    Ok (with_busyc s (w_inc w (busyc s))))).

(** simple_resource.h:99-107 allocate_matched *)
Definition w_allocate_matched (w : Z) (c : cfg) (s : state) (free_first : Z) : res state :=
  cassert (DBG c) (free_first <? bc s)
   (s <- set_in_use c s free_first;;
    Ok (with_busyc (with_freec s (w_dec w (freec s))) (w_inc w (busyc s)))).

(** simple_resource.h:109-132 origin_and_block_count *)
Definition w_origin_and_block_count (w : Z) (c : cfg) (buffer size : Z) : res (Z * Z) :=
  if negb (buffer =? 0) && negb (size =? 0) then
    skip <- w_skip_to_align w (DBG c) buffer (BS c);;
    if skip <? size then
      let count := (size - skip) / BS c in
      if 0 <? count then Ok (wrap w (buffer + skip), count) else Ok (0, 0)
    else Ok (0, 0)
  else Ok (0, 0).

(** simple_resource.h:180-187, 272-281, 549-555 constructor *)
Definition w_construct (w : Z) (c : cfg) (buffer size : Z) (upstream : bool) : res state :=
  ' (origin, count) <- w_origin_and_block_count w c buffer size;;
  Ok (St origin (Z.min count (MB c)) upstream (fun _ => 0) (fun _ => 0) (fun _ => false) 1 0).

(** simple_resource.h:241-249 block_size, 251-255 block_size_in_bytes *)
Definition w_block_size (w : Z) (c : cfg) (s : state) (i : Z) : res Z :=
  n <- next_index c s i;;
  Ok (wrap w ((if n =? 0 then bc s else n) - i)).
Definition w_block_size_in_bytes (w : Z) (c : cfg) (s : state) (i : Z) : res Z :=
  n <- w_block_size w c s i;; Ok (wrap w (n * BS c)).

(** simple_resource.h:257 size *)
Definition w_size (w : Z) (c : cfg) (s : state) : Z := wrap w (BS c * bc s).

(** simple_resource.h:446-455 pointer_to_block_index *)
Definition w_pointer_to_block_index (w : Z) (c : cfg) (s : state) (p : Z) : res Z :=
  cassert (DBG c) (data s <=? p)
   (cassert (DBG c) (p <? wrap w (data s + wrap w (BS c * MB c)))
     (Ok (bindex c (wrap w (p - data s) / BS c)))).

(** simple_resource.h:457-461 block_index_to_pointer *)
Definition w_block_index_to_pointer (w : Z) (c : cfg) (s : state) (i : Z) : res Z :=
  cassert (DBG c) (i <? bc s) (Ok (wrap w (data s + wrap w (i * BS c)))).

(** simple_resource.h:463-486 merge_if_both_not_in_use *)
Definition w_merge_if_both_not_in_use (w : Z) (c : cfg) (s : state) (l r : Z) : res (state * Z) :=
  if (l =? r) || (r =? 0) then Ok (s, l)
  else
    cassert (DBG c) (l <? r)
     (lu <- in_use c s l;;
      ru <- (if DBG c && lu then in_use c s r else Ok false);;
      cassert (DBG c) (negb lu || negb ru)
       (if lu then Ok (s, r)
        else
          ru <- in_use c s r;;
          if ru then Ok (s, l)
          else
            cassert (DBG c) (0 <? freec s)
             (n <- next_index c s r;;
              s <- set_prev c s n l;;
              n <- next_index c s r;;
              s <- set_next c s l n;;
              Ok (with_freec s (w_dec w (freec s)), l)))).

(** simple_resource.h:488-495 merge_adjacent_blocks *)
Definition w_merge_adjacent_blocks (w : Z) (c : cfg) (s : state) (i : Z) : res (state * Z) :=
  p <- prev_index c s i;;
  u <- (if DBG c then in_use c s i else Ok false);;
  cassert (DBG c) (negb u)
   (' (s, merged) <- w_merge_if_both_not_in_use w c s p i;;
    n <- next_index c s i;;
    w_merge_if_both_not_in_use w c s merged n).

(** simple_resource.h:375-390 deallocate_blocks *)
Definition w_deallocate_blocks (w : Z) (c : cfg) (s : state) (i : Z) : res (state * Z) :=
  cassert (DBG c) (i <? bc s)
   (u <- in_use c s i;;
    abort_when (negb u)
     (s <- reset_in_use c s i;;
      cassert (DBG c) (0 <? busyc s)
       (let s := with_busyc s (w_dec w (busyc s)) in
        cassert (DBG c) (freec s <? 2 ^ w - 1)
         (let s := with_freec s (w_inc w (freec s)) in
          w_merge_adjacent_blocks w c s i)))).

(** simple_resource.h:412-444 allocate_blocks *)
Definition w_allocate_blocks (w : Z) (c : cfg) (s : state) (free_region p size : Z) : res state :=
  first <- w_pointer_to_block_index w c s p;;
  last <- w_pointer_to_block_index w c s (wrap w (p + size));;
  after_free <- next_index c s free_region;;
  let last_of_free := if after_free =? 0 then bindex c (wrap w (bc s - 1))
                      else bindex c (after_free - 1) in
  if free_region =? first then
    if negb (last =? last_of_free)
    then w_allocate_begin_matched w c s free_region last last_of_free
    else w_allocate_matched w c s free_region
  else
    if negb (last =? last_of_free)
    then w_allocate_not_matched w c s free_region first last last_of_free
    else w_allocate_end_matched w c s free_region first last.

(** simple_resource.h:303-323 the lambdas of allocate_impl *)
Definition w_alloc_act (w : Z) (c : cfg) (size align : Z) (s : state) (pointer : Z) (i : Z)
  : res (state * Z * bool) :=
  n <- w_block_size_in_bytes w c s i;;
  bp <- w_block_index_to_pointer w c s i;;
  skip <- w_skip_to_align w (DBG c) bp align;;
  if wrap w (skip + size) <=? n then
    let pointer := wrap w (bp + skip) in
    s <- w_allocate_blocks w c s i pointer size;;
    Ok (s, pointer, false)
  else
    m <- next_index c s i;;
    Ok (s, pointer, negb (m =? 0)).

(** simple_resource.h:296-326: the search in the buffer.  [1 << z] is a shift of an int,
    converted to std::size_t; the intrinsics count the zeros of an address of any width
    (C11). *)
Definition w_search_buffer (w : Z) (c : cfg) (fuel : nat) (s : state) (size align : Z) : res (state * Z) :=
  if data s =? 0 then Ok (s, 0)
  else
    z <- calc_ctz (DBG c) (data s);;
    a <- shl i32 1 z;;
    m <- w_max_alignment_inside_block w (DBG c) (wrap w a) (wrap w (bc s * BS c));;
    if align <=? m
    then apply_loop fuel c (alloc_pred c) (w_alloc_act w c size align) s 0 0
    else Ok (s, 0).

(** simple_resource.h:283-332 allocate_impl *)
Definition w_allocate_impl (w : Z) (c : cfg) (fuel : nat) (s : state) (size align : Z) (ans : Z -> Z -> Z)
  : res (state * Z * list upcall) :=
  if size =? 0 then Ok (s, 0, [])
  else
    cassert (DBG c) (w_is_power_of_2 w align)
     (' (s, p) <- w_search_buffer w c fuel s size align;;
      let (p, calls) := if (p =? 0) && has_up s then (ans size align, [UpAllocate size align])
                        else (p, []) in
      al <- (if DBG c then w_is_aligned w true p (BS c) else Ok true);;
      cassert (DBG c) al (Ok (s, p, calls))).

(** simple_resource.h:334-373 deallocate_impl *)
Definition w_deallocate_impl (w : Z) (c : cfg) (s : state) (p : Z) : res (state * list upcall) :=
  if p =? 0 then Ok (s, [])
  else
    al <- w_is_aligned w (DBG c) p (BS c);;
    abort_when (negb al)
     (if (data s <=? p) && (p <? wrap w (data s + w_size w c s)) then
        i <- w_pointer_to_block_index w c s p;;
        ' (s, _) <- w_deallocate_blocks w c s i;;
        Ok (s, [])
      else if has_up s then Ok (s, [UpDeallocate p])
      else
        abort_when (p <? data s)
          (abort_when ((wrap w (data s + w_size w c s) <=? p) && negb (has_up s)) (Ok (s, [])))).

(** simple_resource.h:214-219 release *)
Definition w_release_act (w : Z) (c : cfg) (s : state) (a : unit) (i : Z) : res (state * unit * bool) :=
  ' (s, m) <- w_deallocate_blocks w c s i;;
  n <- next_index c s m;;
  Ok (s, tt, negb (n =? 0)).
Definition w_release (w : Z) (c : cfg) (fuel : nat) (s : state) : res state :=
  ' (s, _) <- apply_loop fuel c (in_use c) (w_release_act w c) s tt 0;; Ok s.

(** one call of a client's history, with what it shows *)
Definition w_step (w : Z) (c : cfg) (fuel : nat) (s : state) (o : op) : res (state * event) :=
  match o with
  | OAllocate size align ans =>
    ' (s', p, calls) <- w_allocate_impl w c fuel s size align ans;;
    Ok (s', EAllocate size align p calls)
  | ODeallocate p =>
    ' (s', calls) <- w_deallocate_impl w c s p;; Ok (s', EDeallocate p calls)
  | ORelease => s' <- w_release w c fuel s;; Ok (s', ERelease)
  end.

(** a client's history of calls (simple_resource.h:214-219, 283-373) *)
Fixpoint w_run (w : Z) (c : cfg) (fuel : nat) (s : state) (ops : list op) : res (state * list event) :=
  match ops with
  | [] => Ok (s, [])
  | o :: ops' =>
    ' (s1, e) <- w_step w c fuel s o;;
    ' (s2, es) <- w_run w c fuel s1 ops';;
    Ok (s2, e :: es)
  end.
