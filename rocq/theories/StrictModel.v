(** The two buffer resources again, under the rule of the language for pointer arithmetic.

    MonoModel.v and SimpleModel.v compute with flat 64-bit addresses.  In C++ [p + n] is
    undefined unless it leads to an element of the array [p] points into, or to the place
    one past its end ([expr.add]).  Here the array around the buffer is given by its first
    address [lo] and its end [hi], and every pointer that the code forms by addition is
    checked.  The definitions follow MonoModel.v and SimpleModel.v line by line; the parts
    that do not compute with pointers (links, counters, merging, release) are taken from
    there. *)

Require Import ZArith List Bool.
Require Import Verif.Outcome Verif.Machine Verif.BitsModel.
Require Import Verif.SimpleSpec Verif.SimpleModel Verif.MonoModel.
Import ListNotations.
Open Scope Z_scope.
Open Scope res_scope.

(** [p + n] for a pointer to std::byte (monotonic_buffer_resource.h:75-79,
    simple_resource.h:127, 317, 344, 366, 416, 452, 460) *)
Definition padd (lo hi p n : Z) : res Z :=
  if n =? 0 then Ok p
  else if (lo <=? p + n) && (p + n <=? hi) then Ok (p + n) else UB.

(** * monotonic_buffer_resource *)

(** monotonic_buffer_resource.h:61-91 allocate_impl *)
Definition strict_mono_allocate (dbg : bool) (lo hi : Z) (s : mono) (size align : Z) (ans : Z -> Z -> Z)
  : res (mono * Z * list upcall) :=
  if size =? 0 then Ok (s, 0, [])
  else
    cassert dbg (is_power_of_2 align)
     (' (s, p) <-
        (if mdata s =? 0 then Ok (s, 0)
         else
           skip <- skip_to_align dbg (mnext s) align;;
           q <- padd lo hi (mnext s) skip;;
           e <- padd lo hi q size;;
           f <- padd lo hi (mdata s) (msize s);;
           if e <=? f
           then Ok (Mono (mdata s) (msize s) (mup s) e, q)
           else Ok (s, 0));;
      if (p =? 0) && mup s then Ok (s, ans size align, [UpAllocate size align])
      else Ok (s, p, [])).

(** one call of a client's history (monotonic_buffer_resource.h:58, 61-93) *)
Definition strict_mono_step (dbg : bool) (lo hi : Z) (s : mono) (o : op) : res (mono * event) :=
  match o with
  | OAllocate size align ans =>
    ' (s', p, calls) <- strict_mono_allocate dbg lo hi s size align ans;; Ok (s', EAllocate size align p calls)
  | ODeallocate p => let (s', calls) := mono_deallocate s p in Ok (s', EDeallocate p calls)
  | ORelease => Ok (mono_release s, ERelease)
  end.

(** a client's history of such calls (monotonic_buffer_resource.h:58, 61-93) *)
Fixpoint strict_mono_run (dbg : bool) (lo hi : Z) (s : mono) (ops : list op) : res (mono * list event) :=
  match ops with
  | [] => Ok (s, [])
  | o :: ops' =>
    ' (s1, e) <- strict_mono_step dbg lo hi s o;;
    ' (s2, es) <- strict_mono_run dbg lo hi s1 ops';;
    Ok (s2, e :: es)
  end.

(** * simple_resource *)

(** simple_resource.h:109-132 origin_and_block_count *)
Definition strict_origin_and_block_count (c : cfg) (lo hi buffer size : Z) : res (Z * Z) :=
  if negb (buffer =? 0) && negb (size =? 0) then
    skip <- skip_to_align (DBG c) buffer (BS c);;
    if skip <? size then
      let count := (size - skip) / BS c in
      if 0 <? count then p <- padd lo hi buffer skip;; Ok (p, count) else Ok (0, 0)
    else Ok (0, 0)
  else Ok (0, 0).

(** simple_resource.h:180-187, 272-281, 549-555 constructor *)
Definition strict_construct (c : cfg) (lo hi buffer size : Z) (upstream : bool) : res state :=
  ' (origin, count) <- strict_origin_and_block_count c lo hi buffer size;;
  Ok (St origin (Z.min count (MB c)) upstream (fun _ => 0) (fun _ => 0) (fun _ => false) 1 0).

(** simple_resource.h:446-455 pointer_to_block_index: data_ + kMaxResourceSize is formed in
    the second assert, in debug builds only *)
Definition strict_pointer_to_block_index (c : cfg) (lo hi : Z) (s : state) (p : Z) : res Z :=
  cassert (DBG c) (data s <=? p)
   (e <- (if DBG c then padd lo hi (data s) (wrap 64 (BS c * MB c)) else Ok 0);;
    cassert (DBG c) (p <? e) (Ok (bindex c (wrap 64 (p - data s) / BS c)))).

(** simple_resource.h:457-461 block_index_to_pointer *)
Definition strict_block_index_to_pointer (c : cfg) (lo hi : Z) (s : state) (i : Z) : res Z :=
  cassert (DBG c) (i <? bc s) (padd lo hi (data s) (wrap 64 (i * BS c))).

(** simple_resource.h:412-444 allocate_blocks *)
Definition strict_allocate_blocks (c : cfg) (lo hi : Z) (s : state) (free_region p size : Z) : res state :=
  first <- strict_pointer_to_block_index c lo hi s p;;
  q <- padd lo hi p size;;
  last <- strict_pointer_to_block_index c lo hi s q;;
  after_free <- next_index c s free_region;;
  let last_of_free := if after_free =? 0 then bindex c (wrap 64 (bc s - 1))
                      else bindex c (after_free - 1) in
  if free_region =? first then
    if negb (last =? last_of_free)
    then allocate_begin_matched c s free_region last last_of_free
    else allocate_matched c s free_region
  else
    if negb (last =? last_of_free)
    then allocate_not_matched c s free_region first last last_of_free
    else allocate_end_matched c s free_region first last.

(** simple_resource.h:307-322 the action of allocate_impl *)
Definition strict_alloc_act (c : cfg) (lo hi size align : Z) (s : state) (pointer : Z) (i : Z)
  : res (state * Z * bool) :=
  n <- block_size_in_bytes c s i;;
  bp <- strict_block_index_to_pointer c lo hi s i;;
  skip <- skip_to_align (DBG c) bp align;;
  if wrap 64 (skip + size) <=? n then
    pointer <- padd lo hi bp skip;;
    s <- strict_allocate_blocks c lo hi s i pointer size;;
    Ok (s, pointer, false)
  else
    m <- next_index c s i;;
    Ok (s, pointer, negb (m =? 0)).

(** simple_resource.h:296-326 the search in the buffer *)
Definition strict_search_buffer (c : cfg) (lo hi : Z) (fuel : nat) (s : state) (size align : Z) : res (state * Z) :=
  if data s =? 0 then Ok (s, 0)
  else
    z <- calc_ctz (DBG c) (data s);;
    a <- shl i32 1 z;;
    m <- max_alignment_inside_block (DBG c) (conv u64 a) (wrap 64 (bc s * BS c));;
    if align <=? m
    then apply_loop fuel c (alloc_pred c) (strict_alloc_act c lo hi size align) s 0 0
    else Ok (s, 0).

(** simple_resource.h:283-332 allocate_impl *)
Definition strict_allocate_impl (c : cfg) (lo hi : Z) (fuel : nat) (s : state) (size align : Z) (ans : Z -> Z -> Z)
  : res (state * Z * list upcall) :=
  if size =? 0 then Ok (s, 0, [])
  else
    cassert (DBG c) (is_power_of_2 align)
     (' (s, p) <- strict_search_buffer c lo hi fuel s size align;;
      let (p, calls) := if (p =? 0) && has_up s then (ans size align, [UpAllocate size align])
                        else (p, []) in
      al <- (if DBG c then is_aligned true p (BS c) else Ok true);;
      cassert (DBG c) al (Ok (s, p, calls))).

(** simple_resource.h:334-373 deallocate_impl.  The pointer given back is only compared.
    Comparing pointers into different arrays with >= and < has an unspecified result; here
    it compares the addresses. *)
Definition strict_deallocate_impl (c : cfg) (lo hi : Z) (s : state) (p : Z) : res (state * list upcall) :=
  if p =? 0 then Ok (s, [])
  else
    al <- is_aligned (DBG c) p (BS c);;
    abort_when (negb al)
     (inside <- (if data s <=? p
                 then e <- padd lo hi (data s) (size_ c s);; Ok (p <? e)
                 else Ok false);;
      if (inside : bool) then
        i <- strict_pointer_to_block_index c lo hi s p;;
        ' (s, _) <- deallocate_blocks c s i;;
        Ok (s, [])
      else if has_up s then Ok (s, [UpDeallocate p])
      else
        abort_when (p <? data s)
          (e <- padd lo hi (data s) (size_ c s);;
           abort_when ((e <=? p) && negb (has_up s)) (Ok (s, [])))).

(** one call of a client's history (simple_resource.h:214-219, 283-373) *)
Definition strict_step (c : cfg) (lo hi : Z) (fuel : nat) (s : state) (o : op) : res (state * event) :=
  match o with
  | OAllocate size align ans =>
    ' (s', p, calls) <- strict_allocate_impl c lo hi fuel s size align ans;;
    Ok (s', EAllocate size align p calls)
  | ODeallocate p =>
    ' (s', calls) <- strict_deallocate_impl c lo hi s p;; Ok (s', EDeallocate p calls)
  | ORelease => s' <- release c fuel s;; Ok (s', ERelease)
  end.

(** a client's history of such calls (simple_resource.h:214-219, 283-373) *)
Fixpoint strict_run (c : cfg) (lo hi : Z) (fuel : nat) (s : state) (ops : list op) : res (state * list event) :=
  match ops with
  | [] => Ok (s, [])
  | o :: ops' =>
    ' (s1, e) <- strict_step c lo hi fuel s o;;
    ' (s2, es) <- strict_run c lo hi fuel s1 ops';;
    Ok (s2, e :: es)
  end.
