(** The functions of common.h and memory/ that compute with std::size_t and
    std::uintptr_t, for a platform on which both have [w] bits.  BitsModel.v,
    MonoModel.v and AllocModel.v are the case [w = 64] (WordProofs.v shows it); [int]
    has 32 bits everywhere. *)

Require Import ZArith List Bool.
Require Import Verif.Outcome Verif.Machine Verif.TypeListModel Verif.BitsModel Verif.MonoModel.
Require Import Verif.SimpleSpec.  (* for op, event and upcall only *)
Import ListNotations.
Open Scope Z_scope.
Open Scope res_scope.

(** common.h:378-381 is_power_of_2 *)
Definition w_is_power_of_2 (w v : Z) : bool :=
  negb (v =? 0) && (Z.land v (wrap w (v - 1)) =? 0).

(** common.h:383-388 next_multiple_of(aMultiple, aValue) *)
Definition w_next_multiple_of (w : Z) (dbg : bool) (m v : Z) : res Z :=
  cassert dbg (w_is_power_of_2 w m)
    (Ok (Z.land (wrap w (wrap w (v + m) - 1)) (wrap w (- m)))).

(** common.h:397-403 skip_to_align *)
Definition w_skip_to_align (w : Z) (dbg : bool) (ptr align : Z) : res Z :=
  cassert dbg (w_is_power_of_2 w align)
    (n <- w_next_multiple_of w dbg align ptr;; Ok (wrap w (n - ptr))).

(** common.h:432-436 is_aligned *)
Definition w_is_aligned (w : Z) (dbg : bool) (ptr align : Z) : res bool :=
  cassert dbg (w_is_power_of_2 w align)
    (Ok (Z.land ptr (wrap w (align - 1)) =? 0)).

(** common.h:413-430 max_alignment_inside_block: [1 << msb] is a shift of an int,
    converted to std::size_t; bits_count is BitsModel.bits_count, whose argument has at
    most 64 bits *)
Definition w_max_alignment_inside_block (w : Z) (dbg : bool) (align size : Z) : res Z :=
  cassert dbg (w_is_power_of_2 w align)
   (cassert dbg (0 <? size)
     (let value := wrap w (wrap w (align + size) - 1) in
      b <- bits_count value;;
      let msb := wrap w (b - 1) in
      s <- shl i32 1 msb;;
      Ok (wrap w s))).

(** memory/memory.h:113-119 get_alignment: std::size_t{1} << ctz(address) *)
Definition w_get_alignment (w : Z) (dbg : bool) (sz : nat) (supported : list ty) (t : ty) (ptr : Z)
  : option (res Z) :=
  match ctz dbg sz supported t ptr with
  | Some r => Some (cassert dbg (negb (ptr =? 0)) (n <- r;; shl (Ity w false) 1 n))
  | None => None
  end.

(** memory/monotonic_buffer_resource.h:61-91 allocate_impl; the data members, the
    constructor (18-28) and release (58) compute nothing and are those of MonoModel.v *)
Definition w_mono_allocate (w : Z) (dbg : bool) (s : mono) (size align : Z) (ans : Z -> Z -> Z)
  : res (mono * Z * list upcall) :=
  if size =? 0 then Ok (s, 0, [])
  else
    cassert dbg (w_is_power_of_2 w align)
     (' (s, p) <-
        (if mdata s =? 0 then Ok (s, 0)
         else
           skip <- w_skip_to_align w dbg (mnext s) align;;
           let q := wrap w (mnext s + skip) in
           if wrap w (q + size) <=? wrap w (mdata s + msize s)
           then Ok (Mono (mdata s) (msize s) (mup s) (wrap w (q + size)), q)
           else Ok (s, 0));;
      if (p =? 0) && mup s then Ok (s, ans size align, [UpAllocate size align])
      else Ok (s, p, [])).

(** one call of a client's history (deallocate_impl, 93, does nothing) *)
Definition w_mono_step (w : Z) (dbg : bool) (s : mono) (o : op) : res (mono * event) :=
  match o with
  | OAllocate size align ans =>
    ' (s', p, calls) <- w_mono_allocate w dbg s size align ans;; Ok (s', EAllocate size align p calls)
  | ODeallocate p => let (s', calls) := mono_deallocate s p in Ok (s', EDeallocate p calls)
  | ORelease => Ok (mono_release s, ERelease)
  end.

(** a client's history of calls (monotonic_buffer_resource.h:58, 61-93) *)
Fixpoint w_mono_run (w : Z) (dbg : bool) (s : mono) (ops : list op) : res (mono * list event) :=
  match ops with
  | [] => Ok (s, [])
  | o :: ops' =>
    ' (s1, e) <- w_mono_step w dbg s o;;
    ' (s2, es) <- w_mono_run w dbg s1 ops';;
    Ok (s2, e :: es)
  end.

(** memory/allocator.h:29-33 allocate(aCount) of a monotonic buffer: count * sizeof(T)
    bytes, computed in std::size_t *)
Definition w_allocate_count (w : Z) (dbg : bool) (s : mono) (count size align : Z) (ans : Z -> Z -> Z)
  : res (mono * Z * list upcall) :=
  w_mono_allocate w dbg s (wrap w (count * size)) align ans.
