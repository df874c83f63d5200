(** Model of memory/monotonic_buffer_resource.h, function by function.

    Pointers are flat 64-bit addresses (0 is the null pointer) and pointer
    arithmetic wraps, as in SimpleModel.v.  The contents of the buffer are never
    touched by the resource and are not modelled. *)

Require Import ZArith List Bool.
Require Import Verif.Outcome Verif.Machine Verif.BitsModel.
Require Import Verif.SimpleSpec.  (* for op, event and upcall only *)
Import ListNotations.
Open Scope Z_scope.
Open Scope res_scope.

(** monotonic_buffer_resource.h:95-98 data members; upstream_ is null or not *)
Record mono := Mono { mdata : Z; msize : Z; mup : bool; mnext : Z }.

(** monotonic_buffer_resource.h:18-28 constructor (the others, 30-47, call it) *)
Definition mono_construct (buffer size : Z) (upstream : bool) : mono :=
  let d := if size =? 0 then 0 else buffer in
  let n := if buffer =? 0 then 0 else size in
  Mono d n upstream d.

(** monotonic_buffer_resource.h:58 release *)
Definition mono_release (s : mono) : mono := Mono (mdata s) (msize s) (mup s) (mdata s).

(** monotonic_buffer_resource.h:61-91 allocate_impl; [dbg]: assert is active;
    [ans size align] is the pointer the upstream returns if it is asked *)
Definition mono_allocate (dbg : bool) (s : mono) (size align : Z) (ans : Z -> Z -> Z)
  : res (mono * Z * list upcall) :=
  if size =? 0 then Ok (s, 0, [])
  else
    cassert dbg (is_power_of_2 align)
     (' (s, p) <-
        (if mdata s =? 0 then Ok (s, 0)
         else
           skip <- skip_to_align dbg (mnext s) align;;
           let q := wrap 64 (mnext s + skip) in
           if wrap 64 (q + size) <=? wrap 64 (mdata s + msize s)
           then Ok (Mono (mdata s) (msize s) (mup s) (wrap 64 (q + size)), q)
           else Ok (s, 0));;
      if (p =? 0) && mup s then Ok (s, ans size align, [UpAllocate size align])
      else Ok (s, p, [])).

(** monotonic_buffer_resource.h:93 deallocate_impl *)
Definition mono_deallocate (s : mono) (p : Z) : mono * list upcall := (s, []).

(** one call of a client's history, with what it shows *)
Definition mono_step (dbg : bool) (s : mono) (o : op) : res (mono * event) :=
  match o with
  | OAllocate size align ans =>
    ' (s', p, calls) <- mono_allocate dbg s size align ans;; Ok (s', EAllocate size align p calls)
  | ODeallocate p => let (s', calls) := mono_deallocate s p in Ok (s', EDeallocate p calls)
  | ORelease => Ok (mono_release s, ERelease)
  end.

(** a client's history of calls (monotonic_buffer_resource.h:58, 61-93), one after the other *)
Fixpoint mono_run (dbg : bool) (s : mono) (ops : list op) : res (mono * list event) :=
  match ops with
  | [] => Ok (s, [])
  | o :: ops' =>
    ' (s1, e) <- mono_step dbg s o;;
    ' (s2, es) <- mono_run dbg s1 ops';;
    Ok (s2, e :: es)
  end.
