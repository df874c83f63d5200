(** How much of a buffer is in use, as the client can tell from the calls.  Nothing here refers to
    the model. *)

Require Import ZArith List Bool.
Require Import Verif.SimpleSpec.
Import ListNotations.
Open Scope Z_scope.

(** the blocks a request for [size] bytes is given (C55), and those of all live allocations *)
Definition given (b size : Z) : Z := size / b + 1.
Definition taken (b : Z) (l : list alloc) : Z := fold_right (fun a t => given b (snd a) + t) 0 l.

(** the call was answered from the buffer *)
Definition served (e : event) : Prop :=
  match e with EAllocate size align p [] => p <> 0 | _ => False end.

(** the bytes handed out since the last release, and the same with the most that padding can add *)
Definition bytes (l : list alloc) : Z := fold_right (fun a t => snd a + t) 0 l.
Definition padded_after (w : Z) (e : event) : Z :=
  match e with
  | EAllocate size align p [] => if p =? 0 then w else w + (size + align - 1)
  | ERelease => 0
  | _ => w
  end.
Definition padded (es : list event) : Z := fold_left padded_after es 0.
