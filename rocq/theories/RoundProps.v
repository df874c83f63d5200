(** C157: requests that need the same number of blocks are served alike. *)

Require Import ZArith Lia List Bool.
Require Import Verif.Outcome Verif.BitsSpec Verif.SimpleSpec Verif.SimpleModel Verif.SimpleView Verif.SimpleProofs Verif.SimpleRefuted.
Require Import Verif.RoundSpec Verif.RoundProofs Verif.LoneProofs.
Import ListNotations.
Open Scope Z_scope.

(** Two histories, any calls, good or bad, that differ only in sizes reaching into the same
    block without filling it and in alignments up to the block size: both get the same
    pointers, ask the upstream at the same calls, leave the same books, and abort, run into
    undefined behaviour or loop alike. *)
Theorem C157_same_blocks_partial : forall c b n up s fuel ops ops', made c b n up s -> Forall sane_op ops -> Forall sane_op ops' ->
  Forall2 (same_request (BS c)) ops ops' -> seen_of (run c fuel s ops) = seen_of (run c fuel s ops').
Proof. exact same_blocks_alike. Qed.
Print Assumptions C157_same_blocks_partial.

(** A size that fills its last block is not served like those that need as many blocks: with
    blocks of 4 bytes, 3 bytes and 4 bytes need one block, but 4 bytes are given two. *)
Theorem C157_full_block_refuted : forall dbg,
  (exists s', run (conf 8 dbg) 9 (fresh 4096 8 false) [get 3; get 3] = Ok (s', [EAllocate 3 1 4096 []; EAllocate 3 1 4100 []])) /\
  (exists s', run (conf 8 dbg) 9 (fresh 4096 8 false) [get 4; get 4] = Ok (s', [EAllocate 4 1 4096 []; EAllocate 4 1 4104 []])).
Proof. exact full_blocks. Qed.
Print Assumptions C157_full_block_refuted.

(** This is exact: in every resource, two sizes that need the same number k + 1 of blocks, fewer than
    there are, are served alike as first request, whatever follows, if and only if neither
    fills its last block. *)
Theorem C157_exact_partial : forall c b n up s x y k a, made c b n up s -> 0 <= k -> k + 1 < bc s ->
  k * BS c < x <= k * BS c + BS c -> k * BS c < y <= k * BS c + BS c -> x <> y ->
  ((forall fuel rest, Forall sane_op rest ->
      seen_of (run c fuel s (OAllocate x 1 (fun _ _ => a) :: rest)) = seen_of (run c fuel s (OAllocate y 1 (fun _ _ => a) :: rest))) <->
   x < k * BS c + BS c /\ y < k * BS c + BS c).
Proof. exact round_exact. Qed.
Print Assumptions C157_exact_partial.

(** 3 and 4 bytes, 6 and 7 bytes in blocks of 4 *)
Example C157_exact_instance : forall dbg, made (conf 8 dbg) 4096 32 true (fresh 4096 8 true) /\
  (0 * 4 < 3 < 0 * 4 + 4 /\ 0 * 4 < 4 <= 0 * 4 + 4 /\ 0 + 1 < 8) /\ (1 * 4 < 6 < 1 * 4 + 4 /\ 1 * 4 < 7 < 1 * 4 + 4 /\ 1 + 1 < 8).
Proof. intros dbg. split; [apply made_up|lia]. Qed.

(** blocks of 4 bytes: 5 and 7 bytes, alignments 1 and 4; 41 and 43 bytes go upstream *)
Example C157_instance : forall dbg,
  let ops := [get 5; OAllocate 41 1 (fun _ _ => 9008); ODeallocate 4096; get 9; OAllocate 1 16 (fun _ _ => 0)] in
  let ops' := [OAllocate 7 4 (fun _ _ => 0); OAllocate 43 2 (fun _ _ => 9008); ODeallocate 4096; get 11; OAllocate 2 16 (fun _ _ => 0)] in
  made (conf 8 dbg) 4096 32 true (fresh 4096 8 true) /\ Forall sane_op ops /\ Forall sane_op ops' /\
  Forall2 (same_request 4) ops ops' /\
  (exists s, run (conf 8 dbg) 9 (fresh 4096 8 true) ops =
     Ok (s, [EAllocate 5 1 4096 []; EAllocate 41 1 9008 [UpAllocate 41 1]; EDeallocate 4096 []; EAllocate 9 1 4096 []; EAllocate 1 16 4112 []])) /\
  (exists s, run (conf 8 dbg) 9 (fresh 4096 8 true) ops' =
     Ok (s, [EAllocate 7 4 4096 []; EAllocate 43 2 9008 [UpAllocate 43 2]; EDeallocate 4096 []; EAllocate 11 1 4096 []; EAllocate 2 16 4112 []])).
Proof.
  intros dbg. cbv zeta.
  assert (P16 : pow2 16) by (exists 4; split; [lia|reflexivity]). assert (P1 : pow2 1) by exact pow2_1.
  assert (P4 : pow2 4) by exact pow2_4. assert (P2 : pow2 2) by (exists 1; split; [lia|reflexivity]).
  split; [apply made_up|]. split; [repeat constructor; cbn [sane_op get]; auto; lia|]. split; [repeat constructor; cbn [sane_op get]; auto; lia|].
  split.
  { unfold get. constructor; [|constructor; [|constructor; [|constructor; [|constructor; [|constructor]]]]]; cbn [same_request].
    - split; [right; exists 1; lia|]. split; [right; lia|reflexivity].
    - split; [right; exists 10; lia|]. split; [right; lia|reflexivity].
    - reflexivity.
    - split; [right; exists 2; lia|]. split; [left; reflexivity|reflexivity].
    - split; [right; exists 0; lia|]. split; [left; reflexivity|reflexivity]. }
  split; eexists; destruct dbg; vm_compute; reflexivity.
Qed.
