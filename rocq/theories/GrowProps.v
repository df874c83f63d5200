(** Property C146: a container that moves to new memory whenever its capacity changes can live
    in a simple_resource that has room for both memories. *)

Require Import ZArith Lia List Bool.
Require Import Verif.Outcome Verif.Machine Verif.BitsSpec.
Require Import Verif.SimpleModel Verif.SimpleSpec Verif.SimpleView Verif.SimpleRefuted Verif.SimpleExamples.
Require Import Verif.GrowSpec Verif.GrowProofs.
Import ListNotations.
Open Scope Z_scope.
Open Scope res_scope.

(** C146: however often the container moves, the two memories it holds at a time lie side by
    side, as long as every second memory takes fewer bytes than the blocks of the one before last
    (what is in between may be as large as there is room for).  So an array whose capacity only
    shrinks, or stays within the same number of blocks, is served for ever. *)
Theorem C146_moves_partial : forall c buffer size up s, made c buffer size up s ->
  forall fuel, (Z.to_nat (bc s) < fuel)%nat -> forall align, pow2 align -> align <= BS c ->
  forall ans n sizes, 0 < n < bc s * BS c -> fit (BS c) (bc s) (blocks_for (BS c) n) sizes ->
    exists s', run c fuel s (OAllocate n align ans :: moves (BS c) (data s) align ans (blocks_for (BS c) n) sizes) =
      Ok (s', EAllocate n align (data s) [] :: moved (BS c) (data s) align (blocks_for (BS c) n) sizes).
Proof. exact container_right. Qed.
Print Assumptions C146_moves_partial.

(** Not for an array that grows, and not just here and there: whatever the block size and the
    buffer, if the first memory takes two blocks or more and the third more bytes than they
    have, the third is laid over the second, from which the elements are still to be moved. *)
Theorem C146_third_refuted : forall c buffer size up s, made c buffer size up s ->
  forall fuel, (Z.to_nat (bc s) < fuel)%nat -> forall align, pow2 align -> align <= BS c ->
  forall ans x y n, BS c <= x -> 0 < y -> blocks_for (BS c) x + blocks_for (BS c) y <= bc s ->
    blocks_for (BS c) x * BS c < n -> BS c + n < bc s * BS c ->
    exists s', run c fuel s [OAllocate x align ans; OAllocate y align ans; ODeallocate (data s); OAllocate n align ans] =
      Ok (s', [EAllocate x align (data s) []; EAllocate y align (data s + blocks_for (BS c) x * BS c) [];
               EDeallocate (data s) []; EAllocate n align (data s + BS c) []]) /\
      share (data s + BS c) n (data s + blocks_for (BS c) x * BS c) y.
Proof. exact third_astray. Qed.
Print Assumptions C146_third_refuted.

(** That is exactly what goes wrong, at any time: for a container that never takes less than a
    block in these places, the next memory overlaps the one to be moved from if and only if it
    takes more than the blocks of the one before (a size of exactly these blocks is C55). *)
Theorem C146_next_exact_partial : forall c buffer size up s, made c buffer size up s ->
  forall fuel, (Z.to_nat (bc s) < fuel)%nat -> forall align, pow2 align -> align <= BS c ->
  forall ans x sizes y n, BS c <= x < bc s * BS c -> fit (BS c) (bc s) (blocks_for (BS c) x) sizes ->
    Forall (fun mn => BS c <= snd mn) sizes ->
    let k := held (BS c) (blocks_for (BS c) x) sizes in
    0 < y -> k + blocks_for (BS c) y <= bc s -> 0 < n -> n <> k * BS c -> BS c + n < bc s * BS c ->
    exists s' q, run c fuel s (OAllocate x align ans :: moves (BS c) (data s) align ans (blocks_for (BS c) x) sizes ++
          [OAllocate y align ans; ODeallocate (data s); OAllocate n align ans]) =
      Ok (s', EAllocate x align (data s) [] :: moved (BS c) (data s) align (blocks_for (BS c) x) sizes ++
          [EAllocate y align (data s + k * BS c) []; EDeallocate (data s) []; EAllocate n align q []]) /\
      (share q n (data s + k * BS c) y <-> k * BS c < n).
Proof. exact next_exact. Qed.
Print Assumptions C146_next_exact_partial.

(** if the first takes one block, the third is served as it should be, and the call for the
    fourth never returns if it is larger than the first two together *)
Theorem C146_fourth_refuted : forall c buffer size up s, made c buffer size up s ->
  forall fuel, (Z.to_nat (bc s) < fuel)%nat -> forall align, pow2 align -> align <= BS c ->
  forall ans x y z n, 0 < x < BS c -> 0 < y -> BS c < z ->
    1 + blocks_for (BS c) y + blocks_for (BS c) z <= bc s -> (1 + blocks_for (BS c) y) * BS c < n -> n < bc s * BS c ->
    exists s', run c fuel s [OAllocate x align ans; OAllocate y align ans; ODeallocate (data s); OAllocate z align ans;
                             ODeallocate (data s + BS c)] =
      Ok (s', [EAllocate x align (data s) []; EAllocate y align (data s + BS c) []; EDeallocate (data s) [];
               EAllocate z align (data s + (1 + blocks_for (BS c) y) * BS c) []; EDeallocate (data s + BS c) []]) /\
      never_returns (fun fuel' => step c fuel' s' (OAllocate n align ans)).
Proof. exact fourth_hangs. Qed.
Print Assumptions C146_fourth_refuted.

(** so no array that doubles from half a block or more gets beyond its third doubling, however
    large the buffer is *)
Theorem C146_doubling_refuted : forall c buffer size up s fuel align ans x, made c buffer size up s -> (Z.to_nat (bc s) < fuel)%nat ->
  pow2 align -> align <= BS c ->
  (BS c <= x -> BS c + 4 * x < bc s * BS c ->
    exists s' es p q, run c fuel s [OAllocate x align ans; OAllocate (2 * x) align ans; ODeallocate (data s); OAllocate (4 * x) align ans] =
      Ok (s', EAllocate x align (data s) [] :: EAllocate (2 * x) align p [] :: EDeallocate (data s) [] :: EAllocate (4 * x) align q [] :: es) /\
      share p (2 * x) q (4 * x)) /\
  (x < BS c <= 2 * x -> 3 * BS c + 4 * x < bc s * BS c -> 8 * x < bc s * BS c ->
    exists s' es, run c fuel s [OAllocate x align ans; OAllocate (2 * x) align ans; ODeallocate (data s); OAllocate (4 * x) align ans;
        ODeallocate (data s + BS c)] = Ok (s', es) /\
      never_returns (fun fuel' => step c fuel' s' (OAllocate (8 * x) align ans))).
Proof. exact doubling_fails. Qed.
Print Assumptions C146_doubling_refuted.

(** a container in eight blocks of four bytes that the first theorem speaks of; one whose third
    memory, 13 bytes at 4100, covers its second, 9 bytes at 4104; and one whose fourth never comes *)
Example C146_instance :
  made (conf 16 false) 4096 32 false (fresh 4096 8 false) /\
  fit 4 8 (blocks_for 4 11) [(19, 9); (3, 7); (23, 1)] /\
  fit 4 8 (blocks_for 4 11) [(19, 9); (3, 7)] /\ held 4 (blocks_for 4 11) [(19, 9); (3, 7)] = 2 /\
  (exists s', run (conf 16 false) 50 (fresh 4096 8 false)
     (get 11 :: moves 4 4096 1 (fun _ _ => 0) (blocks_for 4 11) [(19, 9); (3, 7); (23, 1)]) =
     Ok (s', [EAllocate 11 1 4096 []; EAllocate 19 1 4108 []; EDeallocate 4096 []; EAllocate 9 1 4096 []; EDeallocate 4108 [];
              EAllocate 3 1 4108 []; EDeallocate 4096 []; EAllocate 7 1 4096 []; EDeallocate 4108 [];
              EAllocate 23 1 4104 []; EDeallocate 4096 []; EAllocate 1 1 4096 []; EDeallocate 4104 []])) /\
  (exists s', run (conf 16 false) 50 (fresh 4096 8 false) [get 5; get 9; ODeallocate 4096; get 13] =
     Ok (s', [EAllocate 5 1 4096 []; EAllocate 9 1 4104 []; EDeallocate 4096 []; EAllocate 13 1 4100 []])) /\
  run (conf 16 false) 500 (fresh 4096 8 false) [get 2; get 4; ODeallocate 4096; get 8; ODeallocate 4100; get 16] = Hang.
Proof.
  split; [exact made_16|]. split; [cbn [fit]; unfold blocks_for; repeat split; vm_compute; auto; discriminate|].
  split; [cbn [fit]; unfold blocks_for; repeat split; vm_compute; auto; discriminate|]. split; [reflexivity|].
  split; [eexists; vm_compute; reflexivity|]. split; [eexists; vm_compute; reflexivity|]. vm_compute. reflexivity.
Qed.
