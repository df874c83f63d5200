(** C158: resources can be chained by their upstream pointers. *)

Require Import ZArith Lia List Bool.
Require Import Verif.Outcome Verif.BitsSpec Verif.SimpleSpec Verif.SimpleModel Verif.SimpleView Verif.SimpleProofs Verif.SimpleRefuted.
Require Import Verif.MonoModel Verif.WorldModel Verif.ChainSpec Verif.ChainModel Verif.ChainView Verif.ChainProofs Verif.LoneProofs.
Import ListNotations.
Open Scope Z_scope.

(** In a chain of any length each simple_resource has another one with blocks that are
    multiples of its own as its upstream (monotonic buffers may stand in front).  Every
    program that calls any of the resources, rightly or wrongly, sees what it would see if
    the resources knew nothing of each other, were asked in turn until one has room, and
    memory were given to the one whose blocks it lies in: the same pointers, the same
    resources in the end, and aborts, undefined behaviour and endless loops in the same
    places. *)
Theorem C158_apart_partial : forall dbg fuel ops l, Forall sane_call ops -> chained (sound dbg) l ->
  apart_run body (get_one dbg fuel) (back_one dbg fuel) (clear_one dbg fuel) holds_one (map alone l) ops =
  match chain_run dbg fuel l ops with
  | Ok (l', ps) => Ok (map alone l', ps)
  | Abort => Abort
  | UB => UB
  | Hang => Hang
  end.
Proof. exact chain_apart. Qed.
Print Assumptions C158_apart_partial.

(** An upstream with smaller blocks will not do: its memory is refused, in debug builds when
    it is handed out, in release builds when it is given back. *)
Theorem C158_blocks_refuted : forall dbg,
  let ops := [one_byte; (0%nat, ChAllocate 17 1); (0%nat, ChDeallocate 8196)] in
  chain_run dbg 9 [front 8 4096 2 true; front 4 8192 8 false] ops = Abort /\
  (exists l, apart_run body (get_one dbg 9) (back_one dbg 9) (clear_one dbg 9) holds_one
     [front 8 4096 2 false; front 4 8192 8 false] ops = Ok (l, [8192; 8196; 0])).
Proof. exact small_blocks. Qed.
Print Assumptions C158_blocks_refuted.

(** Nor will a monotonic_buffer_resource do as the upstream of a simple_resource. *)
Theorem C158_monotonic_refuted : forall dbg,
  let ops := [one_byte; (0%nat, ChAllocate 17 1); (0%nat, ChDeallocate 8193)] in
  chain_run dbg 9 [front 4 4096 4 true; BMono (mono_construct 8192 32 false)] ops = Abort /\
  (exists l, apart_run body (get_one dbg 9) (back_one dbg 9) (clear_one dbg 9) holds_one
     [front 4 4096 4 false; BMono (mono_construct 8192 32 false)] ops = Ok (l, [8192; 8193; 0])).
Proof. exact mono_behind. Qed.
Print Assumptions C158_monotonic_refuted.

(** And memory given back to a monotonic_buffer_resource does not reach the resource behind it
    that lent it. *)
Theorem C158_return_refuted : forall dbg, exists a s,
  chain_run dbg 9 [BMono (mono_construct 1024 8 true); front 4 4096 8 false] [(0%nat, ChAllocate 9 1); (0%nat, ChDeallocate 4096)] =
    Ok ([a; BSimple 8 4 s], [4096; 0]) /\ busyc s = 1.
Proof. exact mono_before. Qed.
Print Assumptions C158_return_refuted.

(** a monotonic buffer of 8 bytes, 8 blocks of 4 bytes and 8 blocks of 8 bytes; the last call gives
    something back twice *)
Example C158_instance : forall dbg,
  let l := [BMono (mono_construct 1024 8 true); front 4 4096 8 true; front 8 8192 8 false] in
  let ops := [(0%nat, ChAllocate 5 1); (0%nat, ChAllocate 9 1); (0%nat, ChAllocate 41 1); (2%nat, ChAllocate 1 1);
              (1%nat, ChDeallocate 8192); (1%nat, ChDeallocate 4096); (0%nat, ChAllocate 3 1); (1%nat, ChAllocate 27 1)] in
  chained (sound dbg) l /\ Forall sane_call (ops ++ [(1%nat, ChDeallocate 8240); (1%nat, ChDeallocate 8240)]) /\
  (exists l', chain_run dbg 9 l ops = Ok (l', [1024; 4096; 8192; 8240; 0; 0; 1029; 4096])) /\
  chain_run dbg 9 l (ops ++ [(1%nat, ChDeallocate 8240); (1%nat, ChDeallocate 8240)]) = Abort.
Proof.
  intros dbg. cbv zeta.
  split.
  { split; [exists 1024, 8; reflexivity|]. split; [exact I|].
    split; [exists 4096, 32; apply made_up|]. split; [exists 2; reflexivity|]. exists 8192, 64. apply made_wide. }
  assert (P1 : exists k, 0 <= k /\ 1 = 2 ^ k) by (exists 0; split; [lia|reflexivity]).
  split; [repeat constructor; cbn [sane_call snd]; auto; lia|].
  split; [eexists; destruct dbg; vm_compute; reflexivity|].
  destruct dbg; vm_compute; reflexivity.
Qed.
