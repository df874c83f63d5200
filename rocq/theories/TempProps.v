(** C165: memory used for a while leaves no trace. *)

Require Import ZArith Lia List Bool Permutation.
Require Import Verif.Outcome Verif.Machine Verif.BitsSpec.
Require Import Verif.SimpleModel Verif.SimpleSpec Verif.SimpleView Verif.SimpleProofs Verif.SimpleMainProofs Verif.SimpleRefuted Verif.SimpleExamples.
Require Import Verif.MonoModel Verif.MonoSpec Verif.RoomProofs Verif.TempProofs.
Import ListNotations.
Open Scope Z_scope.
Open Scope res_scope.

(** simple_resource, debug and release builds, clients for whose requests the search is right (C53):
    calls [mid], at the end of which the same allocations are live as before them, can be left out.
    All results of the calls that follow are the same. *)
Theorem C165_phase_partial : forall c buffer size_b up s, made c buffer size_b up s ->
  forall fuel, (Z.to_nat (bc s) < fuel)%nat ->
  forall ops mid ops2 s0 s1 es em, careful_client (data s) (BS c) (bc s) up (ops ++ mid) ->
  careful_client (data s) (BS c) (bc s) up (ops ++ ops2) ->
  run c fuel s ops = Ok (s0, es) -> run c fuel s (ops ++ mid) = Ok (s1, es ++ em) -> Permutation (live (es ++ em)) (live es) ->
  exists t1 t2 e2, run c fuel s (ops ++ ops2) = Ok (t1, es ++ e2) /\ run c fuel s (ops ++ mid ++ ops2) = Ok (t2, es ++ em ++ e2).
Proof. exact careful_trace. Qed.
Print Assumptions C165_phase_partial.

(** In particular a request served from the buffer, at [p], and given back at once. *)
Theorem C165_temporary_partial : forall c buffer size_b up s, made c buffer size_b up s ->
  forall fuel, (Z.to_nat (bc s) < fuel)%nat ->
  forall ops sz al ans p ops2 s0 s1 es, p <> 0 ->
  careful_client (data s) (BS c) (bc s) up (ops ++ [OAllocate sz al ans]) ->
  careful_client (data s) (BS c) (bc s) up (ops ++ ops2) ->
  run c fuel s ops = Ok (s0, es) ->
  run c fuel s (ops ++ [OAllocate sz al ans]) = Ok (s1, es ++ [EAllocate sz al p []]) ->
  exists t1 t2 e2, run c fuel s (ops ++ ops2) = Ok (t1, es ++ e2) /\
    run c fuel s (ops ++ OAllocate sz al ans :: ODeallocate p :: ops2) = Ok (t2, es ++ EAllocate sz al p [] :: EDeallocate p [] :: e2).
Proof. exact careful_temporary. Qed.
Print Assumptions C165_temporary_partial.

(** Not for every request: 5 blocks of 4 bytes, of which the last three are lent out.  A request for
    17 bytes is refused; after one byte has been asked for, granted and given back, it never returns. *)
Theorem C165_temporary_refuted : forall dbg, exists s1 s2, 
  run (conf 5 dbg) 60 (fresh 4096 5 false) ([get 5; get 9; ODeallocate 4096] ++ [get 17]) =
    Ok (s1, [EAllocate 5 1 4096 []; EAllocate 9 1 4104 []; EDeallocate 4096 []; EAllocate 17 1 0 []]) /\
  run (conf 5 dbg) 60 (fresh 4096 5 false) ([get 5; get 9; ODeallocate 4096] ++ [get 1; ODeallocate 4096]) =
    Ok (s2, [EAllocate 5 1 4096 []; EAllocate 9 1 4104 []; EDeallocate 4096 []; EAllocate 1 1 4096 []; EDeallocate 4096 []]) /\
  never_returns (fun fuel => allocate_impl (conf 5 dbg) fuel s2 17 1 (fun _ _ => 0)).
Proof. exact temp_hangs. Qed.
Print Assumptions C165_temporary_refuted.

(** Nor, as documented, for monotonic buffers, which take nothing back. *)
Theorem C165_monotonic_refuted : forall dbg, exists s1 s2,
  mono_run dbg (mono_construct 4096 64 false) [get 64] = Ok (s1, [EAllocate 64 1 4096 []]) /\
  mono_run dbg (mono_construct 4096 64 false) [get 3; ODeallocate 4096; get 64] =
    Ok (s2, [EAllocate 3 1 4096 []; EDeallocate 4096 []; EAllocate 64 1 0 []]).
Proof. exact mono_temp. Qed.
Print Assumptions C165_monotonic_refuted.

(** two blocks are lent out, two more for a while; the resources of the refutations are ordinary *)
Example C165_instance : forall dbg,
  made (conf 8 dbg) 4096 32 false (fresh 4096 8 false) /\ careful_client 4096 4 8 false ([get 5] ++ [get 7]) /\
  careful_client 4096 4 8 false ([get 5] ++ [get 7; ODeallocate 4104]) /\
  careful_client 4096 4 8 false ([get 5] ++ [get 7; ODeallocate 4096; get 6]) /\
  (exists s0 s1 s2 s3, run (conf 8 dbg) 60 (fresh 4096 8 false) [get 5] = Ok (s0, [EAllocate 5 1 4096 []]) /\
     run (conf 8 dbg) 60 (fresh 4096 8 false) ([get 5] ++ [get 7]) = Ok (s1, [EAllocate 5 1 4096 []] ++ [EAllocate 7 1 4104 []]) /\
     run (conf 8 dbg) 60 (fresh 4096 8 false) ([get 5] ++ [get 7; ODeallocate 4104]) =
       Ok (s2, [EAllocate 5 1 4096 []] ++ [EAllocate 7 1 4104 []; EDeallocate 4104 []]) /\
     Permutation (live ([EAllocate 5 1 4096 []] ++ [EAllocate 7 1 4104 []; EDeallocate 4104 []])) (live [EAllocate 5 1 4096 []]) /\
     run (conf 8 dbg) 60 (fresh 4096 8 false) ([get 5] ++ [get 7; ODeallocate 4104] ++ [get 7; ODeallocate 4096; get 6]) =
       Ok (s3, [EAllocate 5 1 4096 []] ++ [EAllocate 7 1 4104 []; EDeallocate 4104 []] ++
               [EAllocate 7 1 4104 []; EDeallocate 4096 []; EAllocate 6 1 4096 []])) /\
  made (conf 5 dbg) 4096 20 false (fresh 4096 5 false) /\ mono_made 4096 64.
Proof.
  intros dbg. assert (M : made (conf 8 dbg) 4096 32 false (fresh 4096 8 false)) by exact (made_8 dbg).
  assert (V : careful_client 4096 4 8 false ([get 5] ++ [get 7; ODeallocate 4096; get 6])).
  { apply (pool_is_careful (conf 8 dbg) 4096 32 false _ 2 pool_ops M); [lia|cbn; lia|exact pool_example]. }
  assert (V2 : careful_client 4096 4 8 false ([get 5] ++ [get 7])).
  { apply (valid_app _ _ _ _ _ _ _ ([get 5] ++ [get 7]) [ODeallocate 4096; get 6]). exact V. }
  split; [exact M|]. split; [exact V2|]. split.
  { assert (R : exists s1, run (conf 8 dbg) 60 (fresh 4096 8 false) ([get 5] ++ [get 7]) = Ok (s1, [EAllocate 5 1 4096 []; EAllocate 7 1 4104 []]))
      by (eexists; destruct dbg; vm_compute; reflexivity).
    destruct R as [s1 R]. apply (careful_give _ _ _ _ _ M 60%nat ltac:(cbn; lia) _ _ _ 4104 V2 R). cbn. auto. }
  split; [exact V|]. split.
  { do 4 eexists. split; [destruct dbg; vm_compute; reflexivity|]. split; [destruct dbg; vm_compute; reflexivity|].
    split; [destruct dbg; vm_compute; reflexivity|]. split; [reflexivity|destruct dbg; vm_compute; reflexivity]. }
  split; [apply (LargerProofs.made_n 5 5); lia|unfold mono_made; lia].
Qed.
