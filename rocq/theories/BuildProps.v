(** Properties C113 and C144: debug builds only add aborts, and which. *)

Require Import ZArith List Bool Lia.
Require Import Verif.Outcome Verif.Machine Verif.BuildSpec.
Require Import Verif.BitsModel Verif.ArithModel Verif.MemModel.
Require Import Verif.SimpleSpec Verif.MonoModel Verif.SimpleModel Verif.WorldSpec Verif.WorldModel Verif.BuildProofs.
Require Import Verif.BitsSpec Verif.SimpleView Verif.BuildKeepSpec Verif.BuildKeepProofs Verif.SimpleRefuted.
Import ListNotations.
Open Scope Z_scope.

(** C113: every program that calls and assigns resources, in any state *)
Theorem C113_programs : forall fuel ops W, agrees (world_run true fuel W ops) (world_run false fuel W ops).
Proof. exact b_program. Qed.
Print Assumptions C113_programs.

(** making a simple_resource *)
Theorem C113_construction : forall m b buffer size up,
  agrees (construct (Cfg m b true) buffer size up) (construct (Cfg m b false) buffer size up).
Proof. exact s_construct. Qed.
Print Assumptions C113_construction.

(** the functions on numbers and addresses that contain checks *)
Theorem C113_numbers : forall fuel t u v n d a p,
  agrees (next_multiple_of true a v) (next_multiple_of false a v) /\
  agrees (skip_to_align true p a) (skip_to_align false p a) /\
  agrees (is_aligned true p a) (is_aligned false p a) /\
  agrees (max_alignment_inside_block true a n) (max_alignment_inside_block false a n) /\
  agrees (crafted_clz true fuel t v) (crafted_clz false fuel t v) /\
  agrees (crafted_ctz true fuel t v) (crafted_ctz false fuel t v) /\
  agrees (shift_right true t v n) (shift_right false t v n) /\
  agrees (shift_left true t v n) (shift_left false t v n) /\
  agrees (div_constant true t u n d) (div_constant false t u n d) /\
  agrees (div_runtime true t u n d) (div_runtime false t u n d).
Proof.
  intros. exact (conj (b_next_multiple a v) (conj (b_skip p a) (conj (b_aligned p a) (conj (b_max a n)
    (conj (b_crafted_clz fuel t v) (conj (b_crafted_ctz fuel t v) (conj (b_shift_right t v n) (conj (b_shift_left t v n)
    (conj (b_div_constant t u n d) (b_div_runtime t u n d)))))))))).
Qed.
Print Assumptions C113_numbers.

(** clz, ctz and get_alignment with every list of supported types *)
Theorem C113_zeros : forall sz supported t v,
  compiles_alike (clz true sz supported t v) (clz false sz supported t v) /\
  compiles_alike (ctz true sz supported t v) (ctz false sz supported t v) /\
  compiles_alike (get_alignment true sz supported t v) (get_alignment false sz supported t v).
Proof. intros. exact (conj (b_clz sz supported t v) (conj (b_ctz sz supported t v) (b_get_alignment sz supported t v))). Qed.
Print Assumptions C113_zeros.

(** memcpy, make_array and is_equal *)
Theorem C113_memory : forall to from m dst src count,
  compiles_alike (memcpy_constant true to from m dst src count) (memcpy_constant false to from m dst src count) /\
  agrees (memcpy_runtime true m dst src count) (memcpy_runtime false m dst src count) /\
  forall T U (cast : T -> U) (eqb : T -> T -> bool) n l r,
    agrees (make_array_sv T cast true n l) (make_array_sv T cast false n l) /\
    agrees (MemModel.is_equal T eqb true l r n) (MemModel.is_equal T eqb false l r n).
Proof.
  intros. exact (conj (b_memcpy_constant to from m dst src count) (conj (b_memcpy_runtime m dst src count)
    (fun T U cast eqb n l r => conj (b_make_array T U cast n l) (b_is_equal T eqb l r n)))).
Qed.
Print Assumptions C113_memory.

(** a program that both builds run to the end, one that the debug build stops (the
    buffer of 32 bytes is filled to the last one) and the release build does not, and
    one that neither build ends *)
Example C113_instance :
  let W : world := fun x => match x with
    | 0%nat => Some (made_of (BSimple 32 4 (St 4096 8 false (fun _ => 0) (fun _ => 0) (fun _ => false) 1 0)))
    | 1%nat => Some (made_of (BMono (mono_construct 8192 64 false)))
    | _ => None
    end in
  let get n := OAllocate n 1 (fun _ _ => 0) in
  let ok := [WCall 0 (get 5); WCall 1 (get 5); WCall 0 (ODeallocate 4096)] in
  let full := [WCall 0 (get 32); WCall 0 (get 33)] in
  let hang := [WCall 0 (get 3); WCall 0 (get 3); WCall 0 (get 3); WCall 0 (ODeallocate 4100); WCall 0 (get 9)] in
  (exists W', world_run true 50 W ok = Ok (W', [(0%nat, EAllocate 5 1 4096 []); (1%nat, EAllocate 5 1 8192 []);
                                                (0%nat, EDeallocate 4096 [])])) /\
  world_run true 50 W full = Abort /\
  (exists W', world_run false 50 W full = Ok (W', [(0%nat, EAllocate 32 1 4096 []); (0%nat, EAllocate 33 1 4132 [])])) /\
  world_run true 50 W hang = Hang /\ world_run false 50 W hang = Hang.
Proof.
  cbv zeta. split; [eexists; vm_compute; reflexivity|]. split; [vm_compute; reflexivity|].
  split; [eexists; vm_compute; reflexivity|]. split; vm_compute; reflexivity.
Qed.

(** C144, the other way round, for simple_resource (alignments up to BlockSize, no release()): a release
    build that at no moment has granted a block twice or one behind the buffer does what the
    debug build does.  So the checks stop no such program; and where a debug build is stopped and
    the release build goes on, the release build has made a bad grant. *)
Theorem C144_checks_partial : forall m b buffer size up s fuel ops s' es, made (Cfg m b true) buffer size up s ->
  Forall (plain_op b) ops -> (up = true -> Forall (upstream_fits b) ops) ->
  run (Cfg m b false) fuel s ops = Ok (s', es) -> polite [] es ->
  (forall es1 es2, es = es1 ++ es2 -> well_granted (Cfg m b false) s (live es1)) ->
  run (Cfg m b true) fuel s ops = Ok (s', es).
Proof. exact release_passes. Qed.
Print Assumptions C144_checks_partial.

Example C144_checks_instance :
  let ops := [OAllocate 9 1 (fun _ _ => 8192); ODeallocate 4096; OAllocate 40 4 (fun _ _ => 8192)] in
  let s := St 4096 8 true (fun _ => 0) (fun _ => 0) (fun _ => false) 1 0 in
  let es := [EAllocate 9 1 4096 []; EDeallocate 4096 []; EAllocate 40 4 8192 [UpAllocate 40 4]] in
  made (Cfg 8 4 true) 4096 32 true s /\ Forall (plain_op 4) ops /\ Forall (upstream_fits 4) ops /\
  (exists s', run (Cfg 8 4 false) 50 s ops = Ok (s', es)) /\ polite [] es /\
  (forall es1 es2, es = es1 ++ es2 -> well_granted (Cfg 8 4 false) s (live es1)).
Proof.
  cbv zeta. assert (P1 : pow2 1) by (exists 0; split; [lia|reflexivity]). assert (P4 : pow2 4) by (exists 2; split; [lia|reflexivity]).
  split; [exact (made_8_up true)|]. split; [repeat constructor; cbn; auto; lia|].
  split; [repeat constructor; cbn; try lia; exists 2048; lia|].
  split; [eexists; vm_compute; reflexivity|]. split; [cbn; tauto|].
  intros es1 es2 E. assert (X : live es1 = [] \/ live es1 = [(4096, 9)]).
  { destruct es1 as [|e1 [|e2 [|e3 [|e4 es1]]]]; cbn [app] in E; inversion E; subst; cbn; auto. }
  destruct X as [-> | ->]; split; cbn [map].
  - intros [|? [|]] ? ? ? ? Y; discriminate Y.
  - intros _. constructor.
  - intros [|? [|]] ? [|] ? ? Y; discriminate Y.
  - intros _. repeat constructor; cbn; lia.
Qed.

(** Seen from the client the checks are too strict: a request for the whole buffer is served as it
    should be in a release build (with memory of its own, inside the buffer) and stops a debug
    build.  The block behind the last byte is what has been granted wrongly. *)
Theorem C144_whole_buffer_refuted : exists m b buffer size s ops s' es, made (Cfg m b true) buffer size false s /\
  Forall (plain_op b) ops /\ run (Cfg m b false) 50 s ops = Ok (s', es) /\ polite [] es /\
  (forall es1 es2, es = es1 ++ es2 -> pairwise_disjoint (live es1) /\
     forall a, In a (live es1) -> in_bounds (data s) (data s + bc s * b) a) /\
  (exists n al p, es = [EAllocate n al p []] /\ p <> 0) /\
  forall fuel, (0 < fuel)%nat -> run (Cfg m b true) fuel s ops = Abort.
Proof. exact whole_buffer_stopped. Qed.
Print Assumptions C144_whole_buffer_refuted.
