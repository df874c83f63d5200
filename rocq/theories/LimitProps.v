(** C155: MaxBlockCount is a limit on the number of blocks and nothing else. *)

Require Import ZArith Lia List Bool.
Require Import Verif.Outcome Verif.BitsSpec Verif.SimpleSpec Verif.SimpleModel Verif.SimpleView Verif.SimpleProofs Verif.SimpleRefuted.
Require Import Verif.BuildKeepSpec Verif.SimpleKeepProofs Verif.LimitProofs.
Import ListNotations.
Open Scope Z_scope.

(** Two types simple_resource<m1, b> and simple_resource<m2, b>, one buffer, as many blocks
    in both.  Debug builds: every history has the same outcome, whatever it is. *)
Theorem C155_debug : forall m1 m2 b buffer size up s1 s2 fuel ops,
  made (Cfg m1 b true) buffer size up s1 -> made (Cfg m2 b true) buffer size up s2 -> bc s1 = bc s2 ->
  Forall sane_op ops -> (forall p, In (ODeallocate p) ops -> 0 <= p < 2 ^ 64) ->
  s1 = s2 /\ run (Cfg m1 b true) fuel s1 ops = run (Cfg m2 b true) fuel s2 ops.
Proof. exact debug_limit. Qed.
Print Assumptions C155_debug.

(** Release builds: every history that the debug build of one of the types runs to its end. *)
Theorem C155_checked_partial : forall m1 m2 b buffer size up s1 s2 fuel ops r,
  made (Cfg m1 b true) buffer size up s1 -> made (Cfg m2 b true) buffer size up s2 -> bc s1 = bc s2 ->
  Forall sane_op ops -> (forall p, In (ODeallocate p) ops -> 0 <= p < 2 ^ 64) ->
  run (Cfg m1 b true) fuel s1 ops = Ok r ->
  run (Cfg m1 b false) fuel s1 ops = Ok r /\ run (Cfg m2 b false) fuel s2 ops = Ok r.
Proof. exact release_limit. Qed.
Print Assumptions C155_checked_partial.

(** Release builds, without a word on debug builds: alignments up to BlockSize, no release(),
    a client that gives back what it holds, and at no moment a block granted twice or behind
    the buffer. *)
Theorem C155_release_partial : forall m1 m2 b buffer size up s1 s2 fuel ops s' es,
  made (Cfg m1 b true) buffer size up s1 -> made (Cfg m2 b true) buffer size up s2 -> bc s1 = bc s2 ->
  Forall (plain_op b) ops -> (up = true -> Forall (upstream_fits b) ops) -> (forall p, In (ODeallocate p) ops -> 0 <= p < 2 ^ 64) ->
  run (Cfg m1 b false) fuel s1 ops = Ok (s', es) -> polite [] es ->
  (forall es1 es2, es = es1 ++ es2 -> well_granted (Cfg m1 b false) s1 (live es1)) ->
  run (Cfg m2 b false) fuel s2 ops = Ok (s', es).
Proof. exact release_kept_limit. Qed.
Print Assumptions C155_release_partial.

(** Not so for all histories of release builds: a request for all four blocks of a buffer is
    undefined behaviour with MaxBlockCount 4 and is served with MaxBlockCount 8.  (Debug builds
    of every type abort.) *)
Theorem C155_release_refuted : made (conf 4 true) 4096 16 false (fresh 4096 4 false) /\ made (conf 8 true) 4096 16 false (fresh 4096 4 false) /\
  Forall sane_op [get 16] /\
  (forall fuel, (0 < fuel)%nat -> run (conf 4 false) fuel (fresh 4096 4 false) [get 16] = UB) /\
  (forall fuel, (0 < fuel)%nat -> exists s, run (conf 8 false) fuel (fresh 4096 4 false) [get 16] = Ok (s, [EAllocate 16 1 4096 []])) /\
  (forall m fuel, (0 < fuel)%nat -> 4 <= m < 100 -> run (conf m true) fuel (fresh 4096 4 false) [get 16] = Abort).
Proof. exact limit_shows. Qed.
Print Assumptions C155_release_refuted.

Ltac settle := split; [
    repeat (apply pairwise_cons; split;
      [let Y := fresh in intros ? Y; cbn in Y;
       repeat (destruct Y as [<-|Y]; [unfold disjoint; cbn; lia|]); destruct Y|]);
    intros [|? [|]] ? ? ? ? X; discriminate X
  | intros _; repeat constructor; unfold inside; cbn; lia].

(** four blocks in types with room for 4 and for 99: the same calls, the same results *)
Example C155_instance :
  let ops := [get 5; get 1; ODeallocate 4096; get 5; get 9; ODeallocate 4104; ODeallocate 4096] in
  let es := [EAllocate 5 1 4096 []; EAllocate 1 1 4104 []; EDeallocate 4096 []; EAllocate 5 1 4096 []; EAllocate 9 1 0 [];
             EDeallocate 4104 []; EDeallocate 4096 []] in
  made (Cfg 4 4 true) 4096 16 false (fresh 4096 4 false) /\ made (Cfg 99 4 true) 4096 16 false (fresh 4096 4 false) /\
  Forall (plain_op 4) ops /\ (forall p, In (ODeallocate p) ops -> 0 <= p < 2 ^ 64) /\
  (exists s, run (Cfg 4 4 true) 50 (fresh 4096 4 false) ops = Ok (s, es)) /\ polite [] es /\
  (forall es1 es2, es = es1 ++ es2 -> well_granted (Cfg 4 4 false) (fresh 4096 4 false) (live es1)) /\
  (exists s, run (Cfg 99 4 false) 50 (fresh 4096 4 false) ops = Ok (s, es)).
Proof.
  cbv zeta. assert (P1 : pow2 1) by exact pow2_1.
  split; [exact (made_room 4 true ltac:(lia))|]. split; [exact (made_room 99 true ltac:(lia))|].
  split; [repeat constructor; cbn; auto; lia|].
  split; [cbn [In]; intros p I; repeat destruct I as [I|I]; try discriminate I; try contradiction; injection I as <-; lia|].
  split; [eexists; vm_compute; reflexivity|]. split; [cbn; tauto|].
  split; [|eexists; vm_compute; reflexivity]. intros es1 es2 E.
  destruct es1 as [|e1 [|e2 [|e3 [|e4 [|e5 [|e6 [|e7 [|e8 es1]]]]]]]]; cbn [app] in E; inversion E; subst; try discriminate;
    unfold well_granted; cbn [BS DBG]; cbn; settle.
Qed.
