(** C159: a simple_resource with the default upstream falls back on the heap. *)

Require Import ZArith Lia List Bool.
Require Import Verif.Outcome Verif.BitsSpec Verif.SimpleSpec Verif.SimpleModel Verif.SimpleView Verif.SimpleProofs Verif.SimpleRefuted.
Require Import Verif.HeapSpec Verif.LoneSpec Verif.LoneProofs Verif.FallSpec Verif.FallModel Verif.FallProofs.
Import ListNotations.
Open Scope Z_scope.

(** With a system that keeps its promise and requests for which it is asked for memory aligned
    to blocks: every history has the outcome it would have without an upstream, the answers
    of the system in place of null. *)
Theorem C159_fallback_partial : forall c msvc word b n s s0 fuel ops, pow2 word -> made c b n true s -> made c b n false s0 ->
  fair msvc word (data s) (bc s * BS c) [] ops -> Forall (wide msvc word (BS c)) ops ->
  run c fuel s0 (map (no_heap (data s) (bc s * BS c)) ops) =
  lone_outcome lone (data s) (bc s * BS c) (seen (fall_run c msvc word fuel s ops)).
Proof. exact heap_behind. Qed.
Print Assumptions C159_fallback_partial.

(** In every history that returns, whatever the alignments: what was asked of the system is
    answered with what it answered ... *)
Theorem C159_answers : forall c msvc word b n s fuel ops s' es cs, made c b n true s -> Forall plain ops ->
  fall_run c msvc word fuel s ops = Ok (s', es, cs) -> Forall2 passed_on ops es.
Proof. exact heap_passed. Qed.
Print Assumptions C159_answers.

(** ... and a client that gives back only what it owns of the heap leads to calls the system
    defines, after which the system holds exactly what that client owns. *)
Theorem C159_heap_use : forall c msvc word b n s fuel ops s' es cs, pow2 word -> made c b n true s -> Forall plain ops ->
  fall_run c msvc word fuel s ops = Ok (s', es, cs) ->
  correct_client [] (flat_map (from_heap (data s) (bc s * BS c)) es) ->
  correct_use word [] cs /\
  fold_left held_after cs [] = map (pair (if msvc then Crt else Posix)) (fold_left owned_after (flat_map (from_heap (data s) (bc s * BS c)) es) []).
Proof. exact heap_used. Qed.
Print Assumptions C159_heap_use.

(** Which requests are safe: after every history, a request that goes to the system can be had
    and given back, whatever a system that keeps its promise answers, if and only if the blocks
    are not larger than the alignment the system is asked for. *)
Theorem C159_alignment_exact_partial : forall c msvc word b n s fuel ops s' es size align ans s1 p,
  pow2 word -> made c b n true s -> Forall sane_op ops ->
  run c fuel s ops = Ok (s', es) -> 0 < size -> pow2 align -> align < 2 ^ 64 ->
  allocate_impl c fuel s' size align ans = Ok (s1, p, [UpAllocate size align]) ->
  ((forall q, promise msvc word (data s) (bc s * BS c) align q ->
    exists s2 cs, fall_run c msvc word fuel s' [FAllocate size align false q; FDeallocate q] =
      Ok (s2, [EAllocate size align q [UpAllocate size align]; EDeallocate q [UpDeallocate q]], cs)) <-> BS c <= asked msvc word align).
Proof. exact heap_exact. Qed.
Print Assumptions C159_alignment_exact_partial.

(** Blocks of 16 bytes, pointers of 8 bytes, posix_memalign: a request for 100 bytes is
    answered with memory at a multiple of 8.  The debug build aborts at once, the release build
    when the memory is given back. *)
Theorem C159_fallback_refuted :
  (forall dbg, made (Cfg 2 16 dbg) 48 32 true (fresh 48 2 true)) /\
  fair false 8 48 32 [] [FAllocate 100 8 false 9000; FDeallocate 9000] /\
  fall_run (Cfg 2 16 true) false 8 9 (fresh 48 2 true) [FAllocate 100 8 false 9000] = Abort /\
  fall_run (Cfg 2 16 false) false 8 9 (fresh 48 2 true) [FAllocate 100 8 false 9000] =
    Ok (fresh 48 2 true, [EAllocate 100 8 9000 [UpAllocate 100 8]], [Obtain Posix 8 100 false 9000]) /\
  (forall dbg, fall_run (Cfg 2 16 dbg) false 8 9 (fresh 48 2 true) [FAllocate 100 8 false 9000; FDeallocate 9000] = Abort).
Proof. exact odd_heap. Qed.
Print Assumptions C159_fallback_refuted.

(** blocks of 4 bytes: a request is served, one goes to the heap, one fails there, all is given
    back *)
Example C159_instance : forall dbg,
  let ops := [FAllocate 5 1 true 7; FAllocate 100 1 false 9000; FAllocate 200 64 true 3; FDeallocate 9000; FDeallocate 4096; FDeallocate 0] in
  pow2 8 /\ made (conf 8 dbg) 4096 32 true (fresh 4096 8 true) /\ made (conf 8 dbg) 4096 32 false (fresh 4096 8 false) /\
  fair false 8 4096 32 [] ops /\ Forall plain ops /\ Forall (wide false 8 4) ops /\
  exists s, fall_run (conf 8 dbg) false 8 9 (fresh 4096 8 true) ops =
    Ok (s, [EAllocate 5 1 4096 []; EAllocate 100 1 9000 [UpAllocate 100 1]; EAllocate 200 64 0 [UpAllocate 200 64];
            EDeallocate 9000 [UpDeallocate 9000]; EDeallocate 4096 []; EDeallocate 0 []],
        [Obtain Posix 8 100 false 9000; Obtain Posix 64 200 true 3; Return_ Posix 9000]) /\
    correct_client [] [Malloced 100 1 9000; Malloced 200 64 0; Freed 9000] /\
    flat_map (from_heap 4096 32) [EAllocate 5 1 4096 []; EAllocate 100 1 9000 [UpAllocate 100 1]; EAllocate 200 64 0 [UpAllocate 200 64];
            EDeallocate 9000 [UpDeallocate 9000]; EDeallocate 4096 []; EDeallocate 0 []] = [Malloced 100 1 9000; Malloced 200 64 0; Freed 9000].
Proof.
  intros dbg. cbv zeta.
  assert (P64 : pow2 64) by (exists 6; split; [lia|reflexivity]). assert (P8 : pow2 8) by (exists 3; split; [lia|reflexivity]).
  assert (P1 : pow2 1) by exact pow2_1.
  split; [exact P8|]. split; [apply made_up|]. split; [apply made_up|].
  split.
  { cbn [fair]. repeat split; auto; try lia; try discriminate; try (exists 1125; reflexivity).
    intros _. right. left. reflexivity. }
  split; [repeat constructor; cbn [plain]; auto; lia|].
  split; [repeat constructor; cbn [wide asked]; lia|].
  eexists. split; [destruct dbg; vm_compute; reflexivity|].
  split; [cbn; auto 10|reflexivity].
Qed.
