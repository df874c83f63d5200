(** C153: timers kept in a sequence. *)

Require Import ZArith List Bool Permutation.
Require Import Verif.Outcome Verif.Machine Verif.TimerSpec Verif.TimerModel Verif.ShelfSpec Verif.ShelfProofs.
Import ListNotations.
Open Scope Z_scope.

(** swapping two timers, or one with itself, after every history *)
Theorem C153_swap : forall N ops st es t a b x y, timer_run N no_timers ops = Ok (st, es) ->
  st t = None -> shows N st a x -> shows N st b y ->
  exists st', timer_run N st (swap_ops t a b) = Ok (st', []) /\
    shows N st' a y /\ shows N st' b x /\ st' t = None /\
    forall u, u <> t -> u <> a -> u <> b -> st' u = st u.
Proof. exact shelf_swap. Qed.
Print Assumptions C153_swap.

(** whatever is done by swapping elements only rearranges them *)
Theorem C153_rearrange : forall N ops st es t ps l xs, timer_run N no_timers ops = Ok (st, es) ->
  st t = None -> NoDup ps -> Forall2 (shows N st) ps xs ->
  (forall a b, In (a, b) l -> In a ps /\ In b ps) ->
  exists st' xs', timer_run N st (swaps_ops t l) = Ok (st', []) /\
    Permutation xs xs' /\ Forall2 (shows N st') ps xs' /\
    forall u, u <> t -> ~ In u ps -> st' u = st u.
Proof. exact shelf_swaps. Qed.
Print Assumptions C153_rearrange.

(** moving all elements to larger memory *)
Theorem C153_grow : forall N ops st es olds news xs, timer_run N no_timers ops = Ok (st, es) ->
  NoDup (olds ++ news) -> length olds = length news ->
  Forall2 (shows N st) olds xs -> (forall p, In p news -> st p = None) ->
  exists st', timer_run N st (grow_ops olds news) = Ok (st', []) /\
    Forall2 (shows N st') news xs /\ (forall p, In p olds -> st' p = None) /\
    forall u, ~ In u olds -> ~ In u news -> st' u = st u.
Proof. exact shelf_grow. Qed.
Print Assumptions C153_grow.

(** inserting before any element or at the end *)
Theorem C153_insert : forall N ops st es tmp ps free x xs, timer_run N no_timers ops = Ok (st, es) ->
  NoDup (tmp :: free :: ps) -> Forall2 (shows N st) ps xs -> shows N st tmp x -> st free = None ->
  exists st', timer_run N st (insert_ops tmp ps free) = Ok (st', []) /\
    Forall2 (shows N st') (ps ++ [free]) (x :: xs) /\ st' tmp = None /\
    forall u, ~ In u (tmp :: free :: ps) -> st' u = st u.
Proof. exact shelf_insert. Qed.
Print Assumptions C153_insert.

(** destroying the sequence, or clearing it, calls every callable, in order *)
Theorem C153_clear : forall N ops st es ps xs, timer_run N no_timers ops = Ok (st, es) ->
  NoDup ps -> Forall2 (shows N st) ps xs ->
  exists st', timer_run N st (map TDestroy ps) = Ok (st', calls_of ps xs) /\
    (forall p, In p ps -> st' p = None) /\ forall u, ~ In u ps -> st' u = st u.
Proof. exact shelf_clear. Qed.
Print Assumptions C153_clear.

(** an erased timer that is not the last is never heard of again: two timers, the
    first erased, then the sequence destroyed - only the second callable is called *)
Theorem C153_erase_refuted : forall c1 c2 : callable, length (snd c1) = 8%nat -> length (snd c2) = 8%nat ->
  exists st, timer_run 8 no_timers ([TNew 0 1 c1; TNew 1 2 c2] ++ erase_ops [0; 1]%nat ++ [TDestroy 0]) = Ok (st, [TCalled 0 c2 2]) /\
    forall u, st u = None.
Proof. exact shelf_lost. Qed.
Print Assumptions C153_erase_refuted.

(** Every erasure: the elements behind move down unchanged; the callable of the erased
    one is called exactly if it was the last element. *)
Theorem C153_erase_exact_partial : forall N ops st es p ps x xs, timer_run N no_timers ops = Ok (st, es) ->
  NoDup (p :: ps) -> shows N st p x -> Forall2 (shows N st) ps xs ->
  exists st', timer_run N st (erase_ops (p :: ps)) =
      Ok (st', match ps with [] => map (fun c => TCalled p c (fst x)) (snd x) | _ => [] end) /\
    Forall2 (shows N st') (removelast (p :: ps)) xs /\ st' (last (p :: ps) 0%nat) = None /\
    forall u, ~ In u (p :: ps) -> st' u = st u.
Proof. exact shelf_erase. Qed.
Print Assumptions C153_erase_exact_partial.

(** Three timers (one of them moved from) and a fourth outside: they meet the hypotheses
    of all of the above. *)
Example C153_instance : exists st, 
  timer_run 4 no_timers [TNew 0 10 (7%nat, [1; 2]); TNew 1 11 (8%nat, []); TNew 9 12 (9%nat, [3]); TMove 2 9; TReset 2 13] = Ok (st, []) /\
  NoDup [0; 1; 2; 9]%nat /\ st 5%nat = None /\
  Forall2 (shows 4 st) [0; 1; 2; 9]%nat [(10, [(7%nat, [1; 2])]); (11, [(8%nat, [])]); (13, [(9%nat, [3])]); (12, [])] /\
  (exists st', timer_run 4 st (insert_ops 2 [0; 1]%nat 5) = Ok (st', []) /\
    Forall2 (shows 4 st') [0; 1; 5]%nat [(13, [(9%nat, [3])]); (10, [(7%nat, [1; 2])]); (11, [(8%nat, [])])]) /\
  (exists st', timer_run 4 st (grow_ops [0; 1; 2]%nat [20; 21; 22]%nat ++ map TDestroy [20; 21; 22]%nat) =
    Ok (st', [TCalled 20 (7%nat, [1; 2]) 10; TCalled 21 (8%nat, []) 11; TCalled 22 (9%nat, [3]) 13])) /\
  (exists st', timer_run 4 st (erase_ops [0; 1; 2]%nat) = Ok (st', [])) /\
  (exists st', timer_run 4 st (erase_ops [2]%nat) = Ok (st', [TCalled 2 (9%nat, [3]) 13])).
Proof.
  eexists. split; [reflexivity|]. split; [repeat constructor; cbn; intuition discriminate|]. split; [reflexivity|].
  split; [repeat constructor; eexists; reflexivity|].
  split; [eexists; split; [reflexivity|repeat constructor; eexists; reflexivity]|].
  split; [eexists; reflexivity|]. split; eexists; reflexivity.
Qed.
