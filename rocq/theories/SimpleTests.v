(** The expectations of /repo/tests/src/simple_resource_tests.cpp, evaluated in the
    model.  They prove no property; they check that the model computes what the
    project's own tests observe.  [dbg] is the build type; every test is replayed in
    both. *)

Require Import ZArith List Bool Lia.
Require Import Verif.Outcome Verif.Machine Verif.SimpleSpec Verif.SimpleModel.
Import ListNotations.
Open Scope Z_scope.
Open Scope res_scope.

(** naive_resource<4, 32, 8>, tests 12-35: 32 blocks of 8 bytes at an address that is a
    multiple of the block size (the tests need it).  The default upstream is the system
    resource; [up_at] is what it answers. *)
Definition A4N32S8 (dbg : bool) : cfg := Cfg 32 8 dbg.
Definition base : Z := 65536.
Definition up_at : Z := 1048576.
Definition start (dbg up : bool) : res state := construct (A4N32S8 dbg) base 256 up.
Definition one_char : op := OAllocate 1 1 (fun _ _ => up_at).
Definition ptr (i : Z) : Z := base + 8 * i.
Definition indexes : list Z := map Z.of_nat (seq 0 32).

(** ASSERT_EQ and ASSERT_TRUE over the observers *)
Definition counts (f b : Z) (s : state) : bool := (freec s =? f) && (busyc s =? b).
Definition links (i p n : Z) (s : state) : bool := (prv s i =? p) && (nxt s i =? n).
Definition untouched (s : state) : bool :=
  counts 1 0 s && forallb (fun i => negb (inuse s i) && links i 0 0 s) indexes.
(** is_in_order, tests 22-28 *)
Definition in_order (i j : Z) (s : state) : bool := (nxt s i =? j) && (prv s j =? i).

(** the calls one after the other, each followed by its expectations *)
Definition expect (c : bool) (k : res bool) : res bool := if c then k else Ok false.
Definition do_op (dbg : bool) (o : op) (s : state) : res (state * event) := step (A4N32S8 dbg) 100 s o.

(** 137-159 InitWithNullptrBufAnd10BytesOfSize and the two tests after it *)
Example origin_tests : forall dbg, let c := Cfg 32 4 dbg in
  origin_and_block_count c 0 10 = Ok (0, 0) /\ origin_and_block_count c 65536 0 = Ok (0, 0) /\
  origin_and_block_count c 0 0 = Ok (0, 0).
Proof. intros [|]; repeat split. Qed.

(** 161-172 DefaultConstructed *)
Example default_constructed : forall dbg, (s <- start dbg true;; Ok (untouched s)) = Ok true.
Proof. intros [|]; vm_compute; reflexivity. Qed.

(** 174-190 AllocateZeroBytes *)
Example allocate_zero_bytes : forall dbg,
  (s <- start dbg true;; ' (s, e) <- do_op dbg (OAllocate 0 1 (fun _ _ => up_at)) s;; Ok (untouched s)) = Ok true.
Proof. intros [|]; vm_compute; reflexivity. Qed.

(** 192-217 AllocateDeallocate1Char *)
Example allocate_deallocate_1_char : forall dbg,
  (s <- start dbg true;; ' (s, e) <- do_op dbg one_char s;;
   expect (counts 1 1 s && inuse s 0 && links 0 0 1 s && negb (inuse s 1) && links 1 0 0 s)
    (' (s, e) <- do_op dbg (ODeallocate (ptr 0)) s;; Ok (untouched s))) = Ok true.
Proof. intros [|]; vm_compute; reflexivity. Qed.

(** the loop that allocates 32 characters, 219-260 and 301-335 *)
Fixpoint fill (dbg : bool) (is : list Z) (s : state) (k : state -> res bool) : res bool :=
  match is with
  | [] => k s
  | i :: is' =>
    expect (negb (inuse s i) && (prv s 0 =? 0) && (nxt s 31 =? 0))
     (' (s, e) <- do_op dbg one_char s;;
      expect ((prv s 0 =? 0) && (nxt s 31 =? 0) && counts (if i <? 31 then 1 else 0) (i + 1) s && inuse s i &&
              match e with EAllocate 1 1 p [] => p =? ptr i | _ => false end &&
              (if i =? 0 then links i 0 (i + 1) s
               else if i <? 31 then links i (i - 1) (i + 1) s else links i (i - 1) 0 s))
       (fill dbg is' s k))
  end.
(** the loop that gives them back in reverse order, 261-299 *)
Fixpoint empty_reverse (dbg : bool) (is : list Z) (s : state) : res bool :=
  match is with
  | [] => Ok true
  | i :: is' =>
    expect (counts (if i <? 31 then 1 else 0) (i + 1) s && inuse s i && (prv s 0 =? 0) && (nxt s 31 =? 0))
     (' (s, e) <- do_op dbg (ODeallocate (ptr i)) s;;
      expect ((prv s 0 =? 0) && (nxt s 31 =? 0) && counts 1 i s && negb (inuse s i) &&
              (if i =? 0 then links i 0 0 s else links i (i - 1) 0 s))
       (empty_reverse dbg is' s))
  end.
(** and in straight order, 336-378 *)
Fixpoint empty_straight (dbg : bool) (is : list Z) (s : state) : res bool :=
  match is with
  | [] => Ok true
  | i :: is' =>
    expect (counts (if i =? 0 then 0 else 1) (32 - i) s && inuse s i && links i 0 (if i <? 31 then i + 1 else 0) s &&
            (prv s 0 =? 0) && (nxt s 31 =? 0))
     (' (s, e) <- do_op dbg (ODeallocate (ptr i)) s;;
      expect ((prv s 0 =? 0) && (nxt s 31 =? 0) && counts 1 (32 - i - 1) s && negb (inuse s i) &&
              links i 0 (if i <? 31 then i + 1 else 0) s)
       (empty_straight dbg is' s))
  end.

(** 219-299 AllocateDeallocate32CharsInReverseOrder *)
Example reverse_order : forall dbg,
  (s <- start dbg true;; fill dbg indexes s (fun s =>
     expect (forallb (inuse s) indexes) (empty_reverse dbg (rev indexes) s))) = Ok true.
Proof. intros [|]; vm_compute; reflexivity. Qed.

(** 301-378 AllocateDeallocate32CharsInStraightOrder *)
Example straight_order : forall dbg,
  (s <- start dbg true;; fill dbg indexes s (fun s =>
     expect (forallb (inuse s) indexes) (empty_straight dbg indexes s))) = Ok true.
Proof. intros [|]; vm_compute; reflexivity. Qed.

(** one call, then expectations about the state *)
Fixpoint script (dbg : bool) (l : list (op * (state -> bool))) (s : state) : res bool :=
  match l with
  | [] => Ok true
  | (o, f) :: l' => ' (s, e) <- do_op dbg o s;; expect (f s) (script dbg l' s)
  end.

(** 380-439 Deallocate8CharsInCustomOrder *)
Example custom_order : forall dbg,
  let d i := ODeallocate (ptr i) in
  (s <- start dbg true;; fill dbg indexes s (fun s => expect (counts 0 32 s) (script dbg
     [(d 2, fun s => in_order 1 2 s && in_order 2 3 s && counts 1 31 s);
      (d 4, fun s => in_order 3 4 s && in_order 4 5 s && counts 2 30 s);
      (d 3, fun s => in_order 1 2 s && in_order 2 5 s && counts 1 29 s);
      (d 5, counts 1 28); (d 7, counts 2 27); (d 10, counts 3 26); (d 13, counts 4 25); (d 16, counts 5 24)] s))) = Ok true.
Proof. intros [|]; vm_compute; reflexivity. Qed.

(** 441-465 DeallocateAndAllocateAgainOneChar *)
Example again_one_char : forall dbg,
  (s <- start dbg true;; fill dbg indexes s (fun s => expect (counts 0 32 s) (script dbg
     [(ODeallocate (ptr 2), fun s => in_order 1 2 s && in_order 2 3 s && counts 1 31 s);
      (one_char, counts 0 32)] s))) = Ok true.
Proof. intros [|]; vm_compute; reflexivity. Qed.

Definition give_back (dbg : bool) (is : list Z) (s : state) : res state :=
  fold_left (fun r i => s <- r;; ' (s, _) <- do_op dbg (ODeallocate (ptr i)) s;; Ok s) is (Ok s).
(** FreeRegionBase, 40-63: all blocks are taken and those from [first] to [last] given
    back; the whole resource is left as it is made *)
Definition free_region (dbg : bool) (first last : Z) : res state :=
  s <- start dbg true;;
  if last - first + 1 =? 32 then Ok s
  else
    s <- fold_left (fun r _ => s <- r;; ' (s, _) <- do_op dbg one_char s;; Ok s) indexes (Ok s);;
    give_back dbg (filter (fun i => (first <=? i) && (i <=? last)) indexes) s.

(** 467-748: the four ways to take part of a free region, in the three cases where the
    region ends before the resource does and where it does not.  The tests are the same
    but for the expectations about the block after the region. *)
Definition after_region (i last : Z) (s : state) : bool := if last <? 31 then in_order i (last + 1) s else true.
Definition size_is (c : cfg) (s : state) (i n : Z) : bool :=
  match block_size c s i with Ok m => m =? n | _ => false end.
Definition begin_test (dbg : bool) (first last : Z) : res bool :=
  let c := A4N32S8 dbg in let free := last - first + 1 in
  s0 <- free_region dbg first last;; s <- allocate_begin_matched c s0 first (last - 3) last;;
  Ok (counts (freec s0) (busyc s0 + 1) s && inuse s first && negb (inuse s (last - 3 + 1)) &&
      in_order first (last - 3 + 1) s && after_region (last - 3 + 1) last s && size_is c s first (free - 3)).
Definition middle_test (dbg : bool) (first last : Z) : res bool :=
  let c := A4N32S8 dbg in let free := last - first + 1 in
  s0 <- free_region dbg first last;; s <- allocate_not_matched c s0 first (first + 2) (last - 3) last;;
  Ok (counts (freec s0 + 1) (busyc s0 + 1) s && negb (inuse s first) && inuse s (first + 2) &&
      negb (inuse s (last - 3 + 1)) && in_order first (first + 2) s && in_order (first + 2) (last - 3 + 1) s &&
      after_region (last - 3 + 1) last s && size_is c s (first + 2) (free - 5)).
Definition end_test (dbg : bool) (first last : Z) : res bool :=
  let c := A4N32S8 dbg in let free := last - first + 1 in
  s0 <- free_region dbg first last;; s <- allocate_end_matched c s0 first (first + 2) last;;
  Ok (counts (freec s0) (busyc s0 + 1) s && negb (inuse s first) && inuse s (first + 2) &&
      in_order first (first + 2) s && after_region (first + 2) last s && size_is c s (first + 2) (free - 2)).
Definition entire_test (dbg : bool) (first last : Z) : res bool :=
  let c := A4N32S8 dbg in let free := last - first + 1 in
  s0 <- free_region dbg first last;; s <- allocate_matched c s0 first;;
  Ok (counts (freec s0 - 1) (busyc s0 + 1) s && inuse s first && after_region first last s && size_is c s first free).
(** the four fixtures, 65-121 *)
Definition fixtures : list (Z * Z) := [(0, 14); (5, 19); (10, 31); (0, 31)].

Example free_region_tests : forall dbg, Forall (fun f => let (first, last) := (f : Z * Z) in
  begin_test dbg first last = Ok true /\ middle_test dbg first last = Ok true /\
  end_test dbg first last = Ok true /\ entire_test dbg first last = Ok true) fixtures.
Proof. intros [|]; repeat apply Forall_cons; try apply Forall_nil; repeat apply conj; vm_compute; reflexivity. Qed.

(** 750-766 AllocateTooBigPieceOfMemory *)
Example too_big : forall dbg,
  (s <- start dbg true;; ' (s, e) <- do_op dbg (OAllocate (size_ (A4N32S8 dbg) s + 1) 1 (fun _ _ => up_at)) s;;
   match e with
   | EAllocate 257 1 p [UpAllocate 257 1] =>
     expect (negb (p =? 0)) (' (s, e) <- do_op dbg (ODeallocate p) s;;
       Ok (counts 1 0 s && negb (inuse s 0) && size_is (A4N32S8 dbg) s 0 32 &&
           match e with EDeallocate q [UpDeallocate q'] => (q =? p) && (q' =? p) | _ => false end))
   | _ => Ok false
   end) = Ok true.
Proof. intros [|]; vm_compute; reflexivity. Qed.

(** 768-853 the death tests *)
Example death_tests : forall dbg,
  (s <- start dbg true;; ' (s, e) <- do_op dbg one_char s;; destroy s) = Abort /\
  (s <- start dbg false;; do_op dbg (ODeallocate (base - 8)) s) = Abort /\
  (s <- start dbg false;; do_op dbg (ODeallocate (base + size_ (A4N32S8 dbg) s)) s) = Abort /\
  (s <- start dbg true;; do_op dbg (ODeallocate (base + 1)) s) = Abort /\
  (s <- start dbg false;; do_op dbg (ODeallocate base) s) = Abort.
Proof. intros [|]; repeat split; vm_compute; reflexivity. Qed.

(** 30 ~naive_resource: release() lets the destructor pass after every test.  Shown for
    the states the tests with the most live blocks leave; the walk of release() starts
    again at block 1 after every block it frees, so it needs more steps than there are
    blocks. *)
Definition finish (dbg : bool) (s : state) : res bool :=
  s <- release (A4N32S8 dbg) 1000 s;; _ <- destroy s;; Ok (counts 1 0 s && forallb (fun i => negb (inuse s i)) indexes).
Example fixture_destroyed : forall dbg,
  (s <- start dbg true;; finish dbg s) = Ok true.
Proof. intros [|]; vm_compute; reflexivity. Qed.
Example full_fixture_destroyed : forall dbg,
  (s <- start dbg true;; fill dbg indexes s (finish dbg)) = Ok true.
Proof. intros [|]; vm_compute; reflexivity. Qed.
Example custom_fixture_destroyed : forall dbg,
  (s <- start dbg true;; fill dbg indexes s (fun s =>
     s <- give_back dbg [2; 4; 3; 5; 7; 10; 13; 16] s;; finish dbg s)) = Ok true.
Proof. intros [|]; vm_compute; reflexivity. Qed.
