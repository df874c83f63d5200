(** Lemmas about the messages printed before abort. *)

Require Import ZArith List String Ascii Bool Lia.
Require Import Verif.Outcome Verif.Machine Verif.ArithModel Verif.ArithProofs Verif.BitsProofs Verif.SimpleModel Verif.SimpleProofs.
Require Import Verif.MessageSpec Verif.MessageModel.
Import ListNotations.
Open Scope Z_scope.
Open Scope string_scope.
Open Scope res_scope.

Lemma app_assoc_s : forall a b c : string, (a ++ b) ++ c = a ++ b ++ c.
Proof. induction a; intros; cbn; [reflexivity|]. f_equal. auto. Qed.

(** text without % is printed as it is *)
Lemma printf_plain : forall num ptr s f args, no_percent s ->
  printf num ptr (s ++ f) args = r <- printf num ptr f args;; Ok (s ++ r).
Proof.
  induction s as [|c s IH]; intros f args H.
  - cbn [append]. destruct (printf num ptr f args); reflexivity.
  - destruct H as [N H]. change (String c s ++ f) with (String c (s ++ f)). cbn [printf].
    destruct (Ascii.eqb_spec c "%"); [contradiction|].
    rewrite (IH f args H). destruct (printf num ptr f args); reflexivity.
Qed.

Lemma printf_conv : forall num ptr c f a args, c <> "%"%char ->
  printf num ptr (String "%" (String c f)) (a :: args) =
  t <- convert num ptr c a;; r <- printf num ptr f args;; Ok (t ++ r).
Proof.
  intros num ptr c f a args N. cbn [printf]. change (Ascii.eqb "%" "%") with true. cbv iota.
  destruct (Ascii.eqb_spec c "%"); [contradiction|reflexivity].
Qed.

Lemma app_nil_s : forall s : string, s ++ "" = s.
Proof. induction s; cbn; congruence. Qed.

Lemma printf_all_plain : forall num ptr s args, no_percent s -> printf num ptr s args = Ok s.
Proof.
  intros num ptr s args H. pose proof (printf_plain num ptr s "" args H) as E.
  rewrite app_nil_s in E. rewrite E. cbn [printf bind]. rewrite app_nil_s. reflexivity.
Qed.

(** superfluous arguments do not matter *)
Lemma printf_extra : forall num ptr n f args extra out, (String.length f <= n)%nat ->
  printf num ptr f args = Ok out -> printf num ptr f (args ++ extra)%list = Ok out.
Proof.
  induction n as [|n IH]; intros f args extra out L H.
  - destruct f; [exact H|cbn in L; lia].
  - destruct f as [|c f]; [exact H|]. cbn [String.length] in L. cbn [printf] in *.
    destruct (Ascii.eqb c "%").
    + destruct f as [|d f]; [discriminate|]. cbn [String.length] in L. destruct (Ascii.eqb d "%").
      * destruct (printf num ptr f args) as [r| | |] eqn:E; cbn [bind] in H; try discriminate.
        rewrite (IH f args extra r) by (auto; lia). exact H.
      * destruct args as [|a args]; [discriminate|]. cbn [app].
        destruct (convert num ptr d a) as [t| | |]; cbn [bind] in *; try discriminate.
        destruct (printf num ptr f args) as [r| | |] eqn:E; cbn [bind] in H; try discriminate.
        rewrite (IH f args extra r) by (auto; lia). exact H.
    + destruct (printf num ptr f args) as [r| | |] eqn:E; cbn [bind] in H; try discriminate.
      rewrite (IH f args extra r) by (auto; lia). exact H.
Qed.

Ltac plain := cbn; repeat split; discriminate.

Lemma helper_message : forall num ptr path line func format args, no_percent path -> no_percent line ->
  printf num ptr (fst (helper path line func format args)) (snd (helper path line func format args)) =
  r <- printf num ptr format args;; Ok (expected path line func r).
Proof.
  intros num ptr path line func format args HP HL. unfold helper, file_line, expected. cbn [fst snd].
  rewrite !app_assoc_s.
  rewrite (printf_plain num ptr "[ERROR]") by plain.
  rewrite (printf_plain num ptr newline) by plain.
  rewrite (printf_plain num ptr "file: ") by plain.
  rewrite (printf_plain num ptr path) by exact HP.
  rewrite (printf_plain num ptr newline) by plain.
  rewrite (printf_plain num ptr "line: ") by plain.
  rewrite (printf_plain num ptr line) by exact HL.
  rewrite (printf_plain num ptr newline) by plain.
  change ("func: %s" ++ format) with ("func: " ++ String "%" (String "s" format)).
  rewrite (printf_plain num ptr "func: ") by plain.
  cbn [printf Ascii.eqb Bool.eqb convert bind].
  destruct (printf num ptr format args) as [r| | |]; reflexivity.
Qed.

(** what the macro prints *)
Lemma message_text : forall num ptr path line func, no_percent path -> no_percent line ->
  message num ptr path line func NoReason = Ok (expected path line func "") /\
  forall format args reason, printf num ptr format args = Ok reason ->
    message num ptr path line func (Reason format args) = Ok (expected path line func reason).
Proof.
  intros num ptr path line func HP HL. split.
  - unfold message, abort_if_arguments. pose proof (helper_message num ptr path line func "" [AStr ""] HP HL) as E.
    destruct (helper path line func "" [AStr ""]) as [f a]. cbn [fst snd] in E. rewrite E. reflexivity.
  - intros format args reason H. unfold message, abort_if_arguments.
    pose proof (helper_message num ptr path line func format (args ++ [AStr ""; AStr ""])%list HP HL) as E.
    destruct (helper path line func format (args ++ [AStr ""; AStr ""])%list) as [f a]. cbn [fst snd] in E. rewrite E.
    rewrite (printf_extra num ptr (String.length format) format args _ reason (le_n _) H). reflexivity.
Qed.

(** a conversion in the path of the file reads the name of the function *)
Lemma message_path : forall num ptr p1 c p2 line func w, no_percent p1 -> c <> "%"%char -> c <> "s"%char ->
  message num ptr (p1 ++ String "%" (String c p2)) line func w = UB.
Proof.
  intros num ptr p1 c p2 line func w HP N1 N2. unfold message, abort_if_arguments.
  assert (G : forall format args, printf num ptr (fst (helper (p1 ++ String "%" (String c p2)) line func format args))
     (snd (helper (p1 ++ String "%" (String c p2)) line func format args)) = UB).
  { intros format args. unfold helper, file_line. cbn [fst snd]. rewrite !app_assoc_s.
    rewrite (printf_plain num ptr "[ERROR]") by plain.
    rewrite (printf_plain num ptr newline) by plain.
    rewrite (printf_plain num ptr "file: ") by plain.
    rewrite (printf_plain num ptr p1) by exact HP.
    match goal with |- context [printf num ptr (String "%" (String c p2) ++ ?r)] =>
      change (String "%" (String c p2) ++ r) with (String "%" (String c (p2 ++ r))) end.
    cbn [printf]. change (Ascii.eqb "%" "%") with true. cbv iota.
    destruct (Ascii.eqb_spec c "%"); [contradiction|]. cbn [convert].
    destruct (Ascii.eqb_spec c "s"); [contradiction|]. reflexivity. }
  destruct w as [|format args].
  - specialize (G "" [AStr ""]).
    destruct (helper (p1 ++ String "%" (String c p2)) line func "" [AStr ""]) as [f a]. exact G.
  - specialize (G format (args ++ [AStr ""; AStr ""])%list).
    destruct (helper (p1 ++ String "%" (String c p2)) line func format (args ++ [AStr ""; AStr ""])%list) as [f a]. exact G.
Qed.

Lemma message_bad_path : forall num ptr p1 c p2 line func w, no_percent p1 -> not_for_strings c ->
  message num ptr (p1 ++ String "%" (String c p2)) line func w = UB.
Proof.
  intros num ptr p1 c p2 line func w HP HC. apply message_path; [exact HP| |];
    intros ->; cbn in HC; repeat (destruct HC as [HC|HC]; [discriminate|]); exact HC.
Qed.

(** the strings among the arguments that are printed *)
Fixpoint room (l : list string) : nat :=
  match l with [] => 0 | x :: l' => (String.length x + room l')%nat end.
Lemma room_app : forall a b, room (a ++ b)%list = (room a + room b)%nat.
Proof. induction a; intros; cbn [room app]; [reflexivity|]. rewrite IHa. lia. Qed.
Lemma app_length_s : forall a b, String.length (a ++ b) = (String.length a + String.length b)%nat.
Proof. induction a; intros; cbn [String.length append]; [reflexivity|]. rewrite IHa. lia. Qed.

(** printing a text with conversions before a line end: every conversion makes it shorter,
    apart from the strings it takes *)
Lemma path_part : forall num ptr n path rest strs r, (String.length path <= n)%nat ->
  printf num ptr (path ++ newline ++ rest) (map AStr strs) = Ok r ->
  exists used strs' r1 r2, strs = (used ++ strs')%list /\ r = r1 ++ r2 /\
    printf num ptr (newline ++ rest) (map AStr strs') = Ok r2 /\
    (String.length r1 <= String.length path + room used)%nat /\
    (no_percent path \/ (String.length r1 < String.length path + room used)%nat).
Proof.
  induction n as [|n IH]; intros path rest strs r L H.
  - destruct path; [|cbn in L; lia]. exists [], strs, "", r.
    split; [reflexivity|]. split; [reflexivity|]. split; [exact H|]. cbn. split; [lia|left; exact I].
  - destruct path as [|c path].
    { exists [], strs, "", r. split; [reflexivity|]. split; [reflexivity|]. split; [exact H|].
      cbn. split; [lia|left; exact I]. }
    cbn [String.length] in L.
    change (String c path ++ newline ++ rest) with (String c (path ++ newline ++ rest)) in H.
    cbn [printf] in H. destruct (Ascii.eqb_spec c "%") as [->|N].
    + destruct path as [|d path].
      * cbn [append newline] in H. cbn [Ascii.eqb Bool.eqb] in H.
        change (Ascii.eqb (ascii_of_nat 10) "%") with false in H. cbv iota in H.
        destruct strs; cbn [map convert bind] in H; [discriminate|].
        change (Ascii.eqb (ascii_of_nat 10) "s") with false in H. cbn [bind] in H. discriminate.
      * cbn [String.length] in L. cbn [append] in H. destruct (Ascii.eqb_spec d "%") as [->|M].
        -- destruct (printf num ptr (path ++ newline ++ rest) (map AStr strs)) as [q| | |] eqn:E;
             cbn [bind] in H; try discriminate. injection H as <-.
           destruct (IH path rest strs q) as [u [s' [r1 [r2 [E1 [E2 [E3 [E4 _]]]]]]]]; [lia|exact E|].
           exists u, s', (String "%" r1), r2. subst. cbn [String.length].
           split; [reflexivity|]. split; [reflexivity|]. split; [exact E3|]. split; [|right]; lia.
        -- destruct strs as [|x strs]; cbn [map] in H; [discriminate|]. cbn [convert] in H.
           destruct (Ascii.eqb d "s"); cbn [bind] in H; [|discriminate].
           destruct (printf num ptr (path ++ newline ++ rest) (map AStr strs)) as [q| | |] eqn:E;
             cbn [bind] in H; try discriminate. injection H as <-.
           destruct (IH path rest strs q) as [u [s' [r1 [r2 [E1 [E2 [E3 [E4 _]]]]]]]]; [lia|exact E|].
           exists (x :: u), s', (x ++ r1), r2. subst. cbn [String.length room]. rewrite app_length_s.
           split; [reflexivity|]. split; [symmetry; apply app_assoc_s|]. split; [exact E3|]. split; [|right]; lia.
    + destruct (printf num ptr (path ++ newline ++ rest) (map AStr strs)) as [q| | |] eqn:E;
        cbn [bind] in H; try discriminate. injection H as <-.
      destruct (IH path rest strs q) as [u [s' [r1 [r2 [E1 [E2 [E3 [E4 E5]]]]]]]]; [lia|exact E|].
      exists u, s', (String c r1), r2. subst. cbn [String.length].
      split; [reflexivity|]. split; [reflexivity|]. split; [exact E3|]. split; [lia|].
      destruct E5 as [E5|E5]; [left; split; auto|right; lia].
Qed.

Lemma helper_path : forall num ptr path line func format reason blanks, no_percent line ->
  printf num ptr format [] = Ok reason -> (forall x, In x blanks -> x = "") ->
  printf num ptr (fst (helper path line func format (map AStr blanks))) (AStr func :: map AStr blanks) =
    Ok (expected path line func reason) -> no_percent path.
Proof.
  intros num ptr path line func format reason blanks HL HF HB H.
  unfold helper, file_line, expected in H. cbn [fst] in H.
  rewrite !app_assoc_s in H.
  rewrite (printf_plain num ptr "[ERROR]") in H by plain.
  rewrite (printf_plain num ptr newline) in H by plain.
  rewrite (printf_plain num ptr "file: ") in H by plain.
  change (AStr func :: map AStr blanks) with (map AStr (func :: blanks)) in H.
  match type of H with context [printf num ptr ?f ?a] =>
    destruct (printf num ptr f a) as [t| | |] eqn:E end; cbn [bind] in H; try discriminate.
  injection H as H.
  destruct (path_part num ptr (String.length path) path _ (func :: blanks) t (le_n _) E)
    as [used [strs [r1 [r2 [E1 [E2 [E3 [_ [E5|E5]]]]]]]]]; [exact E5|exfalso].
  rewrite (printf_plain num ptr newline) in E3 by plain.
  rewrite (printf_plain num ptr "line: ") in E3 by plain.
  rewrite (printf_plain num ptr line) in E3 by exact HL.
  rewrite (printf_plain num ptr newline) in E3 by plain.
  change ("func: %s" ++ format) with ("func: " ++ String "%" (String "s" format)) in E3.
  rewrite (printf_plain num ptr "func: ") in E3 by plain.
  destruct strs as [|x strs]; [discriminate E3|].
  cbn [map] in E3. rewrite printf_conv in E3 by discriminate.
  cbn [convert Ascii.eqb Bool.eqb bind] in E3.
  assert (F : printf num ptr format (map AStr strs) = Ok reason).
  { change (map AStr strs) with ([] ++ map AStr strs)%list. apply (printf_extra num ptr (String.length format)); [lia|exact HF]. }
  rewrite F in E3. cbn [bind] in E3. injection E3 as E3.
  assert (B : room blanks = 0%nat).
  { clear -HB. induction blanks as [|b l IHl]; [reflexivity|]. cbn [room].
    rewrite (HB b) by (left; reflexivity). rewrite IHl; [reflexivity|]. intros y Hy. apply HB. right. exact Hy. }
  assert (R : (room used + String.length x <= String.length func)%nat).
  { assert (Q : room (func :: blanks) = room (used ++ x :: strs)%list) by (rewrite E1; reflexivity).
    rewrite room_app in Q. cbn [room] in Q. rewrite B in Q. lia. }
  assert (Q : String.length (r1 ++ r2) =
    String.length (path ++ newline ++ "line: " ++ line ++ newline ++ "func: " ++ func ++ reason)).
  { rewrite <- E2. f_equal. exact H. }
  assert (Q2 : String.length r2 =
    String.length (newline ++ "line: " ++ line ++ newline ++ "func: " ++ x ++ reason)).
  { f_equal. symmetry. exact E3. }
  rewrite !app_length_s in Q, Q2. change (String.length newline) with 1%nat in Q, Q2.
  change (String.length "line: ") with 6%nat in Q, Q2. change (String.length "func: ") with 6%nat in Q, Q2. 
  rewrite ?(app_length_s "func: "), ?(app_length_s func) in Q. cbn [String.length] in Q. lia.
Qed.

(** a message whose reason takes no arguments is right exactly when there is no % in the
    path *)
Lemma message_exact : forall num ptr path line func, no_percent line ->
  (message num ptr path line func NoReason = Ok (expected path line func "") <-> no_percent path) /\
  forall format reason, printf num ptr format [] = Ok reason ->
    (message num ptr path line func (Reason format []) = Ok (expected path line func reason) <-> no_percent path).
Proof.
  intros num ptr path line func HL. apply conj.
  - apply conj.
    + intros H. apply (helper_path num ptr path line func "" "" [""] HL); [reflexivity| |exact H].
      intros x [<-|[]]. reflexivity.
    + intros HP. exact (proj1 (message_text num ptr path line func HP HL)).
  - intros format reason HF. apply conj.
    + intros H. apply (helper_path num ptr path line func format reason [""; ""] HL HF); [|exact H].
      intros x [<-|[<-|[]]]; reflexivity.
    + intros HP. exact (proj2 (message_text num ptr path line func HP HL) format [] reason HF).
Qed.

Lemma message_exact_plain : forall num ptr path line func, plain_conversions path -> no_percent line ->
  (message num ptr path line func NoReason = Ok (expected path line func "") <-> no_percent path) /\
  forall format reason, printf num ptr format [] = Ok reason ->
    (message num ptr path line func (Reason format []) = Ok (expected path line func reason) <-> no_percent path).
Proof. intros num ptr path line func _. exact (message_exact num ptr path line func). Qed.

(** * simple_resource *)

Lemma reason_text : forall num ptr path line func format args, no_percent path -> no_percent line ->
  message num ptr path line func (Reason format args) =
  r <- printf num ptr format (args ++ [AStr ""; AStr ""])%list;; Ok (expected path line func r).
Proof.
  intros num ptr path line func format args HP HL. unfold message, abort_if_arguments.
  pose proof (helper_message num ptr path line func format (args ++ [AStr ""; AStr ""])%list HP HL) as E.
  destruct (helper path line func format (args ++ [AStr ""; AStr ""])%list) as [f a]. exact E.
Qed.

Lemma wrong_types : forall num ptr path line func busy p bs, no_percent path -> no_percent line ->
  message num ptr path line func (still_busy busy) = UB /\
  message num ptr path line func (not_aligned p bs) = UB.
Proof.
  intros num ptr path line func busy p bs HP HL. unfold still_busy, not_aligned.
  rewrite !reason_text by auto. split; reflexivity.
Qed.

Lemma boundary_text : forall num ptr path line func p q, no_percent path -> no_percent line ->
  message num ptr path line func (below p q) = Ok (expected path line func
    (newline ++ "reason: deallocating pointer(" ++ ptr p ++ ") is less than simple_resource's left boundary(" ++ ptr q ++ ")")) /\
  message num ptr path line func (above p q) = Ok (expected path line func
    (newline ++ "reason: deallocating pointer(" ++ ptr p ++ ") is more than simple_resource's right boundary(" ++ ptr q ++ ")")).
Proof.
  intros num ptr path line func p q HP HL. unfold below, above.
  rewrite !reason_text by auto. split; reflexivity.
Qed.

Lemma index_text : forall num ptr path line func t i, no_percent path -> no_percent line -> std_ity t -> sgn t = false ->
  inty t i ->
  (bits t <= 16 \/ (bits t = 32 /\ (i < 2 ^ 31)%Z) ->
     message num ptr path line func (not_in_use t i) = Ok (expected path line func
       (newline ++ "reason: trying to deallocate block(" ++ num i ++ ") that was not marked as allocated"))) /\
  (~ (bits t <= 16 \/ (bits t = 32 /\ (i < 2 ^ 31)%Z)) -> message num ptr path line func (not_in_use t i) = UB).
Proof.
  intros num ptr path line func t i HP HL HT HS HI. unfold not_in_use. rewrite !reason_text by auto.
  set (ok := ity_eqb (promote t) i32 || (ity_eqb (promote t) u32 && (i <? 2 ^ 31)%Z)).
  assert (E : printf num ptr (newline ++ "reason: trying to deallocate block(%d) that was not marked as allocated")
      ([ANum t i] ++ [AStr ""; AStr ""])%list =
    if ok then Ok (newline ++ "reason: trying to deallocate block(" ++ num i ++ ") that was not marked as allocated") else UB).
  { change (newline ++ "reason: trying to deallocate block(%d) that was not marked as allocated") with
      ((newline ++ "reason: trying to deallocate block(") ++ String "%" (String "d" ") that was not marked as allocated")).
    rewrite (printf_plain num ptr (newline ++ "reason: trying to deallocate block(")) by plain.
    cbn [app]. rewrite printf_conv by discriminate. rewrite printf_all_plain by plain. unfold ok.
    cbn [convert]. change (Ascii.eqb "d" "d") with true. cbv iota.
    destruct (ity_eqb (promote t) i32 || (ity_eqb (promote t) u32 && (i <? 2 ^ 31)%Z)); reflexivity. }
  rewrite E.
  assert (K : ok = true <-> bits t <= 16 \/ bits t = 32 /\ (i < 2 ^ 31)%Z).
  { unfold ok. destruct t as [w s]. cbn [bits sgn] in *. subst s.
    destruct HT as [H|[H|[H|H]]]; cbn [bits] in H; subst w.
    - cbn. split; auto; lia.
    - cbn. split; auto; lia.
    - change (ity_eqb (promote (Ity 32 false)) i32) with false. change (ity_eqb (promote (Ity 32 false)) u32) with true.
      cbn [orb andb]. rewrite Z.ltb_lt. lia.
    - change (ity_eqb (promote (Ity 64 false)) i32) with false. change (ity_eqb (promote (Ity 64 false)) u32) with false.
      cbn [orb andb]. split; [discriminate|lia]. }
  destruct ok.
  - split; [reflexivity|]. intros N. exfalso. apply N. apply K. reflexivity.
  - split; [|reflexivity]. intros H. apply K in H. discriminate.
Qed.

Lemma block_text : forall num ptr path line func c i, no_percent path -> no_percent line -> cfg_ok c -> 0 <= i < MB c ->
  ((MB c <= 2 ^ 32)%Z /\ (i < 2 ^ 31)%Z ->
     message num ptr path line func (not_in_use (Ity (iw c) false) i) = Ok (expected path line func
       (newline ++ "reason: trying to deallocate block(" ++ num i ++ ") that was not marked as allocated"))) /\
  (~ ((MB c <= 2 ^ 32)%Z /\ (i < 2 ^ 31)%Z) -> message num ptr path line func (not_in_use (Ity (iw c) false) i) = UB).
Proof.
  intros num ptr path line func c i HP HL HC Hi.
  assert (W : std_ity (Ity (iw c) false) /\ ((iw c <= 32) <-> (MB c <= 2 ^ 32)%Z) /\ ((iw c <= 16) -> (MB c <= 2 ^ 16)%Z)).
  { destruct HC as [H _ _]. unfold iw. rewrite bits_count_value by lia.
    destruct (Z.eqb_spec (MB c - 1) 0) as [E|N]; [lia|].
    assert (L : Z.log2 (MB c - 1) < 64) by (apply Z.log2_lt_pow2; lia).
    assert (L0 := Z.log2_nonneg (MB c - 1)).
    assert (M : (2 ^ Z.log2 (MB c - 1) <= MB c - 1 < 2 ^ (Z.log2 (MB c - 1) + 1))%Z).
    { assert (K := Z.log2_spec (MB c - 1)). unfold Z.succ in K. apply K. lia. }
    destruct (proj1 (ArithProofs.uint_from_nbits_spec (Z.log2 (MB c - 1) + 1)) ltac:(lia)) as [t [E [_ [Hin [Hle Hleast]]]]].
    rewrite E. split; [|split].
    - unfold std_ity. cbn [bits]. cbn [In] in Hin. lia.
    - split; intros Q.
      + assert (2 ^ (Z.log2 (MB c - 1) + 1) <= 2 ^ 32)%Z by (apply Z.pow_le_mono_r; lia). lia.
      + apply Hleast; [cbn; auto|]. assert (Z.log2 (MB c - 1) < 32) by (apply Z.log2_lt_pow2; lia). lia.
    - intros Q. assert (2 ^ (Z.log2 (MB c - 1) + 1) <= 2 ^ 16)%Z by (apply Z.pow_le_mono_r; lia). lia. }
  destruct W as [W1 [W2 W3]].
  destruct (iw_spec c HC) as [P1 P2].
  destruct (index_text num ptr path line func (Ity (iw c) false) i HP HL W1 eq_refl) as [A B].
  { unfold inty, minv, maxv. cbn [sgn bits]. lia. }
  cbn [bits] in A, B. split; intros H.
  - apply A. destruct W1 as [w|[w|[w|w]]]; cbn [bits] in w; lia.
  - apply B. intros Q. apply H. destruct Q as [Q|[Q1 Q2]].
    + specialize (W3 Q). lia.
    + split; [|exact Q2]. apply W2. lia.
Qed.
