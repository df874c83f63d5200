(** Properties C48 and C87: padding_checker.h. *)

Require Import List Bool Arith Lia.
Require Import Verif.PaddingSpec Verif.PaddingModel Verif.PaddingProofs.
Import ListNotations.

(** ** C48 *)

(** for every type built from scalars by nested aggregates has_padding compiles, and it
    is false exactly when every byte belongs to exactly one scalar *)
Theorem C48_exact : forall t, wf t -> from_aggregates t -> exists r, has_padding t = Some r /\
  (r = false <-> forall b, b < size t -> owners t b = 1).
Proof. exact padding_exact. Qed.
Print Assumptions C48_exact.

(** the layout of the specification never puts two scalars on one byte *)
Theorem C48_layout : forall t b, wf t -> owners t b <= 1.
Proof. exact owners_le. Qed.
Print Assumptions C48_layout.

(** struct { int a; struct { short b; char c; } n; } on the one hand and
    struct { int a; struct { short b, c; } n; } on the other *)
Definition int4 := Scalar 4 4.
Definition short2 := Scalar 2 2.
Definition char1 := Scalar 1 1.
Example C48_instance :
  let t := Aggregate [int4; Aggregate [short2; char1]] in
  let u := Aggregate [int4; Aggregate [short2; short2]] in
  wf t /\ from_aggregates t /\ has_padding t = Some true /\ size t = 8 /\ owners t 7 = 0 /\ owners t 6 = 1 /\
  wf u /\ from_aggregates u /\ has_padding u = Some false /\ size u = 8 /\
  size (Aggregate [char1; int4; char1]) = 12.
Proof. cbn. repeat split; auto; try lia; discriminate. Qed.

(** ** C87 *)

(** no false alarm: for every trivially copyable type, aggregate or not, an answer true
    means that there is a padding byte *)
Theorem C87_no_false_alarm_partial : forall t, wf t -> trivially_copyable t = true ->
  has_padding t = Some true -> padding_byte t.
Proof. exact padding_sound. Qed.
Print Assumptions C87_no_false_alarm_partial.

Example C87_instance :
  let t := Aggregate [NonAggregate true [short2]; int4] in
  wf t /\ trivially_copyable t = true /\ has_padding t = Some true /\ owners t 2 = 0.
Proof. cbn. repeat split; auto; lia. Qed.

(** the exact answer, for every type: no padding is reported exactly for the trivially
    copyable types all of whose bytes belong to one scalar or to one class that is no
    aggregate, taken as a whole; and has_padding does not compile exactly for the trivially
    copyable types in which an empty aggregate is met *)
Theorem C87_exact_partial : forall t, wf t ->
  (has_padding t = Some false <->
     trivially_copyable t = true /\ ~ reaches_empty t /\
     forall b, b < size t -> length (filter (covers b) (pieces t 0)) = 1) /\
  (has_padding t = None <-> trivially_copyable t = true /\ reaches_empty t).
Proof. intros t W. exact (conj (padding_false t W) (padding_compiles t)). Qed.
Print Assumptions C87_exact_partial.

Example C87_exact_instance :
  let t := Aggregate [NonAggregate true [char1; int4]; int4] in
  wf t /\ has_padding t = Some false /\ pieces t 0 = [(0, 8); (8, 4)] /\ scalars t 0 = [(0, 1); (4, 4); (8, 4)] /\
  reaches_empty (Aggregate [int4; Aggregate [char1; Aggregate []]]) /\
  ~ reaches_empty (NonAggregate true [Aggregate []]).
Proof. cbn. repeat split; auto; try lia. right. right. left. right. right. left. left. reflexivity. Qed.

(** but padding inside a trivially copyable class with a constructor is not seen:
    class { char c; int i; public: constexpr X(char, int); }; no such class is ever
    reported, whatever its members are *)
Theorem C87_nonaggregate_refuted :
  (forall ms, has_padding (NonAggregate true ms) = Some false) /\
  (exists ms, wf (NonAggregate true ms) /\ padding_byte (NonAggregate true ms)).
Proof.
  split; [exact padding_nonaggregate|].
  exists [char1; int4]. cbn. repeat split; auto; try lia.
  exists 1. cbn. split; [lia|reflexivity].
Qed.
Print Assumptions C87_nonaggregate_refuted.

(** nor inside an aggregate that has such a class as a member *)
Theorem C87_nested_refuted : exists t, wf t /\ trivially_copyable t = true /\
  has_padding (Aggregate [int4; t]) = Some false /\ padding_byte (Aggregate [int4; t]).
Proof.
  exists (NonAggregate true [char1; int4]). cbn. repeat split; auto; try lia.
  exists 5. cbn. split; [lia|reflexivity].
Qed.
Print Assumptions C87_nested_refuted.

(** and a trivially copyable aggregate that has an empty struct among its members is
    rejected by the compiler *)
Theorem C87_empty_refuted : forall before after, trivially_copyable (Aggregate (before ++ Aggregate [] :: after)) = true ->
  has_padding (Aggregate (before ++ Aggregate [] :: after)) = None.
Proof. exact empty_rejected. Qed.
Print Assumptions C87_empty_refuted.

Example C87_empty_instance : trivially_copyable (Aggregate ([int4] ++ Aggregate [] :: [])) = true.
Proof. reflexivity. Qed.

(** ** C101 *)

(** has_padding compiles and is true for every type that is not trivially copyable *)
Theorem C101_not_trivially_copyable : forall t, trivially_copyable t = false -> has_padding t = Some true.
Proof. exact padding_not_trivial. Qed.
Print Assumptions C101_not_trivially_copyable.

Example C101_instance :
  let t := Aggregate [int4; NonAggregate false [int4]; Aggregate []] in
  trivially_copyable t = false /\ has_padding t = Some true /\ has_padding (NonAggregate false [int4]) = Some true.
Proof. cbn. auto. Qed.
