(** C++ integer types and their arithmetic (LP64 data model).

    A type is identified by its width and its signedness; [long] and
    [long long] (both 64 bits) are identified.  Signed conversion wraps (two's
    complement, implementation defined before C++20 but what GCC, Clang and
    MSVC do); signed overflow is undefined behaviour. *)

Require Import ZArith Lia Bool.
Require Import Verif.Outcome.
Open Scope Z_scope.

Record ity : Type := Ity { bits : Z; sgn : bool }.

Definition u8 := Ity 8 false.
Definition u16 := Ity 16 false.
Definition u32 := Ity 32 false.
Definition u64 := Ity 64 false.
Definition i8 := Ity 8 true.
Definition i16 := Ity 16 true.
Definition i32 := Ity 32 true.
Definition i64 := Ity 64 true.

(** bool as the type of an operand: promoted to int, values 0 and 1.  A conversion of
    other values to it is not [conv]. *)
Definition bool_t := Ity 1 false.

(** The integer types the library is used with. *)
Definition std_ity (t : ity) : Prop :=
  bits t = 8 \/ bits t = 16 \/ bits t = 32 \/ bits t = 64.

Definition ity_eqb (a b : ity) : bool :=
  (bits a =? bits b) && Bool.eqb (sgn a) (sgn b).

(** Unsigned wrap-around to [w] bits. *)
Definition wrap (w x : Z) : Z := x mod 2 ^ w.

(** Two's complement reading of the low [w] bits. *)
Definition swrap (w x : Z) : Z :=
  let m := x mod 2 ^ w in if m <? 2 ^ (w - 1) then m else m - 2 ^ w.

(** static_cast<t>(x) *)
Definition conv (t : ity) (x : Z) : Z :=
  if sgn t then swrap (bits t) x else wrap (bits t) x.

Definition minv (t : ity) : Z := if sgn t then - 2 ^ (bits t - 1) else 0.
Definition maxv (t : ity) : Z :=
  if sgn t then 2 ^ (bits t - 1) - 1 else 2 ^ bits t - 1.

(** x is a value of type t *)
Definition inty (t : ity) (x : Z) : Prop := minv t <= x <= maxv t.
Definition intyb (t : ity) (x : Z) : bool := (minv t <=? x) && (x <=? maxv t).

(** [dcl.init.list]: converting a non-constant integer inside braces is ill-formed
    unless the target can represent every value of the source type. *)
Definition no_narrowing (from to : ity) : bool :=
  (minv to <=? minv from) && (maxv from <=? maxv to).

(** Integral promotion [conv.prom]. *)
Definition promote (t : ity) : ity := if bits t <? 32 then i32 else t.

(** Usual arithmetic conversions [expr.arith.conv] of promoted types. *)
Definition usual (a b : ity) : ity :=
  let a := promote a in
  let b := promote b in
  if bits a <? bits b then b
  else if bits b <? bits a then a
  else if sgn a then b else a.

(** std::common_type_t<a,b>: the type itself when both are the same type
    (decay of [false ? a : b]), the usual arithmetic conversion otherwise. *)
Definition common (a b : ity) : ity := if ity_eqb a b then a else usual a b.

(** The value of an arithmetic expression of (promoted) type [t] whose
    mathematical value is [x]: wraps when unsigned, UB on signed overflow. *)
Definition arith (t : ity) (x : Z) : res Z :=
  if sgn t then (if intyb t x then Ok x else UB) else Ok (wrap (bits t) x).

(** [a << n] in the promoted type [t], C++17 [expr.shift]: undefined when [n] is
    not less than the width; for a signed operand undefined when [a] is
    negative or [a*2^n] does not fit the corresponding unsigned type. *)
Definition shl (t : ity) (a n : Z) : res Z :=
  if (n <? 0) || (bits t <=? n) then UB
  else if sgn t then
    if (a <? 0) || (2 ^ bits t <=? a * 2 ^ n) then UB
    else Ok (conv t (a * 2 ^ n))
  else Ok (wrap (bits t) (a * 2 ^ n)).

(** [a >> n]: arithmetic shift (implementation defined for negative [a] before
    C++20; arithmetic on all supported compilers). *)
Definition shr (t : ity) (a n : Z) : res Z :=
  if (n <? 0) || (bits t <=? n) then UB else Ok (a / 2 ^ n).

(** -a in promoted type [t] *)
Definition neg (t : ity) (a : Z) : res Z := arith t (- a).

Lemma wrap_range : forall w x, 0 <= w -> 0 <= wrap w x < 2 ^ w.
Proof. intros. unfold wrap. apply Z.mod_pos_bound. apply Z.pow_pos_nonneg; lia. Qed.

Lemma wrap_id : forall w x, 0 <= x < 2 ^ w -> wrap w x = x.
Proof. intros. unfold wrap. apply Z.mod_small; auto. Qed.

Lemma pow_split : forall w, 0 < w -> 2 ^ w = 2 * 2 ^ (w - 1).
Proof.
  intros. replace w with (Z.succ (w - 1)) at 1 by lia.
  rewrite Z.pow_succ_r by lia. reflexivity.
Qed.

Lemma swrap_id : forall w x, 0 < w -> - 2 ^ (w - 1) <= x < 2 ^ (w - 1) -> swrap w x = x.
Proof.
  intros w x Hw Hx. unfold swrap.
  pose proof (pow_split w Hw) as E.
  assert (0 < 2 ^ (w - 1)) by (apply Z.pow_pos_nonneg; lia).
  destruct (Z_lt_le_dec x 0).
  - assert (x mod 2 ^ w = x + 2 ^ w).
    { symmetry. apply Z.mod_unique with (-1); lia. }
    rewrite H0. destruct (Z.ltb_spec (x + 2 ^ w) (2 ^ (w - 1))); lia.
  - rewrite Z.mod_small by lia.
    destruct (Z.ltb_spec x (2 ^ (w - 1))); lia.
Qed.

Lemma swrap_range : forall w x, 0 < w -> - 2 ^ (w - 1) <= swrap w x < 2 ^ (w - 1).
Proof.
  intros w x Hw. unfold swrap.
  pose proof (pow_split w Hw) as E.
  assert (0 < 2 ^ (w - 1)) by (apply Z.pow_pos_nonneg; lia).
  pose proof (Z.mod_pos_bound x (2 ^ w)).
  destruct (Z.ltb_spec (x mod 2 ^ w) (2 ^ (w - 1))); lia.
Qed.

Lemma swrap_congr : forall w x, 0 < w -> (swrap w x) mod 2 ^ w = x mod 2 ^ w.
Proof.
  intros w x Hw. unfold swrap.
  assert (0 < 2 ^ w) by (apply Z.pow_pos_nonneg; lia).
  destruct (Z.ltb_spec (x mod 2 ^ w) (2 ^ (w - 1))).
  - apply Z.mod_mod; lia.
  - replace (x mod 2 ^ w - 2 ^ w) with (x mod 2 ^ w + (-1) * 2 ^ w) by ring.
    rewrite Z.mod_add by lia. apply Z.mod_mod; lia.
Qed.

Lemma conv_id : forall t x, 0 < bits t -> inty t x -> conv t x = x.
Proof.
  intros [w s] x Hw H. unfold conv, inty, minv, maxv in *; simpl in *.
  destruct s; [apply swrap_id | apply wrap_id]; lia.
Qed.

Lemma conv_inty : forall t x, 0 < bits t -> inty t (conv t x).
Proof.
  intros [w s] x Hw. unfold conv, inty, minv, maxv; simpl in *.
  destruct s.
  - pose proof (swrap_range w x Hw). lia.
  - pose proof (wrap_range w x). lia.
Qed.

Lemma conv_congr : forall t x, 0 < bits t -> (conv t x) mod 2 ^ bits t = x mod 2 ^ bits t.
Proof.
  intros [w s] x Hw. unfold conv; simpl in *. destruct s.
  - apply swrap_congr; auto.
  - unfold wrap. apply Z.mod_mod. assert (0 < 2 ^ w) by (apply Z.pow_pos_nonneg; lia). lia.
Qed.

Lemma conv_ext : forall t x y, x mod 2 ^ bits t = y mod 2 ^ bits t -> conv t x = conv t y.
Proof.
  intros [w s] x y H. unfold conv, swrap, wrap; simpl in *. rewrite H. reflexivity.
Qed.

Lemma intyb_spec : forall t x, intyb t x = true <-> inty t x.
Proof.
  intros. unfold intyb, inty. rewrite andb_true_iff, !Z.leb_le. tauto.
Qed.

Lemma std_bits_pos : forall t, std_ity t -> 0 < bits t.
Proof. unfold std_ity; intros; lia. Qed.
