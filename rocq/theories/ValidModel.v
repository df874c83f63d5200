(** Model of is_valid_range (common.h) for Begin, End and Step of three integer types. *)

Require Import ZArith Bool.
Require Import Verif.Outcome Verif.Machine Verif.ArithModel.
Open Scope Z_scope.

(** x == y for operands of types [a], [b] *)
Definition cmp_eq (a b : ity) (x y : Z) : bool := conv (usual a b) x =? conv (usual a b) y.

(** common.h:266-279 is_valid_range, is_valid_range_v.  CommonT is not used.  [None]: Begin +
    Step overflows where it is evaluated (behind [&&], so only if Begin < End), which is no
    constant expression. *)
Definition valid_range (tb te ts : ity) (b e st : Z) : option bool :=
  if cmp_lt tb te b e then
    match const (add tb ts b st) with
    | Some s => Some (cmp_lt tb (usual tb ts) b s || cmp_eq tb te b e)
    | None => None
    end
  else Some (cmp_eq tb te b e).
