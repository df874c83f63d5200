(** What the results of clz and ctz are compared with.  Nothing here refers to the model. *)

Require Import ZArith List Bool.
Require Import Verif.BitsSpec.
Open Scope Z_scope.

(** the compilers clz.h and ctz.h tell apart, with the width of a pointer *)
Inductive compiler := Gcc64 | Gcc32 | Msvc64 | Msvc32.

(** a call is evaluated while compiling (as the initialiser of a constexpr variable, say) or
    when the program runs *)
Inductive phase := Compiling | Running.

(** the two questions *)
Inductive question := Leading | Trailing.

(** [n] is the right answer for the value [v] of [w] bits *)
Definition right_count (q : question) (w v n : Z) : Prop :=
  match q with
  | Leading => leading_zeros w v n
  | Trailing => trailing_zero_count v n
  end.

(** the widest operand, in bytes, the compiler has an intrinsic for *)
Definition widest_operand (c : compiler) : nat := match c with Msvc32 => 4 | _ => 8 end.
