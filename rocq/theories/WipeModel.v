(** Model of secure_zero_memory (memory.h:45-73) at run time, on every platform it has a
    branch for: the accesses it makes. *)

Require Import ZArith List Bool.
Require Import Verif.WipeSpec.
Import ListNotations.
Open Scope Z_scope.

(** memory.h:48-55 handmade_zero_mem: for (i = 0; i < aBufSize; ++i) *(aBuf + i) = std::byte{} *)
Fixpoint handmade_loop (p : Z) (i : Z) (n : nat) : list access :=
  match n with O => [] | S n' => Write (p + i) 0 :: handmade_loop p (i + 1) n' end.
Definition handmade_zero_mem (p : Z) (n : nat) : list access := handmade_loop p 0 n.

(** SecureZeroMemory by its contract: volatile writes, in increasing order *)
Fixpoint volatile_loop (p : Z) (n : nat) : list access :=
  match n with O => [] | S n' => Promised p 0 :: volatile_loop (p + 1) n' end.
Definition SecureZeroMemory (p : Z) (n : nat) : list access := volatile_loop p n.

(** memset_s(s, smax, c, n) by its contract (C11 K.3.7.4.1), for a runtime-constraint handler
    that returns: a null pointer or smax > RSIZE_MAX, nothing is written; n too large, smax
    bytes; else n bytes *)
Fixpoint promised_loop (p c : Z) (n : nat) : list access :=
  match n with O => [] | S n' => Promised p c :: promised_loop (p + 1) c n' end.
Definition memset_s (rsize_max s smax c n : Z) : list access :=
  if (s =? 0) || (rsize_max <? smax) then []
  else if (rsize_max <? n) || (smax <? n) then promised_loop s c (Z.to_nat smax)
  else promised_loop s c (Z.to_nat n).

(** memory.h:45-73 secure_zero_memory, the branch of 61-72.  That of 57-60 is for constant
    evaluation, which leaves no memory behind.  The functions of sysops::memory::ops are taken
    to be those of the system. *)
Definition secure_zero_memory (pl : platform) (p : Z) (n : nat) : list access :=
  match pl with   (* memory.h:63, 66 *)
  | Msvc => SecureZeroMemory p n
  | Ext1 rsize_max => memset_s rsize_max p (Z.of_nat n) 0 (Z.of_nat n)
  | Neither => handmade_zero_mem p n
  end.
