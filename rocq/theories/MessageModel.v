(** Model of the messages printed before std::abort: the macros of common.h and their
    uses in memory/simple_resource.h. *)

Require Import ZArith List String Ascii Bool.
Require Import Verif.Outcome Verif.Machine.
Import ListNotations.
Open Scope Z_scope.
Open Scope string_scope.
Open Scope res_scope.

(** an argument after the ellipsis: a C string, a value of an integer type, a pointer
    to an object *)
Inductive arg : Type := AStr (s : string) | ANum (t : ity) (v : Z) | APtr (p : Z).

(** Trusted meaning of vfprintf (common.h:455), for the conversions %s, %d, %p and %%;
    the others, flags, widths, precisions and %p for a string are not modelled (the result
    UB means nothing for them, and the theorems exclude them).  A missing argument, or one of another type, is
    undefined behaviour (C11 7.21.6.1); %d takes what promotes to int, and an unsigned
    int with a value that int has too (7.16.1.1); superfluous arguments are ignored.
    Pointers to other objects than void are accepted for %p, as all platforms do.
    [num] and [ptr] are the implementation's notation. *)
Definition convert (num ptr : Z -> string) (c : ascii) (a : arg) : res string :=
  match a with
  | AStr s => if Ascii.eqb c "s" then Ok s else UB
  | ANum t v =>
    if Ascii.eqb c "d" then
      if ity_eqb (promote t) i32 || (ity_eqb (promote t) u32 && (v <? 2 ^ 31)%Z) then Ok (num v) else UB
    else UB
  | APtr p => if Ascii.eqb c "p" then Ok (ptr p) else UB
  end.
Fixpoint printf (num ptr : Z -> string) (f : string) (args : list arg) : res string :=
  match f with
  | EmptyString => Ok ""
  | String c f1 =>
    if Ascii.eqb c "%" then
      match f1 with
      | EmptyString => UB
      | String d f2 =>
        if Ascii.eqb d "%" then r <- printf num ptr f2 args;; Ok (String "%" r)
        else
          match args with
          | [] => UB
          | a :: args' => t <- convert num ptr d a;; r <- printf num ptr f2 args';; Ok (t ++ r)
          end
      end
    else r <- printf num ptr f1 args;; Ok (String c r)
  end.

(** the arguments of UTILS_ABORT_IF after the condition *)
Inductive why : Type := NoReason | Reason (format : string) (args : list arg).

(** the character \n of the formats in common.h:29-52 *)
Definition newline : string := String (ascii_of_nat 10) "".

(** common.h:29-52 UTILS_STRINGIFY, UTILS_STR, UTILS_FILE_LINE, UTILS_ABORT_IF and its helper: __FILE__
    and __LINE__ are pasted into the format, __PRETTY_FUNCTION__ (common.h:19-27) is an
    argument, and two empty strings are added to the macro's arguments *)
Definition file_line (path line : string) : string :=
  "file: " ++ path ++ newline ++ "line: " ++ line.
Definition helper (path line func : string) (format : string) (args : list arg) : string * list arg :=
  ("[ERROR]" ++ newline ++ file_line path line ++ newline ++ "func: %s" ++ format, AStr func :: args).
Definition abort_if_arguments (path line func : string) (w : why) : string * list arg :=
  match w with
  | NoReason => helper path line func "" [AStr ""]
  | Reason format args => helper path line func format (args ++ [AStr ""; AStr ""])
  end.
(** common.h:445-460 abort_if, the part before std::abort *)
Definition message (num ptr : Z -> string) (path line func : string) (w : why) : res string :=
  let (f, args) := abort_if_arguments path line func w in printf num ptr f args.

(** ** The messages of simple_resource *)

(** simple_resource.h:171-175, ~simple_resource: busy_count_ is a std::size_t *)
Definition still_busy (busy : Z) : why :=
  Reason (newline ++ "reason: simple_resource is being destroyed while %d of its regions are in use.") [ANum u64 busy].
(** simple_resource.h:341-345, deallocate_impl: BlockSize is a std::size_t *)
Definition not_aligned (p block_size : Z) : why :=
  Reason (newline ++ "reason: pointer(%p) which is being deallocated must be aligned at least as one block size(%d)")
    [APtr p; ANum u64 block_size].
(** simple_resource.h:359-363 and 365-371 *)
Definition below (p data : Z) : why :=
  Reason (newline ++ "reason: deallocating pointer(%p) is less than simple_resource's left boundary(%p)") [APtr p; APtr data].
Definition above (p end_ : Z) : why :=
  Reason (newline ++ "reason: deallocating pointer(%p) is more than simple_resource's right boundary(%p)") [APtr p; APtr end_].
(** simple_resource.h:378-381, deallocate_blocks: the index is of type BIndex *)
Definition not_in_use (bindex : ity) (i : Z) : why :=
  Reason (newline ++ "reason: trying to deallocate block(%d) that was not marked as allocated") [ANum bindex i].
