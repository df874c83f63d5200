(** Specification for C160: a monotonic_buffer_resource whose upstream is the system resource,
    as it is by default.  The calls of a client and what it sees are those of C159. *)

Require Import ZArith List Bool.
Require Import Verif.BitsSpec Verif.SimpleSpec Verif.HeapSpec Verif.FallSpec.
Import ListNotations.
Open Scope Z_scope.

(** alignments are powers of two; size, what is given back and what the heap answers are arbitrary *)
Definition power_aligned (o : fall_op) : Prop :=
  match o with FAllocate size align failed p => pow2 align | _ => True end.

(** the memory a client had from the heap: the answers, other than null, of the requests that
    were passed on, latest first *)
Fixpoint had (l : list Z) (es : list event) : list Z :=
  match es with
  | [] => l
  | EAllocate _ _ p (_ :: _) :: es' => had (if p =? 0 then l else p :: l) es'
  | _ :: es' => had l es'
  end.
