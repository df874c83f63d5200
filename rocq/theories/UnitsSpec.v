(** Programs of several translation units, and the rule of the language about what may be
    defined in more than one of them.  Nothing here refers to the model. *)

Require Import ZArith List String Arith.
Import ListNotations.

(** ** The one-definition rule ([basic.def.odr]) *)

Inductive linkage : Type :=
| Internal        (* a static function: each unit has its own *)
| External.       (* the name denotes the same entity in every unit *)

Inductive sharing : Type :=
| Once            (* an ordinary function or variable: one unit may define it *)
| EveryUnit.      (* inline, a class or a template: every unit may define it *)

(** a definition, with the names in it that are looked up where it stands *)
Record definition := Def { name : string; link : linkage; share : sharing; uses : list string }.

(** how an argument that is an array is passed, and its type: an array of [size] elements *)
Inductive passed : Type := Lvalue | ConstLvalue | Rvalue | ConstRvalue.
Record array_arg := Arr { element : nat; size : nat; how : passed }.

(** an instance of a function template, with the names in the template that depend on the
    arguments and are looked up where the instance is made *)
Record instance := Inst { template : string; arguments : list array_arg; dependent : list string }.

(** what the compiler sees: a unit after the preprocessor *)
Record tunit := Unit { definitions : list definition; instances : list instance }.

Definition internal_in (t : tunit) (n : string) : Prop :=
  exists d, In d (definitions t) /\ name d = n /\ link d = Internal.
(** the name denotes the same entity in two different units *)
Definition same_entity (t t' : tunit) (n : string) : Prop := ~ internal_in t n /\ ~ internal_in t' n.

Definition in_different_units (p : list tunit) (P : tunit -> tunit -> Prop) : Prop :=
  forall i j t t', i <> j -> nth_error p i = Some t -> nth_error p j = Some t' -> P t t'.

(** nothing is defined by two units that only one may define: the linker does not complain *)
Definition no_duplicates (p : list tunit) : Prop := in_different_units p (fun t t' =>
  forall d d', In d (definitions t) -> In d' (definitions t') -> name d = name d' ->
    link d = External -> link d' = External -> share d = EveryUnit /\ share d' = EveryUnit).

(** what two units define, they define alike: the same text, in which the same names denote
    the same entities; no compiler or linker has to complain otherwise *)
Definition alike (p : list tunit) : Prop := in_different_units p (fun t t' =>
  (forall d d', In d (definitions t) -> In d' (definitions t') -> name d = name d' ->
    link d = External -> link d' = External ->
    uses d = uses d' /\ forall n, In n (uses d) -> same_entity t t' n) /\
  (forall x x', In x (instances t) -> In x' (instances t') -> template x = template x' ->
    arguments x = arguments x' ->
    dependent x = dependent x' /\ forall n, In n (dependent x) -> same_entity t t' n)).

Definition one_definition (p : list tunit) : Prop := no_duplicates p /\ alike p.

(** ** The source files of a user *)

Inductive header : Type :=
| H_cartesian_product | H_clz | H_common | H_ctz | H_detector | H_cxz | H_fast_pimpl
| H_function_traits | H_allocator | H_memory | H_monotonic | H_simple | H_padding_checker
| H_timer | H_type_list | H_utils | H_value_list.

(** which headers give a file the array functions and the checks of common.h, and which
    the memory resources *)
Definition gives_common (h : header) : bool :=
  match h with H_common | H_clz | H_ctz | H_memory | H_allocator | H_monotonic | H_simple | H_utils => true | _ => false end.
Definition gives_resources (h : header) : bool :=
  match h with H_memory | H_allocator | H_monotonic | H_simple | H_utils => true | _ => false end.

(** A source file: the headers of the library it includes; the inline functions of the user
    that it defines (by including a header of theirs), with the names of the library they
    use; the calls of concatenate_arrays, by their arguments. *)
Record source := Source { includes : list header; own : list (string * list string); concatenations : list (list array_arg) }.

Definition includes_some (P : header -> bool) (s : source) : Prop := exists h, In h (includes s) /\ P h = true.

(** the functions of the library with internal linkage *)
Definition statics_of_common : list string :=
  ["details::concatenate_2_arrays"; "memvcmp"; "skip_to_align"; "skip_to_align<>"; "abort_if"]%string.
Definition statics_of_memory : list string :=
  ["memory::system_memory_resource"; "memory::null_memory_resource"; "memory::set_default_resource";
   "memory::get_default_resource"]%string.

(** the file includes what it uses; the names of its own functions are not those of the library *)
Definition complete (s : source) : Prop :=
  (concatenations s <> [] -> includes_some gives_common s) /\
  (forall f ns, In (f, ns) (own s) -> exists g, f = ("user::" ++ g)%string) /\
  (forall f ns n, In (f, ns) (own s) -> In n ns ->
    (In n statics_of_common -> includes_some gives_common s) /\
    (In n statics_of_memory -> includes_some gives_resources s)).
(** the user's functions are the same text wherever they are defined *)
Definition consistent (p : list source) : Prop :=
  forall s s' f ns ns', In s p -> In s' p -> In (f, ns) (own s) -> In (f, ns') (own s') -> ns = ns'.

(** Arrays are concatenated from the left, two at a time: the functions that the call needs
    take what is concatenated so far, and the rest. *)
Definition joined (l : list array_arg) : array_arg :=
  Arr (match l with a :: _ => element a | [] => 0 end) (list_sum (map size l)) Rvalue.
Definition needs (call l : list array_arg) : Prop :=
  (l = call /\ 2 <= List.length call) \/
  exists done rest, call = done ++ rest /\ 2 <= List.length done /\ rest <> [] /\ l = joined done :: rest.

(** Two source files are apart: at most one has the memory resources; they need no instance
    for concatenation in common; no inline function of the user that both define uses a
    static function of the library. *)
Definition apart (s s' : source) : Prop :=
  ~ (includes_some gives_resources s /\ includes_some gives_resources s') /\
  (forall c c' l, In c (concatenations s) -> In c' (concatenations s') -> needs c l -> ~ needs c' l) /\
  (forall f ns n, In (f, ns) (own s) -> In (f, ns) (own s') -> In n ns ->
     ~ In n statics_of_common /\ ~ In n statics_of_memory).
Definition all_apart (p : list source) : Prop :=
  forall i j s s', i <> j -> nth_error p i = Some s -> nth_error p j = Some s' -> apart s s'.

(** ** One system resource for the whole program?

    What a program does, in some unit, with the resources that have a function of their own
    and with the default resource. *)
Inductive which : Type := System | Null.
Inductive uop : Type :=
| UGet (u : nat) (w : which)             (* unit u calls system_memory_resource or null_memory_resource *)
| USetDefault (u : nat) (v : nat) (w : which)   (* unit u makes the resource that unit v gets the default *)
| UDefault (u : nat).                    (* unit u calls get_default_resource *)

(** what it sees of each call: unit u got resource r (set_default_resource returns the
    previous default) *)
Inductive uevent : Type := UResource (u : nat) (r : Z).

(** the default resource after some calls, by unit and function; at the start the one of the
    unit (number 0) whose initialisation of the default resource counts *)
Fixpoint default_before (current : nat * which) (ops : list uop) : nat * which :=
  match ops with
  | [] => current
  | USetDefault _ v w :: ops' => default_before (v, w) ops'
  | _ :: ops' => default_before current ops'
  end.
(** by which unit and function a call got what it sees, if [past] was before *)
Definition got (past : list uop) (o : uop) : nat * which :=
  match o with
  | UGet u w => (u, w)
  | USetDefault _ _ _ | UDefault _ => default_before (0, System) past
  end.
