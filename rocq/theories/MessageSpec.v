(** The text a user expects on stderr when the library stops a program.  Nothing here
    refers to the model. *)

Require Import List String Ascii.
Open Scope string_scope.

Definition newline : string := String (ascii_of_nat 10) "".

(** [%] does not occur in the text *)
Fixpoint no_percent (s : string) : Prop :=
  match s with EmptyString => True | String c t => c <> "%"%char /\ no_percent t end.

(** where it happened, and why *)
Definition expected (path line func reason : string) : string :=
  "[ERROR]" ++ newline ++ "file: " ++ path ++ newline ++ "line: " ++ line ++ newline ++ "func: " ++ func ++ reason.

(** the conversions of C that must not be given a string *)
Definition not_for_strings (c : ascii) : Prop := In c (list_ascii_of_string "diouxXfFeEgGaAcn").

(** every conversion in the text is %%, %s or one of these, without flags, width or
    precision *)
Fixpoint plain_conversions (s : string) : Prop :=
  match s with
  | EmptyString => True
  | String c t =>
    if Ascii.eqb c "%" then
      match t with
      | EmptyString => True
      | String d u => (d = "%"%char \/ d = "s"%char \/ not_for_strings d) /\ plain_conversions u
      end
    else plain_conversions t
  end.
