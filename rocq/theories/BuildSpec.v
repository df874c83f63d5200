(** Debug builds and release builds.  Nothing here refers to the model. *)

Require Import Verif.Outcome.

(** One run of a debug build beside the same run of a release build.  If the debug
    build comes to an end, or never ends, so does the release build, with the same
    result.  Nothing is said about a release build whose debug build stops at a failed
    check or has undefined behaviour. *)
Definition agrees {A : Type} (debug release : res A) : Prop :=
  match debug with
  | Ok r => release = Ok r
  | Hang => release = Hang
  | Abort | UB => True
  end.

(** the same for something that may not compile: either both builds compile or none *)
Definition compiles_alike {A : Type} (debug release : option (res A)) : Prop :=
  match debug, release with
  | Some d, Some r => agrees d r
  | None, None => True
  | _, _ => False
  end.
