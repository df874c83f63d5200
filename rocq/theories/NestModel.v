(** Model of the preprocessor on the headers of the library, with the namespace in which each
    [#include <...>] line of theirs stands.  As in IncludeModel.v those of [systems] stand before
    any namespace is opened; clz.h:29-30 and ctz.h:28-29 stand inside namespace utils
    (clz.h:10-176, ctz.h:10-167) and count with MSVC only. *)

Require Import List String Bool.
Require Import Verif.UnitsSpec Verif.UnitsModel Verif.IncludeSpec Verif.IncludeModel Verif.NestSpec.
Import ListNotations.
Open Scope string_scope.

(** the headers of the library read so far, and where each header of the system was read *)
Record nreading := NReading { nread : list header; places : list (string * place) }.

(** no code: the place noted for a header of the system *)
Fixpoint place_in (l : list (string * place)) (x : string) : option place :=
  match l with [] => None | (y, p) :: l' => if String.eqb y x then Some p else place_in l' x end.

(** headers of the system have include guards: each is read once, where it is first asked for *)
Definition note (p : place) (l : list (string * place)) (x : string) : list (string * place) :=
  match place_in l x with Some _ => l | None => (x, p) :: l end.
Definition enter (subs : inner) (p : place) (s : string) (r : nreading) : nreading :=
  match place_in (places r) s with
  | Some _ => r
  | None => NReading (nread r) (fold_left (note p) (s :: subs s) (places r))
  end.

(** clz.h:29-30, ctz.h:28-29 *)
Definition inside (msvc : bool) (h : header) : list string :=
  match h with H_clz | H_ctz => if msvc then ["intrin.h"] else [] | _ => [] end.

(** include guards and depth as in UnitsModel.visit; #include <...> before #include "..." *)
Fixpoint ntake (msvc : bool) (subs : inner) (depth : nat) (h : header) (r : nreading) : nreading :=
  match depth with
  | O => r
  | S depth' =>
    if in_dec header_eq_dec h (nread r) then r
    else
      let r := fold_left (fun r s => enter subs Global s r) (systems h) r in
      let r := fold_left (fun r g => ntake msvc subs depth' g r) (direct h) r in
      let r := fold_left (fun r s => enter subs InUtils s r) (inside msvc h) r in
      NReading (h :: nread r) (places r)
  end.
Definition ntake_line (msvc : bool) (subs : inner) (r : nreading) (l : line) : nreading :=
  match l with System s => enter subs Global s r | Own h => ntake msvc subs 17 h r end.

(** where the text of the header [x] is read in a source file with these lines *)
Definition place_of (msvc : bool) (subs : inner) (u : list line) (x : string) : option place :=
  place_in (places (fold_left (ntake_line msvc subs) u (NReading [] []))) x.
