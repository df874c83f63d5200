(** C138: the library's headers leave the declarations of other headers where they belong. *)

Require Import List String.
Require Import Verif.UnitsSpec Verif.IncludeSpec Verif.IncludeModel Verif.NestSpec Verif.NestModel Verif.NestProofs.
Import ListNotations.
Open Scope string_scope.

(** not with MSVC: always, for every order of the lines and whatever the headers of the system
    read in turn *)
Theorem C138_global_partial : forall subs, complete subs -> forall u x, In x (asked subs u) ->
  place_of false subs u x = Some Global.
Proof. exact elsewhere_global. Qed.
Print Assumptions C138_global_partial.

(** with MSVC: for what intrin.h does not read; if the file begins with intrin.h; if it uses
    none of the seven headers that read clz.h or ctz.h *)
Theorem C138_others_partial : forall subs, complete subs -> forall u x, In x (asked subs u) ->
  ~ (x = "intrin.h" \/ In x (subs "intrin.h")) -> place_of true subs u x = Some Global.
Proof. exact msvc_others. Qed.
Print Assumptions C138_others_partial.

Theorem C138_first_partial : forall subs, complete subs -> forall u x, In x (asked subs (System "intrin.h" :: u)) ->
  place_of true subs (System "intrin.h" :: u) x = Some Global.
Proof. exact msvc_first. Qed.
Print Assumptions C138_first_partial.

Theorem C138_avoids_partial : forall subs, complete subs -> forall u x,
  (forall h, In (Own h) u -> ~ In h uses_intrinsics) ->
  In x (asked subs u) -> place_of true subs u x = Some Global.
Proof. exact msvc_avoids. Qed.
Print Assumptions C138_avoids_partial.

(** otherwise not: after any of the seven, <intrin.h> declares its functions in namespace utils,
    and the line the user writes for it declares nothing *)
Theorem C138_global_refuted : forall subs h, In h uses_intrinsics ->
  (forall s, s <> "intrin.h" -> ~ In "intrin.h" (subs s)) ->
  place_of true subs [Own h; System "intrin.h"] "intrin.h" = Some InUtils.
Proof. exact msvc_nested. Qed.
Print Assumptions C138_global_refuted.

(** Exactly when, for intrin.h and what it reads, as far as the headers the library itself asks
    for do not read that too: the user must have asked for it, or for a header that
    reads it, before the first of the seven. *)
Theorem C138_exact_partial : forall subs, complete subs -> forall x, x = "intrin.h" \/ In x (subs "intrin.h") ->
  (forall h s, In s (systems h) -> ~ In x (s :: subs s)) ->
  forall u, place_of true subs u x = Some Global <->
    exists u1 s u2, u = (u1 ++ System s :: u2)%list /\ In x (s :: subs s) /\ forall h, In (Own h) u1 -> ~ In h uses_intrinsics.
Proof. exact msvc_exact. Qed.
Print Assumptions C138_exact_partial.

(** intrin.h reads setjmp.h, which goes with it unless it was read before *)
Definition some_system : inner := fun s => if s =? "intrin.h" then ["setjmp.h"] else if s =? "vector" then ["cstddef"] else [].
Example C138_instance : complete some_system /\
  (forall s, s <> "intrin.h" -> ~ In "intrin.h" (some_system s)) /\
  map (place_of true some_system [System "vector"; Own H_simple; System "intrin.h"; System "setjmp.h"])
      ["vector"; "cstddef"; "bitset"; "intrin.h"; "setjmp.h"; "chrono"] =
    [Some Global; Some Global; Some Global; Some InUtils; Some InUtils; None] /\
  map (place_of true some_system [System "setjmp.h"; Own H_utils; System "intrin.h"])
      ["setjmp.h"; "intrin.h"; "chrono"] = [Some Global; Some InUtils; Some Global] /\
  map (place_of false some_system [Own H_utils; System "intrin.h"]) ["intrin.h"; "setjmp.h"] = [Some Global; Some Global] /\
  (forall h s, In s (systems h) -> ~ In "setjmp.h" (s :: some_system s)).
Proof.
  split.
  { intros s x. unfold some_system. destruct (String.eqb_spec s "intrin.h").
    - intros [<-|[]]. cbn. intros y [].
    - destruct (String.eqb_spec s "vector"); [intros [<-|[]]; cbn; intros y []|intros []]. }
  split.
  { intros s N. unfold some_system. destruct (String.eqb_spec s "intrin.h"); [contradiction|].
    destruct (String.eqb_spec s "vector"); cbn; intuition discriminate. }
  split; [vm_compute; reflexivity|]. split; [vm_compute; reflexivity|]. split; [vm_compute; reflexivity|].
  intros h s I. unfold some_system. destruct h; cbn [systems In] in I;
    repeat (destruct I as [<-|I]; [cbn; intuition discriminate|]); contradiction.
Qed.
