(** Property theorems about repr() (C86). *)
From Coq Require Import String List Bool Arith.
From Verif Require Import Prelude ReprM SpecRepr ReprFacts Ex_Repr.
Import ListNotations.
Open Scope string_scope.
Open Scope nat_scope.
Open Scope list_scope.


(** C86: repr of any object ends, whatever refers to whatever, gives the text it should, and leaves no object marked. *)
Theorem c86_repr : forall h depth i, well_made h -> printable h -> i < length h -> deep h depth ->
  exists s, show depth h [] (FRef i) = ([], Ok s) /\ shows h [] (FRef i) s.
Proof. exact @repr_total. Qed.
Print Assumptions c86_repr.

(**  *)
Example c86_repr_hypotheses_met : well_made h_ex /\ printable h_ex /\ deep h_ex 25.
Proof. exact @ex_well_made. Qed.

(**  *)
Example c86_repr_case : show 25 h_ex [] (FRef 2) = ([], Ok ("Stepper('prognostic': Composite(" ++ nl
  ++ "Rad('owner': Stepper(recursive reference)" ++ nl ++ "'order': 3)," ++ nl
  ++ "Rad('owner': Stepper(recursive reference)" ++ nl ++ "'order': 3)" ++ nl ++ "))")%string) /\
  show 25 h_ex [] (FRef 3) = ([], Ok "Monitor('me': Monitor(recursive reference))").
Proof. exact @ex_printed. Qed.

(** C86: that text is determined. *)
Theorem c86_text : forall h path v s1, shows h path v s1 -> forall s2, shows h path v s2 -> s1 = s2.
Proof. exact @shows_fun. Qed.
Print Assumptions c86_text.

(** C86: printing changes nothing that can be seen. *)
Theorem c86_repeats : forall h depth is, well_made h -> printable h -> deep h depth ->
  (forall i, In i is -> i < length h) ->
  exists ss, prints depth h [] is = map Ok ss /\ Forall2 (fun i s => shows h [] (FRef i) s) is ss.
Proof. exact @repr_repeats. Qed.
Print Assumptions c86_repeats.

(** C86: without assuming that every attribute can be printed: the only exceptions are those of the attributes. *)
Theorem c86_ends : forall h depth i, well_made h -> i < length h -> deep h depth ->
  (exists s, show depth h [] (FRef i) = ([], Ok s) /\ shows h [] (FRef i) s) \/
  (exists busy e k n, show depth h [] (FRef i) = (busy, Err e) /\ nth_error h k = Some n /\ In (FFail e) (holds n)).
Proof. exact @repr_ends. Qed.
Print Assumptions c86_ends.

(**  *)
Example c86_ends_hypotheses_met : well_made h_bad /\ deep h_bad 4 /\ show 4 h_bad [] (FRef 0) = ([0], Err EValue).
Proof. exact @ex_ends. Qed.

(** C86 in full is false: after a print that raised, the object is printed as a reference to itself for ever. *)
Theorem c86_failed_refuted : exists h h' depth i busy e s, well_made h /\ well_made h' /\ printable h' /\
  deep h depth /\ deep h' depth /\ show depth h [] (FRef i) = (busy, Err e) /\
  show depth h' [] (FRef i) = ([], Ok s) /\ snd (show depth h' busy (FRef i)) <> Ok s.
Proof. exact @failed_repr_marks. Qed.
Print Assumptions c86_failed_refuted.
