(** Concrete cases for C86. *)
From Coq Require Import String List Bool Arith Lia.
From Verif Require Import Prelude ReprM SpecRepr ReprFacts.
Import ListNotations.
Open Scope string_scope.
Open Scope nat_scope.
Open Scope list_scope.

(** A component that refers to the stepper using it, a composite with the component
    twice, the stepper with the composite, and a monitor with itself. *)
Definition h_ex : rheap :=
  [ Guarded "Rad" [("owner", FRef 2); ("order", FAtom "3")];
    composite_node "Composite" [FRef 0; FRef 0];
    Guarded "Stepper" [("prognostic", FRef 1)];
    Guarded "Monitor" [("me", FRef 3)] ].

Lemma ex_well_made : well_made h_ex /\ printable h_ex /\ deep h_ex 25.
Proof.
  split; [split|split].
  - intros i n j Hn Hj. do 4 (destruct i as [|i]; [simpl in Hn; injection Hn as <-; simpl in Hj; simpl;
      repeat destruct Hj as [Hj|Hj]; try discriminate; try (injection Hj as <-; lia); contradiction|]).
    simpl in Hn. destruct i; discriminate.
  - intros i op sep cl items j Hn Hj.
    do 4 (destruct i as [|i]; [simpl in Hn; try discriminate; injection Hn as <- <- <- <-; simpl in Hj;
      repeat destruct Hj as [Hj|Hj]; try discriminate; try (injection Hj as <-; lia); contradiction|]).
    simpl in Hn. destruct i; discriminate.
  - intros i n e Hn Hj. do 4 (destruct i as [|i]; [simpl in Hn; injection Hn as <-; simpl in Hj;
      repeat destruct Hj as [Hj|Hj]; try discriminate; contradiction|]).
    simpl in Hn. destruct i; discriminate.
  - unfold deep. simpl. lia.
Qed.

Lemma ex_printed :
  show 25 h_ex [] (FRef 2) = ([], Ok ("Stepper('prognostic': Composite(" ++ nl
    ++ "Rad('owner': Stepper(recursive reference)" ++ nl ++ "'order': 3)," ++ nl
    ++ "Rad('owner': Stepper(recursive reference)" ++ nl ++ "'order': 3)" ++ nl ++ "))")%string) /\
  show 25 h_ex [] (FRef 3) = ([], Ok "Monitor('me': Monitor(recursive reference))").
Proof. split; vm_compute; reflexivity. Qed.

(** The same object before and after the attribute that could not be printed is put
    right. *)
Definition h_bad : rheap := [Guarded "Rad" [("data", FFail EValue)]].
Definition h_good : rheap := [Guarded "Rad" [("data", FAtom "3")]].

Lemma ex_ends : well_made h_bad /\ deep h_bad 4 /\ show 4 h_bad [] (FRef 0) = ([0], Err EValue).
Proof.
  split; [split|split].
  - intros i n j Hn Hj. destruct i as [|i]; simpl in Hn; [injection Hn as <-; simpl in Hj; destruct Hj as [Hj|[]]; discriminate|].
    destruct i; discriminate.
  - intros i op sep cl items j Hn. destruct i as [|i]; simpl in Hn; [discriminate|]. destruct i; discriminate.
  - unfold deep; simpl; lia.
  - reflexivity.
Qed.

Lemma failed_repr_marks : exists h h' depth i busy e s, well_made h /\ well_made h' /\ printable h' /\
  deep h depth /\ deep h' depth /\ show depth h [] (FRef i) = (busy, Err e) /\
  show depth h' [] (FRef i) = ([], Ok s) /\ snd (show depth h' busy (FRef i)) <> Ok s.
Proof.
  exists h_bad, h_good, 4, 0, [0], EValue, "Rad('data': 3)".
  destruct ex_ends as (H1 & H2 & H3).
  split; [exact H1|]. split; [|split; [|split; [exact H2|]]].
  - split.
    + intros i n j Hn Hj. destruct i as [|i]; simpl in Hn; [injection Hn as <-; simpl in Hj; destruct Hj as [Hj|[]]; discriminate|].
      destruct i; discriminate.
    + intros i op sep cl items j Hn. destruct i as [|i]; simpl in Hn; [discriminate|]. destruct i; discriminate.
  - intros i n e Hn Hj. destruct i as [|i]; simpl in Hn; [injection Hn as <-; simpl in Hj; destruct Hj as [Hj|[]]; discriminate|].
    destruct i; discriminate.
  - split; [unfold deep; simpl; lia|]. split; [exact H3|]. split; [reflexivity|]. vm_compute. discriminate.
Qed.
