(** Main theorems about the choice of the calendar (C62). *)
From Coq Require Import String Ascii List Bool Arith Lia.
From Verif Require Import Prelude PreludeFacts Calendar.
Import ListNotations.
Open Scope string_scope.
Open Scope nat_scope.
Open Scope list_scope.

(** ** Specification *)

(** Two letters are the same but for their case. *)
Definition same_letter (a b : ascii) : Prop :=
  a = b \/ (exists n, 65 <= n <= 90 /\ ((a = ascii_of_nat n /\ b = ascii_of_nat (n + 32)) \/ (b = ascii_of_nat n /\ a = ascii_of_nat (n + 32)))).

(** Two strings are the same but for the case of their letters. *)
Definition same_but_case (s t : string) : Prop := Forall2 same_letter (list_ascii_of_string s) (list_ascii_of_string t).

(** The calendars in the documentation of the function. *)
Definition documented : list (string * calendar) :=
  [("proleptic_gregorian", PythonDatetime); ("no_leap", NoLeap); ("365_day", NoLeap); ("all_leap", AllLeap); ("366_day", AllLeap);
   ("360_day", Day360); ("julian", Julian); ("gregorian", Gregorian)].

(** ** Proofs *)

Lemma lower_letter : forall n, 65 <= n <= 90 -> lower_char (ascii_of_nat n) = ascii_of_nat (n + 32) /\ lower_char (ascii_of_nat (n + 32)) = ascii_of_nat (n + 32).
Proof.
  intros n H. unfold lower_char. rewrite !nat_ascii_embedding by lia.
  assert (E1 : (65 <=? n) = true) by (apply Nat.leb_le; lia). assert (E2 : (n <=? 90) = true) by (apply Nat.leb_le; lia). rewrite E1, E2.
  assert (E3 : (n + 32 <=? 90) = false) by (apply Nat.leb_gt; lia). rewrite E3, andb_false_r. split; reflexivity.
Qed.

Lemma same_letter_lower : forall a b, same_letter a b <-> lower_char a = lower_char b.
Proof.
  intros a b. split.
  - intros [->|(n & Hn & [(-> & ->)|(-> & ->)])]; auto; destruct (lower_letter n Hn) as (E1 & E2); congruence.
  - intros H. unfold lower_char in H.
    pose proof (ascii_nat_embedding a) as Ea. pose proof (ascii_nat_embedding b) as Eb.
    pose proof (nat_ascii_bounded a) as Ba. pose proof (nat_ascii_bounded b) as Bb.
    set (n := nat_of_ascii a) in *. set (k := nat_of_ascii b) in *.
    destruct ((65 <=? n) && (n <=? 90)) eqn:Hn; destruct ((65 <=? k) && (k <=? 90)) eqn:Hk.
    + apply andb_true_iff in Hn as (Hn1 & Hn2), Hk as (Hk1 & Hk2). apply Nat.leb_le in Hn1, Hn2, Hk1, Hk2.
      left. rewrite <- Ea, <- Eb. f_equal. apply (f_equal nat_of_ascii) in H. rewrite !nat_ascii_embedding in H by lia. lia.
    + apply andb_true_iff in Hn as (Hn1 & Hn2). apply Nat.leb_le in Hn1, Hn2. right. exists n. split. lia. left. split; auto.
    + apply andb_true_iff in Hk as (Hk1 & Hk2). apply Nat.leb_le in Hk1, Hk2. right. exists k. split. lia. right. split; auto.
    + left. exact H.
Qed.

Lemma same_but_case_lower : forall s t, same_but_case s t <-> lower s = lower t.
Proof.
  unfold same_but_case. induction s as [|a s IH]; intros [|b t]; cbn [list_ascii_of_string lower].
  - split; auto.
  - split; intros H; [inversion H|discriminate H].
  - split; intros H; [inversion H|discriminate H].
  - split; intros H.
    + inversion H as [|? ? ? ? H1 H2]; subst. f_equal; [apply same_letter_lower; auto|apply IH; auto].
    + injection H as H1 H2. constructor; [apply same_letter_lower; auto|apply IH; auto].
Qed.

Section Make.
  Context {F Z D : Type} (construct : calendar -> F -> option Z -> res D).

  (** C62: for a documented calendar, however it is capitalised, the datetime is made in it. *)
  Theorem main_documented : forall name n c fields, In (n, c) documented -> same_but_case name n ->
    datetime construct fields None name true = (let* d := construct c fields None in Ok (Some d)).
  Proof.
    intros name n c fields Hi Hs. apply same_but_case_lower in Hs. unfold datetime, choose. rewrite Hs.
    cbn [documented In] in Hi. repeat (destruct Hi as [Hi|Hi]; [injection Hi as <- <-; reflexivity|]). destruct Hi.
  Qed.

  (** C62: Python's datetime needs no other package and allows a time zone. *)
  Theorem main_default_calendar : forall name fields tzinfo ct, same_but_case name "proleptic_gregorian" ->
    datetime construct fields tzinfo name ct = (let* d := construct PythonDatetime fields tzinfo in Ok (Some d)).
  Proof. intros name fields tzinfo ct Hs. apply same_but_case_lower in Hs. unfold datetime, choose. rewrite Hs. reflexivity. Qed.

  (** C62: other calendars refuse a time zone, and need the package. *)
  Theorem main_timezone : forall name fields z ct, ~ same_but_case name "proleptic_gregorian" -> datetime construct fields (Some z) name ct = Err EValue.
  Proof.
    intros name fields z ct Hs. unfold datetime, choose. destruct (String.eqb (lower name) "proleptic_gregorian") eqn:E; [|reflexivity].
    exfalso. apply Hs. apply same_but_case_lower. apply String.eqb_eq in E. exact E.
  Qed.

  Theorem main_needs_package : forall name fields, ~ same_but_case name "proleptic_gregorian" -> datetime construct fields None name false = Err EImport.
  Proof.
    intros name fields Hs. unfold datetime, choose. destruct (String.eqb (lower name) "proleptic_gregorian") eqn:E; [|reflexivity].
    exfalso. apply Hs. apply same_but_case_lower. apply String.eqb_eq in E. exact E.
  Qed.

  (** C62: a datetime is only ever made in the calendar that was named. *)
  Theorem main_only_named : forall name fields tzinfo ct d, datetime construct fields tzinfo name ct = Ok (Some d) ->
    exists n c, In (n, c) (documented ++ [("noleap", NoLeap)]) /\ same_but_case name n /\ construct c fields tzinfo = Ok d.
  Proof.
    intros name fields tzinfo ct d H. unfold datetime in H. apply bind_ok in H as (c & Hc & H). destruct c as [c|]; [|discriminate H].
    apply bind_ok in H as (d' & Hd & H). injection H as <-. unfold choose in Hc.
    assert (Hx : exists n, In (n, c) (documented ++ [("noleap", NoLeap)]) /\ lower name = lower n).
    { destruct (String.eqb (lower name) "proleptic_gregorian") eqn:E0. { apply String.eqb_eq in E0. injection Hc as <-. exists "proleptic_gregorian". split; [cbn; tauto|exact E0]. }
      destruct tzinfo; [discriminate Hc|]. destruct (negb ct); [discriminate Hc|].
      destruct (mem (lower name) ["all_leap"; "366_day"]) eqn:E1. { apply mem_In in E1. injection Hc as <-. exists (lower name). cbn [In] in E1. destruct E1 as [E|[E|[]]]; rewrite <- E; (split; [cbn; tauto|reflexivity]). }
      destruct (mem (lower name) ["no_leap"; "noleap"; "365_day"]) eqn:E2. { apply mem_In in E2. injection Hc as <-. exists (lower name). cbn [In] in E2. destruct E2 as [E|[E|[E|[]]]]; rewrite <- E; (split; [cbn; tauto|reflexivity]). }
      destruct (String.eqb (lower name) "360_day") eqn:E3. { apply String.eqb_eq in E3. injection Hc as <-. exists "360_day". split; [cbn; tauto|exact E3]. }
      destruct (String.eqb (lower name) "julian") eqn:E4. { apply String.eqb_eq in E4. injection Hc as <-. exists "julian". split; [cbn; tauto|exact E4]. }
      destruct (String.eqb (lower name) "gregorian") eqn:E5. { apply String.eqb_eq in E5. injection Hc as <-. exists "gregorian". split; [cbn; tauto|exact E5]. }
      discriminate Hc. }
    destruct Hx as (n & Hi & Hl). exists n, c. split; [exact Hi|]. split; [apply same_but_case_lower; exact Hl|exact Hd].
  Qed.

  (** C62, violated: every other name silently gives None. *)
  Theorem main_unknown_calendar : forall name fields, (forall n c, In (n, c) (documented ++ [("noleap", NoLeap)]) -> ~ same_but_case name n) ->
    datetime construct fields None name true = Ok None.
  Proof.
    intros name fields H. unfold datetime.
    assert (Hc : choose name false true = Ok None); [|rewrite Hc; reflexivity].
    assert (N : forall n c, In (n, c) (documented ++ [("noleap", NoLeap)]) -> lower n = n -> String.eqb (lower name) n = false).
    { intros n c Hi Hl. apply String.eqb_neq. intros E. apply (H n c Hi). apply same_but_case_lower. rewrite Hl. exact E. }
    unfold choose, mem, existsb. cbn [negb].
    rewrite (N "proleptic_gregorian" PythonDatetime) by (cbn; tauto). rewrite (N "all_leap" AllLeap), (N "366_day" AllLeap) by (cbn; tauto).
    rewrite (N "no_leap" NoLeap), (N "noleap" NoLeap), (N "365_day" NoLeap) by (cbn; tauto).
    rewrite (N "360_day" Day360), (N "julian" Julian), (N "gregorian" Gregorian) by (cbn; tauto). reflexivity.
  Qed.
End Make.
