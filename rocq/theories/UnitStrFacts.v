(** Proofs about unit strings (C85). *)
From Coq Require Import String Ascii List Bool Arith ZArith QArith Qcanon Lia.
From Verif Require Import Prelude PreludeFacts ArithM NdArray NdFacts Units DataArrayM StrFun
  SpecUnits UnitsFacts UnitStr SpecUnitStr.
Import ListNotations.
Open Scope string_scope.
Open Scope nat_scope.
Open Scope list_scope.

(** ** Replacing in strings *)
Lemma strip_prefix_length : forall p s r, strip_prefix p s = Some r -> String.length s = String.length p + String.length r.
Proof.
  induction p as [|a p IH]; intros s r H; simpl in H.
  - injection H as <-; reflexivity.
  - destruct s as [|b s]; [discriminate|]. destruct (Ascii.eqb a b); [|discriminate].
    apply IH in H. simpl. lia.
Qed.

Lemma strip_prefix_some : forall p s r, strip_prefix p s = Some r -> s = (p ++ r)%string.
Proof.
  induction p as [|a p IH]; intros s r H; simpl in H.
  - injection H as <-; reflexivity.
  - destruct s as [|b s]; [discriminate|]. destruct (Ascii.eqb a b) eqn:E; [|discriminate].
    apply Ascii.eqb_eq in E as <-. apply IH in H as ->. reflexivity.
Qed.

Lemma strip_prefix_app : forall p s, strip_prefix p (p ++ s) = Some s.
Proof. induction p; intros; simpl; [reflexivity|]. rewrite Ascii.eqb_refl. apply IHp. Qed.

Lemma replace_fuel_enough : forall old new n m s, old <> ""%string ->
  String.length s <= n -> String.length s <= m -> replace_fuel n old new s = replace_fuel m old new s.
Proof.
  intros old new n. induction n as [|n IH]; intros m s Ho Hn Hm.
  - destruct s; [|simpl in Hn; lia]. destruct m; simpl; [reflexivity|].
    destruct old; [contradiction Ho; reflexivity|]. reflexivity.
  - destruct m as [|m].
    { destruct s; [|simpl in Hm; lia]. simpl. destruct old; [contradiction Ho; reflexivity|]. reflexivity. }
    simpl. destruct (strip_prefix old s) as [r|] eqn:E.
    + apply strip_prefix_length in E. destruct old as [|o old]; [contradiction Ho; reflexivity|].
      simpl in E. f_equal. apply IH; [discriminate| |]; lia.
    + destruct s as [|c s]; [reflexivity|]. simpl in Hn, Hm. f_equal. apply IH; auto; lia.
Qed.

Lemma str_replace_hit : forall o old new s,
  str_replace (String o old) new (String o old ++ s) = (new ++ str_replace (String o old) new s)%string.
Proof.
  intros o old new s. unfold str_replace.
  change (String.length (String o old ++ s)) with (S (String.length (old ++ s))).
  cbn [replace_fuel]. rewrite (strip_prefix_app (String o old) s). f_equal.
  apply replace_fuel_enough; [discriminate| |lia].
  clear. induction old; simpl; lia.
Qed.

Lemma str_replace_miss : forall o old new c s, strip_prefix (String o old) (String c s) = None ->
  str_replace (String o old) new (String c s) = String c (str_replace (String o old) new s).
Proof.
  intros o old new c s H. unfold str_replace.
  change (String.length (String c s)) with (S (String.length s)).
  cbn [replace_fuel]. rewrite H. reflexivity.
Qed.

(** ** The spelling *)
Lemma percent_miss : forall c s, c <> "%"%char -> str_replace "%" "percent" (String c s) = String c (str_replace "%" "percent" s).
Proof.
  intros c s H. apply str_replace_miss. cbn [strip_prefix]. destruct (Ascii.eqb "%" c) eqn:E; [|reflexivity].
  apply Ascii.eqb_eq in E. congruence.
Qed.

Lemma spelling_percent : forall s, unit_spelling ("%" ++ s) = ("percent" ++ unit_spelling s)%string.
Proof.
  intros s. unfold unit_spelling. rewrite (str_replace_hit "%" "" "percent" s).
  cbn [append]. do 7 (rewrite str_replace_miss by reflexivity). reflexivity.
Qed.

Lemma spelling_degree : forall s, unit_spelling ("°" ++ s) = ("degree" ++ unit_spelling s)%string.
Proof.
  intros s. unfold unit_spelling. cbn [append]. do 2 (rewrite percent_miss by discriminate).
  apply (str_replace_hit (ascii_of_nat 194) (String (ascii_of_nat 176) "") "degree").
Qed.

Lemma percent_head : forall s, strip_prefix (String (ascii_of_nat 176) "") s = None ->
  strip_prefix (String (ascii_of_nat 176) "") (str_replace "%" "percent" s) = None.
Proof.
  intros s H. destruct s as [|c s]; [reflexivity|].
  destruct (ascii_dec c "%") as [->|Hc].
  - change (String "%" s) with ("%" ++ s)%string. rewrite (str_replace_hit "%" "" "percent" s). reflexivity.
  - rewrite percent_miss by auto. cbn [strip_prefix] in *.
    destruct (Ascii.eqb (ascii_of_nat 176) c); [discriminate|reflexivity].
Qed.

Lemma spelling_other : forall c s, c <> "%"%char -> strip_prefix "°" (String c s) = None ->
  unit_spelling (String c s) = String c (unit_spelling s).
Proof.
  intros c s Hc Hd. unfold unit_spelling. rewrite percent_miss by auto.
  apply str_replace_miss.
  change "°"%string with (String (ascii_of_nat 194) (String (ascii_of_nat 176) "")) in *.
  cbn [strip_prefix] in Hd |- *. destruct (Ascii.eqb (ascii_of_nat 194) c); [|reflexivity].
  pose proof (percent_head s) as Hp. cbn [strip_prefix] in Hp. apply Hp. exact Hd.
Qed.

Lemma not_degree : forall c s, (forall r, String c s <> ("°" ++ r)%string) -> strip_prefix "°" (String c s) = None.
Proof.
  intros c s H. destruct (strip_prefix "°" (String c s)) eqn:E; [|reflexivity].
  apply strip_prefix_some in E. exfalso. eapply H; eauto.
Qed.

Lemma spelled_fun : forall s t, spelled s t -> t = unit_spelling s.
Proof.
  intros s t H. induction H as [|s t _ IH|s t _ IH|c s t Hc Hd _ IH].
  - reflexivity.
  - rewrite spelling_percent, IH. reflexivity.
  - rewrite spelling_degree, IH. reflexivity.
  - rewrite spelling_other by (auto using not_degree). rewrite IH. reflexivity.
Qed.

Lemma spelling_spelled : forall s, spelled s (unit_spelling s).
Proof.
  intros s. remember (String.length s) as n eqn:En. assert (Hn : String.length s <= n) by lia. clear En.
  revert s Hn. induction n as [|n IH]; intros s Hn.
  - destruct s; [constructor|simpl in Hn; lia].
  - destruct s as [|c s]; [constructor|]. simpl in Hn.
    destruct (ascii_dec c "%") as [->|Hc].
    + change (String "%" s) with ("%" ++ s)%string. rewrite spelling_percent. constructor. apply IH. lia.
    + destruct (strip_prefix "°" (String c s)) as [r|] eqn:E.
      * pose proof (strip_prefix_length _ _ _ E) as Hl. apply strip_prefix_some in E. rewrite E.
        rewrite spelling_degree. constructor. apply IH. simpl in Hl. lia.
      * rewrite spelling_other by auto. constructor; auto; [|apply IH; lia].
        intros r Hr. rewrite Hr, strip_prefix_app in E. discriminate.
Qed.

(** Every string has exactly one spelling, and the spelling has no signs left. *)
Lemma spelled_unique : forall s, exists! t, spelled s t.
Proof.
  intros s. exists (unit_spelling s). split; [apply spelling_spelled|].
  intros t H. symmetry. apply spelled_fun; auto.
Qed.

Lemma app_miss : forall c s, c <> "%"%char -> c <> ascii_of_nat 194 -> forall t, spelled s t -> spelled (String c s) (String c t).
Proof.
  intros c s Hc Hd t H. constructor; auto. intros r Hr. cbn [append] in Hr. injection Hr as Hx _. contradiction.
Qed.

Lemma spelled_done : forall s t, spelled s t -> spelled t t.
Proof.
  intros s t H. induction H as [|s t _ IH|s t _ IH|c s t Hc Hd H IH].
  - constructor.
  - cbn [append]. repeat (apply app_miss; [discriminate|discriminate|]). exact IH.
  - cbn [append]. repeat (apply app_miss; [discriminate|discriminate|]). exact IH.
  - constructor; auto. intros r Hr. cbn [append] in Hr.
    injection Hr as -> Ht. subst t.
    inversion H; subst; try discriminate.
    eapply Hd. cbn [append]. reflexivity.
Qed.

Lemma spelling_idem : forall s, unit_spelling (unit_spelling s) = unit_spelling s.
Proof.
  intros s. symmetry. apply spelled_fun. eapply spelled_done, spelling_spelled.
Qed.

(** ** Answers *)
Section Answers.
  Context {P : Pint}.

  Lemma call_spelled : forall s t, spelled s t -> ureg_call s = ureg_call t.
  Proof.
    intros s t H. unfold ureg_call. apply spelled_fun in H as ->. rewrite spelling_idem. reflexivity.
  Qed.

  Lemma call_again : forall s, ureg_call (unit_spelling s) = ureg_call s.
  Proof. intros s. unfold ureg_call. rewrite spelling_idem. reflexivity. Qed.

  (** A sign and the word for it are the same unit. *)
  Lemma spelling_irrelevant : forall s t, spelled s t ->
    p_valid s = p_valid t /\ p_clean s = p_clean t /\
    (forall r, p_same s r = p_same t r /\ p_same r s = p_same r t) /\
    (forall r, p_compatible s r = p_compatible t r) /\
    (forall T (A : Arith T) (x : T) r, p_from_to x s r = p_from_to x t r).
  Proof.
    intros s t H. pose proof (call_spelled s t H) as E.
    unfold p_valid, p_clean, p_same, p_compatible, p_from_to. rewrite !call_again, E. auto 10.
  Qed.

  Lemma q_eqb_eq : forall q1 q2, q_eqb q1 q2 = true <->
    u_dim (snd q1) = u_dim (snd q2) /\ base_value (snd q1) (fst q1) = base_value (snd q2) (fst q2).
  Proof.
    intros q1 q2. unfold q_eqb, base_value. rewrite andb_true_iff, udim_eqb_eq, Qc_eqb_eq. tauto.
  Qed.

  Lemma q_eqb_sym : forall q1 q2, q_eqb q1 q2 = q_eqb q2 q1.
  Proof.
    intros q1 q2. apply eq_true_iff_eq. rewrite !q_eqb_eq. intuition congruence.
  Qed.

  (** units_are_same is an equivalence on the strings that is_valid_unit accepts. *)
  Lemma same_equivalence : 
    (forall s, p_valid s = Ok true <-> p_same s s = Ok true) /\
    (forall s1 s2, agree (p_same s1 s2) (p_same s2 s1)) /\
    (forall s1 s2 s3, p_same s1 s2 = Ok true -> p_same s2 s3 = Ok true -> p_same s1 s3 = Ok true) /\
    (forall s1 s2, p_valid s1 = Ok true -> p_valid s2 = Ok true -> exists b, p_same s1 s2 = Ok b).
  Proof.
    unfold p_valid, p_same. split; [|split; [|split]].
    - intros s. rewrite call_again. destruct (ureg_call s) as [q|e]; simpl.
      + split; intros _; [|reflexivity]. f_equal. apply q_eqb_eq; auto.
      + split; intros H; [|discriminate]. destruct e; discriminate.
    - intros s1 s2 b. destruct (ureg_call s1), (ureg_call s2); simpl; try (split; discriminate).
      rewrite q_eqb_sym. tauto.
    - intros s1 s2 s3. destruct (ureg_call s1) as [q1|], (ureg_call s2) as [q2|], (ureg_call s3) as [q3|];
        simpl; try discriminate.
      intros H1 H2. injection H1 as H1. injection H2 as H2. f_equal. rewrite q_eqb_eq in *.
      intuition congruence.
    - intros s1 s2. rewrite !call_again. destruct (ureg_call s1) as [q1|e1].
      + destruct (ureg_call s2) as [q2|e2]; [intros; eexists; reflexivity|]. intros _ H. destruct e2; discriminate.
      + intros H. destruct e1; discriminate.
  Qed.

  Lemma reads_call : forall s u, reads s u -> ureg_call s = Ok (1%Qc, u).
  Proof. intros s u [_ H]. apply H, spelling_spelled. Qed.

  Lemma reads_parse : forall s u, reads s u -> @parse registry_of s = Some u.
  Proof.
    intros s u H. unfold registry_of; simpl. rewrite (reads_call s u H).
    destruct (Qc_eqb 1 1) eqn:E; [reflexivity|]. exfalso.
    assert (Qc_eqb 1 1 = true) by (apply Qc_eqb_eq; reflexivity). congruence.
  Qed.

  (** For strings that pint reads itself, compatibility is an equivalence: it says
      that the units measure the same dimension. *)
  Lemma compatible_reads : forall s1 s2 u1 u2, reads s1 u1 -> reads s2 u2 ->
    (p_compatible s1 s2 = Ok true <-> u_dim u1 = u_dim u2) /\
    (p_compatible s1 s2 = Ok false <-> u_dim u1 <> u_dim u2) /\
    p_compatible s1 s2 = p_compatible s2 s1.
  Proof.
    intros s1 s2 u1 u2 H1 H2. unfold p_compatible.
    rewrite (reads_call _ _ H1), (reads_call _ _ H2), (proj1 H1), (proj1 H2). simpl.
    assert (Es : udim_eqb u1 u2 = udim_eqb u2 u1).
    { apply eq_true_iff_eq. rewrite !udim_eqb_eq. split; congruence. }
    rewrite Es. split; [|split; [|reflexivity]].
    - rewrite <- udim_eqb_eq, Es. split; congruence.
    - rewrite <- udim_eqb_eq, Es. split; [congruence|]. destruct (udim_eqb u2 u1); [contradiction|reflexivity].
  Qed.

  (** ** The single oracle of Units.v stands for both ways *)
  Lemma one_oracle : forall T (A : Arith T) s1 s2 u1 u2, reads s1 u1 -> reads s2 u2 ->
    p_compatible s1 s2 = @units_are_compatible registry_of s1 s2 /\
    p_same s1 s2 = @units_are_same registry_of s1 s2 /\
    p_valid s1 = Ok (@is_valid_unit registry_of s1) /\
    (forall x : T, p_from_to x s1 s2 = @from_unit_to_another T A registry_of x s1 s2) /\
    (forall a : da T, dget "units" (attrs a) = Some s1 -> p_to_units a s2 = @to_units T A registry_of a s2).
  Proof.
    intros T A s1 s2 u1 u2 H1 H2.
    pose proof (reads_call _ _ H1) as C1. pose proof (reads_call _ _ H2) as C2.
    pose proof (reads_parse _ _ H1) as P1. pose proof (reads_parse _ _ H2) as P2.
    pose proof (proj1 H1) as U1. pose proof (proj1 H2) as U2.
    assert (Eq : q_eqb (1%Qc, u1) (1%Qc, u2) = one_eqb u1 u2).
    { apply eq_true_iff_eq. rewrite q_eqb_eq, one_eqb_eq. simpl. tauto. }
    assert (E1 : Qc_eqb 1 1 = true) by (apply Qc_eqb_eq; reflexivity).
    split; [|split; [|split; [|split]]].
    - unfold p_compatible, units_are_compatible, parseE. rewrite C1, P1, P2, U2. reflexivity.
    - unfold p_same, units_are_same, parseE. rewrite C1, C2, P1, P2. cbn [bind]. rewrite Eq. reflexivity.
    - unfold p_valid, is_valid_unit. rewrite call_again, C1, P1. reflexivity.
    - intros x. unfold p_from_to, from_unit_to_another, parseE. rewrite C1, P1, P2, U2. cbn [bind fst snd].
      rewrite E1. reflexivity.
    - intros a Ha. unfold p_to_units, to_units, parseE. rewrite Ha, C1, C2, P1, P2. cbn [bind].
      rewrite Eq, U1, U2. reflexivity.
  Qed.

  (** ** Conversion *)
  (** Compatible units that pint reads itself can be converted, and the amount stays
      the same. *)
  Lemma compatible_converts : forall (a : da Qc) s1 s2 u1 u2,
    reads s1 u1 -> reads s2 u2 -> u_fac u2 <> 0%Qc -> wf_nd (arr a) ->
    dget "units" (attrs a) = Some s1 -> p_compatible s1 s2 = Ok true ->
    exists q, p_to_units a s2 = Ok q /\ dims q = dims a /\ shape (arr q) = shape (arr a) /\
      ((p_same s1 s2 = Ok true /\ q = a) \/
       (p_same s1 s2 = Ok false /\ dget "units" (attrs q) = Some s2 /\
        (forall k, k <> "units"%string -> dget k (attrs q) = dget k (attrs a)) /\
        forall idx, in_range idx (shape (arr a)) ->
          base_value u2 (at_ (arr q) idx) = base_value u1 (at_ (arr a) idx))).
  Proof.
    intros a s1 s2 u1 u2 H1 H2 Hf Hw Ha Hc.
    apply (proj1 (compatible_reads _ _ _ _ H1 H2)) in Hc.
    pose proof (reads_call _ _ H1) as C1. pose proof (reads_call _ _ H2) as C2.
    unfold p_to_units, p_same. rewrite Ha, C1, C2, (proj1 H1), (proj1 H2). simpl.
    destruct (q_eqb (1%Qc, u1) (1%Qc, u2)) eqn:Eq; simpl.
    - exists a. repeat split; auto.
    - assert (Ed : udim_eqb u1 u2 = true) by (apply udim_eqb_eq; auto). rewrite Ed.
      eexists. split; [reflexivity|]. simpl. repeat split; auto. right. split; [auto|].
      split; [apply dget_dset_eq|]. split.
      + intros k Hk. apply dget_dset_neq. auto.
      + intros idx Hi. rewrite at_nd_map by auto. apply uconv_base. auto.
  Qed.

  (** Whatever the strings: a conversion that succeeds keeps the amount, reading the
      units as pint does. *)
  Lemma converted_amount : forall (a q : da Qc) s, wf_nd (arr a) ->
    (forall u, pint_units s = Ok u -> u_fac u <> 0%Qc) ->
    p_to_units a s = Ok q ->
    exists own, dget "units" (attrs a) = Some own /\
      ((q = a /\ p_same own s = Ok true) \/
       (p_same own s = Ok false /\ dget "units" (attrs q) = Some s /\ dims q = dims a /\
        shape (arr q) = shape (arr a) /\
        exists u1 u2, pint_units own = Ok u1 /\ pint_units s = Ok u2 /\ u_dim u1 = u_dim u2 /\
        forall idx, in_range idx (shape (arr a)) ->
          base_value u2 (at_ (arr q) idx) = base_value u1 (at_ (arr a) idx))).
  Proof.
    intros a q s Hw Hf H. unfold p_to_units in H. destruct (dget "units" (attrs a)) as [own|] eqn:Ha; [|discriminate].
    exists own. split; [reflexivity|]. unfold p_same.
    destruct (ureg_call own) as [q1|]; [|discriminate]. destruct (ureg_call s) as [q2|]; [|discriminate].
    simpl in H |- *. destruct (q_eqb q1 q2) eqn:Eq; simpl in H.
    - left. injection H as <-. auto.
    - right. destruct (pint_units own) as [u1|]; [|discriminate]. simpl in H.
      destruct (pint_units s) as [u2|]; [|discriminate]. simpl in H.
      destruct (udim_eqb u1 u2) eqn:Ed; [|discriminate]. injection H as <-. simpl.
      split; [auto|]. split; [apply dget_dset_eq|]. repeat split; auto.
      exists u1, u2. repeat split; auto; [apply udim_eqb_eq; auto|].
      intros idx Hi. rewrite at_nd_map by auto. apply uconv_base. auto.
  Qed.

  (** clean_units gives the same name for every spelling and never raises on a valid
      unit. *)
  Lemma clean_compatible : forall s u b,
    (forall t, spelled s t -> pint_expr t = Ok (1%Qc, u)) -> pint_units (base_name u) = Ok b -> u_dim b = u_dim u ->
    p_clean s = Ok (base_name u) /\ p_compatible s (base_name u) = Ok true.
  Proof.
    intros s u b H Hb Hd. specialize (H _ (spelling_spelled s)).
    unfold p_clean, p_compatible, ureg_call. rewrite H. simpl. rewrite Hb. simpl.
    split; [reflexivity|]. f_equal. apply udim_eqb_eq. auto.
  Qed.
End Answers.
