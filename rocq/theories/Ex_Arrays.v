(** Concrete cases for the property theorems about raw arrays (C01-C08). *)
From Coq Require Import String List Bool Arith ZArith QArith Qcanon Lia.
From Verif Require Import Prelude PreludeFacts ArithM NdArray NdFacts Units DataArrayM
  Wildcard GetNp SpecArrays WildcardFacts ExtractFacts Restore RoundTripFacts InitNp InitFacts
  SpecUnits UnitsFacts ExampleRegistry Checks.
Import ListNotations.
Open Scope string_scope.
Open Scope nat_scope.
Open Scope list_scope.

#[global] Existing Instance table_registry | 10.

Definition qz (z : Z) : Qc := Q2Qc (inject_Z z).
Definition ramp (sh : list nat) : nd Qc := mknd sh (map (fun k => qz (Z.of_nat k)) (seq 0 (prod sh))).

(** Temperature on (z, y, x) in degC, a mass on (x, z) in kg, a length on x. *)
Definition st_ex : state Qc :=
  [ ("time", VTime 0%Z);
    ("temperature", VDA (mkda ["z"; "y"; "x"] (ramp [2; 2; 3]) [("units", "degC"); ("note", "a")]));
    ("mass", VDA (mkda ["x"; "z"] (ramp [3; 2]) [("units", "kg")]));
    ("length", VDA (mkda ["x"] (ramp [3]) [("units", "km")])) ].

Definition pd_ex : pdict :=
  [ ("temperature", mkprops (Some ["*"; "z"]) false (Some "K") (Some "T") false);
    ("mass", qprops ["z"; "*"] "g");
    ("length", qprops ["*"] "m") ].

Definition outp_ex : pdict :=
  [ ("temperature", mkprops None false (Some "degF") None false);
    ("column_mass", qprops ["*"] "kg");
    ("profile", qprops ["z"] "m") ].

Definition pd_plain : pdict :=
  [ ("temperature", qprops ["*"; "z"] "K"); ("mass", qprops ["z"; "*"] "g") ].

Lemma ex_extract_hyps : wf_state st_ex /\ wf_pdict pd_ex /\ NoDup (keys pd_ex) /\
  NoDup (map (fun np => raw_name (fst np) (snd np)) pd_ex) /\
  exists raw, get_numpy_arrays_with_properties st_ex pd_ex = Ok raw.
Proof.
  split; [apply wf_stateb_ok; reflexivity|]. split; [apply wf_pdictb_ok; reflexivity|].
  split; [apply nodupb_ok; reflexivity|]. split; [apply nodupb_ok; reflexivity|].
  apply is_ok_ex. vm_compute. reflexivity.
Qed.

Lemma ex_iff_hyps : wf_state st_ex /\ wf_pdict pd_ex /\ complete st_ex pd_ex /\
  known_units st_ex pd_ex /\ no_repeated_dims st_ex pd_ex.
Proof.
  split; [apply wf_stateb_ok; reflexivity|]. split; [apply wf_pdictb_ok; reflexivity|].
  split; [apply completeb_ok; reflexivity|]. split; [apply known_unitsb_ok; reflexivity|].
  apply no_repeatedb_ok; reflexivity.
Qed.

(** A state whose x has two lengths. *)
Definition st_conflict : state Qc :=
  dset "length" (VDA (mkda ["x"] (ramp [4]) [("units", "km")])) st_ex.

Lemma ex_conflict : length_conflict st_conflict pd_ex /\
  get_numpy_arrays_with_properties st_conflict pd_ex = Err EInvalidState.
Proof.
  split; [|vm_compute; reflexivity].
  exists "mass", (qprops ["z"; "*"] "g"), ["z"; "*"], (mkda ["x"; "z"] (ramp [3; 2]) [("units", "kg")]).
  exists "length", (qprops ["*"] "m"), ["*"], (mkda ["x"] (ramp [4]) [("units", "km")]).
  exists "x", 3, 4. unfold has_dim. repeat split; simpl; auto.
Qed.

(** z is matched by '*' in one quantity and listed explicitly in another. *)
Definition pd_repeat : pdict :=
  [ ("temperature", qprops ["*"] "K"); ("mass", qprops ["*"; "z"] "g") ].

Lemma repeated_dim_value_error :
  exists (st : state Qc) pd, wf_state st /\ wf_pdict pd /\ complete st pd /\ known_units st pd /\
    ~ length_conflict st pd /\ ~ unexpected_dim st pd /\ ~ bad_units st pd /\
    get_numpy_arrays_with_properties st pd = Err EValue.
Proof.
  exists st_ex, pd_repeat.
  assert (Hwf : wf_state st_ex) by (apply wf_stateb_ok; reflexivity).
  assert (Hscan : exists r, get_wildcard_matches_and_dim_lengths st_ex pd_repeat = Ok r)
    by (apply is_ok_ex; reflexivity).
  assert (Hc : complete st_ex pd_repeat) by (apply completeb_ok; reflexivity).
  destruct Hscan as (r & Hr).
  destruct (wildcard_matches_iff st_ex pd_repeat Hwf Hc) as [Hbad _].
  split; auto. split; [apply wf_pdictb_ok; reflexivity|]. split; auto.
  split; [apply known_unitsb_ok; reflexivity|].
  split; [intros H; rewrite Hbad in Hr by auto; discriminate|].
  split; [intros H; rewrite Hbad in Hr by auto; discriminate|].
  split; [|vm_compute; reflexivity].
  intros (name & p & u & a & Hin & Hu & Ha & Hb). apply (bad_units_to_units a u Hb) with
    (q := match to_units a u with Ok q => q | Err _ => a end).
  simpl in Hin. destruct Hin as [E|[E|[]]]; injection E as <- <-; simpl in Hu, Ha;
    injection Hu as <-; injection Ha as <-; reflexivity.
Qed.

(** Restoring. *)
Definition raw_ex : dict (nd Qc) :=
  [ ("T", ramp [6; 2]); ("column_mass", ramp [6]); ("profile", ramp [2]) ].

Lemma ex_restore_hyps : wf_state st_ex /\ NoDup (keys outp_ex) /\
  (forall name ds, declared_dims outp_ex pd_ex name ds -> one_star ds) /\
  exists out, restore_data_arrays_with_properties raw_ex outp_ex st_ex pd_ex [] false = Ok out.
Proof.
  split; [apply wf_stateb_ok; reflexivity|]. split; [apply nodupb_ok; reflexivity|]. split.
  - intros name ds (p & Hp & H). simpl in Hp.
    destruct (String.eqb name "temperature") eqn:E1.
    + apply String.eqb_eq in E1; subst. injection Hp as <-. destruct H as [H|(_ & q & Hq & H)]; [discriminate|].
      simpl in Hq. injection Hq as <-. injection H as <-. apply one_starb_ok; reflexivity.
    + destruct (String.eqb name "column_mass"); [|destruct (String.eqb name "profile"); [|discriminate]];
        injection Hp as <-; destruct H as [H|(H & _)]; try discriminate; injection H as <-;
        apply one_starb_ok; reflexivity.
  - apply is_ok_ex. vm_compute. reflexivity.
Qed.

(** Lengths of the dims of [st_ex]. *)
Definition len_ex (d : string) : nat :=
  if String.eqb d "x" then 3 else if String.eqb d "y" then 2 else if String.eqb d "z" then 2 else 1.

Lemma len_ex_ok : forall nm p ds a d n, listed st_ex pd_ex nm p ds a -> has_dim a d n -> len_ex d = n.
Proof.
  intros nm p ds a d n (Hin & _ & Ha) Hd. unfold has_dim in Hd.
  simpl in Hin. destruct Hin as [E|[E|[E|[]]]]; injection E as <- <-; simpl in Ha; injection Ha as <-;
    simpl in Hd; repeat (destruct Hd as [Hd|Hd]; [injection Hd as <- <-; reflexivity|]); contradiction.
Qed.

Lemma ex_not_bad : ~ length_conflict st_ex pd_ex /\ ~ unexpected_dim st_ex pd_ex.
Proof.
  destruct ex_iff_hyps as (Hwf & _ & Hc & _).
  destruct (wildcard_matches_iff st_ex pd_ex Hwf Hc) as [Hbad _].
  assert (Hscan : exists r, get_wildcard_matches_and_dim_lengths st_ex pd_ex = Ok r)
    by (apply is_ok_ex; reflexivity).
  destruct Hscan as (r & Hr).
  split; intros H; rewrite Hbad in Hr by auto; discriminate.
Qed.

Lemma ex_restorable : forall name p, dget name outp_ex = Some p ->
  exists ds u ra, restorable raw_ex st_ex outp_ex pd_ex len_ex name p ds u ra.
Proof.
  intros name p Hp. simpl in Hp.
  assert (Hstar : exists nm p' ds', In (nm, p') pd_ex /\ p_dims p' = Some ds' /\ In "*" ds').
  { exists "length", (qprops ["*"] "m"), ["*"]. simpl; auto. }
  destruct (String.eqb name "temperature") eqn:E1; [|destruct (String.eqb name "column_mass") eqn:E2;
    [|destruct (String.eqb name "profile") eqn:E3; [|discriminate]]];
    match goal with E : String.eqb name _ = true |- _ => apply String.eqb_eq in E; subst name end;
    injection Hp as <-.
  - exists ["*"; "z"], "degF", (ramp [6; 2]). split.
    { exists (mkprops None false (Some "degF") None false). split; [reflexivity|]. right. split; [reflexivity|].
      eexists; split; reflexivity. }
    split; [apply one_starb_ok; reflexivity|]. repeat split; auto.
  - exists ["*"], "kg", (ramp [6]). split.
    { eexists. split; [reflexivity|]. left; reflexivity. }
    split; [apply one_starb_ok; reflexivity|]. repeat split; auto.
  - exists ["z"], "m", (ramp [2]). split.
    { eexists. split; [reflexivity|]. left; reflexivity. }
    split; [apply one_starb_ok; reflexivity|]. repeat split; auto.
Qed.

(** The raw array for dims ['*','z'] is handed back as (z, '*'). *)
Definition inp_scr : pdict := [("mass", qprops ["*"; "z"] "kg")].
Definition outp_scr : pdict := [("mass", qprops ["*"; "z"] "kg")].
Definition raw_scr : dict (nd Qc) := [("mass", ramp [2; 3])].

Lemma wildcard_shape_accepted :
  exists (st : state Qc) raw outp inp ra out q,
    wf_state st /\ dget "mass" raw = Some ra /\ shape ra = [2; 3] /\
    dget "mass" outp = Some (qprops ["*"; "z"] "kg") /\
    wildcard_dims st inp = ["x"] /\
    (exists p ds a, listed st inp "mass" p ds a /\ has_dim a "x" 3 /\ has_dim a "z" 2) /\
    restore_data_arrays_with_properties raw outp st inp [] false = Ok out /\
    dget "mass" out = Some q /\
    exists c, c "x" < 3 /\ c "z" < 2 /\ da_at q c <> at_ ra [c "z"; c "x"].
Proof.
  exists st_ex, raw_scr, outp_scr, inp_scr, (ramp [2; 3]).
  exists [("mass", mkda ["x"; "z"] (mknd [3; 2] (data (ramp [2; 3]))) [("units", "kg")])].
  exists (mkda ["x"; "z"] (mknd [3; 2] (data (ramp [2; 3]))) [("units", "kg")]).
  split; [apply wf_stateb_ok; reflexivity|]. split; [reflexivity|]. split; [reflexivity|].
  split; [reflexivity|]. split; [reflexivity|]. split.
  { eexists _, _, _. split; [split; [left; reflexivity|split; reflexivity]|]. unfold has_dim; split; simpl; auto. }
  split; [reflexivity|]. split; [reflexivity|].
  exists (fun d => if String.eqb d "x" then 1 else 0). split; [simpl; lia|]. split; [simpl; lia|].
  intros H. apply (f_equal this) in H. vm_compute in H. discriminate.
Qed.

(** Initialised arrays. *)
Definition outp_init : pdict :=
  [ ("temperature", mkprops None false (Some "degF") None false);
    ("column_mass", qprops ["*"] "kg");
    ("profile", qprops ["z"] "m") ].

Lemma ex_init_hyps : exists raw out,
  wf_state st_ex /\ wf_pdict pd_plain /\ NoDup (keys outp_init) /\
  NoDup (map (fun np => raw_name (fst np) (snd np)) pd_plain) /\
  (forall nm p, In (nm, p) pd_plain -> p_tracer p = false) /\
  get_numpy_arrays_with_properties st_ex pd_plain = Ok raw /\
  initialize_numpy_arrays_with_properties outp_init raw pd_plain None [] = Ok out /\
  (forall name p, dget name outp_init = Some p ->
     (exists u, p_units p = Some u) /\ out_key outp_init pd_plain name = name).
Proof.
  destruct (is_ok_ex (get_numpy_arrays_with_properties st_ex pd_plain)) as (raw & Hraw); [reflexivity|].
  exists raw.
  destruct (is_ok_ex (initialize_numpy_arrays_with_properties outp_init raw pd_plain None [])) as (out & Hout).
  { vm_compute in Hraw. injection Hraw as <-. vm_compute. reflexivity. }
  exists out. split; [apply wf_stateb_ok; reflexivity|]. split; [apply wf_pdictb_ok; reflexivity|].
  split; [apply nodupb_ok; reflexivity|]. split; [apply nodupb_ok; reflexivity|].
  split; [intros nm p [E|[E|[]]]; injection E as <- <-; reflexivity|].
  split; auto. split; auto.
  intros name p Hp. simpl in Hp.
  destruct (String.eqb name "temperature") eqn:E1; [|destruct (String.eqb name "column_mass") eqn:E2;
    [|destruct (String.eqb name "profile") eqn:E3; [|discriminate]]];
    match goal with E : String.eqb name _ = true |- _ => apply String.eqb_eq in E; subst name end;
    injection Hp as <-; split; try reflexivity; eexists; reflexivity.
Qed.

Definition outp_alias : pdict :=
  [ ("column_mass", mkprops (Some ["*"]) false (Some "kg") (Some "cm") false) ].

Lemma init_alias_not_restorable :
  exists (st : state Qc) raw outp inp out,
    wf_state st /\ wf_pdict inp /\ NoDup (keys outp) /\
    get_numpy_arrays_with_properties st inp = Ok raw /\
    initialize_numpy_arrays_with_properties outp raw inp None [] = Ok out /\
    restore_data_arrays_with_properties out outp st inp [] false = Err EKey.
Proof.
  destruct (is_ok_ex (get_numpy_arrays_with_properties st_ex pd_plain)) as (raw & Hraw); [reflexivity|].
  destruct (is_ok_ex (initialize_numpy_arrays_with_properties outp_alias raw pd_plain None [])) as (out & Hout).
  { vm_compute in Hraw. injection Hraw as <-. vm_compute. reflexivity. }
  exists st_ex, raw, outp_alias, pd_plain, out.
  split; [apply wf_stateb_ok; reflexivity|]. split; [apply wf_pdictb_ok; reflexivity|].
  split; [apply nodupb_ok; reflexivity|]. split; auto. split; auto.
  vm_compute in Hraw. injection Hraw as <-. vm_compute in Hout. injection Hout as <-. vm_compute. reflexivity.
Qed.

(** Units. *)
Definition q_degC : da Qc := mkda ["x"] (ramp [3]) [("units", "degC"); ("note", "a")].

Lemma ex_units_hyps : sane_registry table_registry /\ wf_nd (arr q_degC) /\
  exists own u1 u2, dget "units" (attrs q_degC) = Some own /\ parse own = Some u1 /\
    parse "degF" = Some u2 /\ u_dim u1 = u_dim u2 /\ u1 <> u2 /\ u_off u1 <> 0%Qc.
Proof.
  split; [apply table_registry_sane|]. split; [reflexivity|].
  eexists _, _, _. repeat split; try reflexivity.
  - intros H. apply (f_equal (fun u => this (u_fac u))) in H. vm_compute in H. discriminate.
  - intros H. apply (f_equal this) in H. vm_compute in H. discriminate.
Qed.
