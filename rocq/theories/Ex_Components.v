(** Concrete cases for the property theorems about components (C09-C17). *)
From Coq Require Import String List Bool Arith ZArith QArith Qcanon Lia.
From Verif Require Import Prelude PreludeFacts ArithM NdArray NdFacts Units DataArrayM
  Wildcard GetNp SpecArrays Restore SpecUnits ExampleRegistry Checks Tracers Components SpecComponents SpecCalls
  CheckerFacts ComponentFacts CallFacts StepperFacts TidFacts ComponentsMain ClassState ClassFacts.
Import ListNotations.
Open Scope string_scope.
Open Scope nat_scope.
Open Scope list_scope.

#[local] Existing Instance ex_registry | 5.

Definition cz (z : Z) : Qc := Q2Qc (inject_Z z).
Definition cramp (sh : list nat) : nd Qc := mknd sh (map (fun k => cz (Z.of_nat k)) (seq 0 (prod sh))).

(** ** Decidable hypotheses *)

Definition stars_okb (outp inp : pdict) : bool :=
  forallb (fun np => match p_dims (snd np) with
                     | Some ds => one_starb ds
                     | None => match dget (fst np) inp with
                               | Some q => match p_dims q with Some ds => one_starb ds | None => true end
                               | None => true
                               end
                     end) outp.

Lemma stars_okb_ok : forall outp inp, stars_okb outp inp = true -> stars_ok outp inp.
Proof.
  intros outp inp H name ds (p & Hp & Hd). unfold stars_okb in H. rewrite forallb_forall in H.
  specialize (H (name, p) (dget_In _ _ _ Hp)). simpl in H.
  destruct Hd as [E|(E & q & Hq & E2)]; rewrite E in H; [apply one_starb_ok; auto|].
  rewrite Hq, E2 in H. apply one_starb_ok; auto.
Qed.

Definition shared_knownb (f : string -> string) (inp outp : pdict) : bool :=
  forallb (fun np => match dget (fst np) outp with
                     | None => true
                     | Some q =>
                         match p_units (snd np), p_units q with
                         | Some u1, Some u2 =>
                             match parse (f u1), parse u2 with Some _, Some _ => true | _, _ => false end
                         | _, _ => true
                         end
                     end) inp.

Lemma shared_knownb_ok : forall f inp outp, shared_knownb f inp outp = true -> shared_known f inp outp.
Proof.
  intros f inp outp H name u1 u2 (p & q & Hin & Hq & E1 & E2).
  unfold shared_knownb in H. rewrite forallb_forall in H. specialize (H (name, p) Hin). cbn [fst snd] in H.
  rewrite Hq, E1, E2 in H. destruct (parse (f u1)); [|discriminate]. destruct (parse u2); [|discriminate]. eauto.
Qed.

Definition proper_inputsb (inp : pdict) : bool :=
  wf_pdictb inp && nodupb (map (fun np => raw_name (fst np) (snd np)) inp) &&
  forallb (fun np => negb (String.eqb (raw_name (fst np) (snd np)) "time") &&
                     negb (String.eqb (raw_name (fst np) (snd np)) "tracers")) inp.

Lemma proper_inputsb_ok : forall inp, proper_inputsb inp = true -> proper_inputs inp.
Proof.
  intros inp H. unfold proper_inputsb in H. apply andb_true_iff in H as [H H3]. apply andb_true_iff in H as [H1 H2].
  split; [apply wf_pdictb_ok; auto|]. split; [apply nodupb_ok; auto|].
  intros name p Hin. rewrite forallb_forall in H3. specialize (H3 (name, p) Hin). cbn [fst snd] in H3.
  apply andb_true_iff in H3 as [A B]. apply negb_true_iff, String.eqb_neq in A.
  apply negb_true_iff, String.eqb_neq in B. auto.
Qed.

Definition dims_knownb (st : state Qc) (inp : pdict) (ds : list string) : bool :=
  forallb (fun d => String.eqb d "*" ||
    existsb (fun np => match p_dims (snd np), dget (fst np) st with
                       | Some _, Some (VDA a) => mem d (dims a)
                       | _, _ => false
                       end) inp) ds.

Lemma dims_knownb_ok : forall st inp ds, dims_knownb st inp ds = true -> dims_known st inp ds.
Proof.
  intros st inp ds H d Hd Hne. unfold dims_knownb in H. rewrite forallb_forall in H. specialize (H d Hd).
  apply orb_true_iff in H as [H|H]; [apply String.eqb_eq in H; contradiction|].
  apply existsb_exists in H as ([nm p] & Hin & H). cbn [fst snd] in H.
  destruct (p_dims p) as [ds'|] eqn:E; [|discriminate].
  destruct (dget nm st) as [[a|t]|] eqn:Ea; try discriminate. apply mem_In in H.
  exists nm, p, ds', a. repeat split; auto.
Qed.

Definition unaliasedb (pd : pdict) (name : string) : bool :=
  match dget name pd with
  | Some p => match p_alias p with Some _ => false | None => true end
  | None => true
  end.

Lemma unaliasedb_ok : forall pd name, unaliasedb pd name = true -> unaliased pd name.
Proof.
  intros pd name H p Hp. unfold unaliasedb in H. rewrite Hp in H. destruct (p_alias p); [discriminate|auto].
Qed.

(** ** Fixtures *)

Definition st_c : state Qc :=
  [ ("time", VTime 0%Z);
    ("T", VDA (mkda ["x"; "z"] (cramp [3; 2]) [("units", "K")]));
    ("wind", VDA (mkda ["x"] (cramp [3]) [("units", "km s^-1")]));
    ("unused", VDA (mkda ["y"] (cramp [5]) [("units", "kg")])) ].

Definition inp_c : pdict :=
  [ ("T", mkprops (Some ["z"; "*"]) false (Some "K") (Some "t") false);
    ("wind", qprops ["*"] "m s^-1") ].

Definition tend_c : pdict := [ ("T", mkprops None false (Some "K s^-1") None false) ].
Definition diag_c : pdict := [ ("speed", qprops ["*"] "m s^-1") ].

(** A component that returns its inputs under new names. *)
Definition arr_of (k : string) (raw : dict (rval Qc)) : nd Qc :=
  match dget k raw with Some (RArr a) => a | _ => cramp [] end.

Definition ac_t (u : nat) (raw : dict (rval Qc)) : nat * res (dict (nd Qc) * dict (nd Qc)) :=
  (S u, Ok ([("t", arr_of "t" raw)], [("speed", arr_of "wind" raw)])).

Definition ac_d (u : nat) (raw : dict (rval Qc)) : nat * res (dict (nd Qc)) :=
  (S u, Ok [("speed", arr_of "wind" raw)]).

Definition c_t (tid : bool) : tcomp :=
  match snd (make_tendency_component false empty_treg inp_c tend_c diag_c "heater" tid None "s^-1") with
  | Ok c => c
  | Err _ => mktcomp false [] [] [] "" false [] None ""
  end.

Definition c_d : dcomp :=
  match make_diagnostic_component inp_c diag_c with Ok c => c | Err _ => mkdcomp false [] [] end.

Lemma c_t_made : forall tid, make_tendency_component false empty_treg inp_c tend_c diag_c "heater" tid None "s^-1"
  = (empty_treg, Ok (c_t tid)).
Proof. intros [|]; vm_compute; reflexivity. Qed.

Lemma c_d_made : make_diagnostic_component inp_c diag_c = Ok c_d.
Proof. vm_compute; reflexivity. Qed.

Lemma pair_is_ok : forall {U B} (p : U * res B), is_ok (snd p) = true -> exists u b, p = (u, Ok b).
Proof. intros U B [u [b|e]] H; simpl in H; [eauto|discriminate]. Qed.

Lemma pair_pair_is_ok : forall {U B C} (p : U * res (B * C)), is_ok (snd p) = true -> exists u b c, p = (u, Ok (b, c)).
Proof. intros U B C [u [[b c]|e]] H; simpl in H; [eauto|discriminate]. Qed.

Lemma ex_tendency_hyps :
  NoDup (keys inp_c) /\ NoDup (keys tend_c) /\ NoDup (keys diag_c) /\ stars_ok tend_c inp_c /\ stars_ok diag_c inp_c /\
  wf_state st_c /\ exists u' t d, tendency_call empty_treg (c_t true) ac_t 0 st_c = (u', Ok (t, d)).
Proof.
  repeat (split; [first [apply nodupb_ok; reflexivity|apply stars_okb_ok; reflexivity|apply wf_stateb_ok; reflexivity]|]).
  apply pair_pair_is_ok. vm_compute. reflexivity.
Qed.

Lemma ex_diagnostic_hyps : exists u' d, diagnostic_call c_d ac_d 0 st_c = (u', Ok d).
Proof. apply pair_is_ok. vm_compute. reflexivity. Qed.

(** The full name used although the output has an alias: accepted, then KeyError. *)
Definition diag_al : pdict := [ ("speed", mkprops (Some ["*"]) false (Some "m s^-1") (Some "s") false) ].

Lemma accepted_not_restorable :
  exists (outp inp : pdict) (raw : dict (nd Qc)) (st : state Qc),
    check_outputs outp inp [] raw = Ok tt /\
    restore_data_arrays_with_properties raw outp st inp [] false = Err EKey /\
    exists c, make_diagnostic_component inp outp = Ok c /\
      diagnostic_call c (fun (u : unit) _ => (u, Ok raw)) tt st = (tt, Err EKey).
Proof.
  exists diag_al, inp_c, [("speed", cramp [3])], st_c.
  split; [vm_compute; reflexivity|]. split; [vm_compute; reflexivity|].
  exists (mkdcomp true inp_c diag_al). split; vm_compute; reflexivity.
Qed.

Lemma ex_accepted : NoDup (keys diag_c) /\
  check_outputs diag_c [] [] [("speed", cramp [3])] = Ok tt /\
  (forall name, In name (keys diag_c) -> forall al, ~ alias_of diag_c [] name al).
Proof.
  split; [apply nodupb_ok; reflexivity|]. split; [vm_compute; reflexivity|].
  intros name _ al (_ & [(p & [E|[]] & Ha)|(q & Hq & _)]); [injection E as <- <-; discriminate|discriminate].
Qed.

(** Two states that differ in an unused quantity. *)
Lemma ex_agree : let st' := dset "unused" (VTime 5%Z) (ddel "unused" st_c) in
  st' <> st_c /\ agree_on (keys inp_c) st_c st' /\ agree_on ["time"] st_c st'.
Proof.
  split; [|split].
  - intros H. apply (f_equal (dget "unused")) in H. vm_compute in H. discriminate H.
  - intros n [<-|[<-|[]]]; reflexivity.
  - intros n [<-|[]]; reflexivity.
Qed.

Lemma ex_unusable : wf_state (ddel "T" st_c) /\ unusable (ddel "T" st_c) inp_c /\ proper_inputs inp_c.
Proof.
  split; [apply wf_stateb_ok; reflexivity|]. split; [|apply proper_inputsb_ok; reflexivity].
  left. exists "T". split; [left; reflexivity|reflexivity].
Qed.

Lemma ex_validated : wf_state st_c /\ proper_inputs inp_c /\
  exists raw, raw_state empty_treg inp_c None st_c = Ok raw.
Proof.
  split; [apply wf_stateb_ok; reflexivity|]. split; [apply proper_inputsb_ok; reflexivity|].
  apply is_ok_ex. vm_compute. reflexivity.
Qed.

Lemma ex_tid : NoDup (keys inp_c) /\ NoDup (keys tend_c) /\ NoDup (keys diag_c) /\
  (forall X, In X (keys tend_c) -> ~ In (tendency_name "heater" X) (keys diag_c)) /\
  make_tendency_component false empty_treg inp_c tend_c diag_c "heater" false None "s^-1" = (empty_treg, Ok (c_t false)) /\
  exists u' t d, tendency_call empty_treg (c_t false) ac_t 0 st_c = (u', Ok (t, d)) /\ t <> [].
Proof.
  repeat (split; [first [apply nodupb_ok; reflexivity]|]).
  split. { intros X [<-|[]] [E|[]]. vm_compute in E. discriminate E. }
  split; [apply c_t_made|].
  destruct (pair_pair_is_ok (tendency_call empty_treg (c_t false) ac_t 0 st_c)) as (u' & t & d & E).
  { vm_compute. reflexivity. }
  exists u', t, d. split; auto. intros ->.
  apply (f_equal (fun p => match snd p with Ok (x, _) => length x | Err _ => 0 end)) in E.
  vm_compute in E. discriminate E.
Qed.

Lemma ex_construct : NoDup (keys inp_c) /\ NoDup (keys tend_c) /\ NoDup (keys diag_c) /\
  shared_known tendency_units inp_c tend_c /\ shared_known (fun u => u) inp_c diag_c /\
  ~ bad_tendency_properties inp_c tend_c diag_c /\
  bad_tendency_properties inp_c [("T", qprops ["z"] "K")] diag_c /\
  shared_known tendency_units inp_c [("T", qprops ["z"] "K")].
Proof.
  repeat (split; [first [apply nodupb_ok; reflexivity|apply shared_knownb_ok; reflexivity]|]).
  assert (K1 : shared_known tendency_units inp_c tend_c) by (apply shared_knownb_ok; reflexivity).
  assert (K2 : shared_known (fun u => u) inp_c diag_c) by (apply shared_knownb_ok; reflexivity).
  split; [|split].
  - intros Hb. destruct (make_tendency_iff false empty_treg inp_c tend_c diag_c "heater" false "s^-1") as [H _];
      try (apply nodupb_ok; reflexivity); auto.
    specialize (H Hb). rewrite c_t_made in H. discriminate.
  - right; right; right; right; left.
    exists "T", "K", "K". do 2 eexists. split.
    { exists (mkprops (Some ["z"; "*"]) false (Some "K") (Some "t") false), (qprops ["z"] "K"). repeat split. left; auto. }
    split; [reflexivity|]. split; [reflexivity|]. vm_compute. discriminate.
  - apply shared_knownb_ok. reflexivity.
Qed.

(** ** Steppers *)

Definition inp_s : pdict := [ ("wind", qprops ["*"] "m s^-1"); ("T", qprops ["z"; "*"] "K") ].
Definition out_s : pdict := [ ("T", mkprops None false (Some "K") None false); ("q", qprops ["z"] "kg") ].
Definition st_s : state Qc := dset "q" (VDA (mkda ["z"] (cramp [2]) [("units", "g")])) st_c.

(** Adds 1 to T and returns q unchanged. *)
Definition ac_s (u : nat) (raw : dict (rval Qc)) (dt : Z) : nat * res (dict (nd Qc) * dict (nd Qc)) :=
  (S u, Ok ([("speed", arr_of "wind" raw)],
            [("T", nd_map (Qcplus 1%Qc) (arr_of "T" raw)); ("q", arr_of "q" raw)])).

Definition c_s (tu : Z) : scomp :=
  match snd (make_stepper empty_treg inp_s diag_c out_s "stepper" true None tu) with
  | Ok c => c
  | Err _ => mkscomp false [] [] [] "" false [] None 0%Z
  end.

Lemma c_s_made : make_stepper empty_treg inp_s diag_c out_s "stepper" true None 1000000%Z = (empty_treg, Ok (c_s 1000000)).
Proof. vm_compute. reflexivity. Qed.

Lemma ex_stepper_hyps : NoDup (keys inp_s) /\ NoDup (keys diag_c) /\ NoDup (keys out_s) /\
  stars_ok out_s (s_inp (c_s 1000000)) /\ stars_ok (s_diag (c_s 1000000)) (s_inp (c_s 1000000)) /\
  make_stepper empty_treg inp_s diag_c out_s "stepper" true None 1000000%Z = (empty_treg, Ok (c_s 1000000)) /\
  wf_state st_s /\ exists u' d n, stepper_call empty_treg (c_s 1000000) ac_s 0 st_s 10000000%Z = (u', Ok (d, n)).
Proof.
  repeat (split; [first [apply nodupb_ok; reflexivity|apply stars_okb_ok; reflexivity|apply wf_stateb_ok; reflexivity
                        |apply c_s_made]|]).
  apply pair_pair_is_ok. vm_compute. reflexivity.
Qed.

Lemma ex_difference_hyps : let c := c_s 1000000 in
  proper_inputs (s_inp c) /\ dget "T" out_s = Some (mkprops None false (Some "K") None false) /\
  declared_dims out_s (s_inp c) "T" ["z"; "*"] /\
  unaliased out_s "T" /\ unaliased (s_inp c) "T" /\ unaliased (s_inp c) (tendency_name "stepper" "T") /\
  dims_known st_s (s_inp c) ["z"; "*"] /\ keeps_shape ac_s "T".
Proof.
  intros c. split; [apply proper_inputsb_ok; reflexivity|]. split; [reflexivity|].
  split. { eexists. split; [reflexivity|]. right. split; [reflexivity|]. eexists. split; reflexivity. }
  split; [apply unaliasedb_ok; reflexivity|]. split; [apply unaliasedb_ok; reflexivity|].
  split; [apply unaliasedb_ok; reflexivity|]. split; [apply dims_knownb_ok; reflexivity|].
  intros u raw dt u' rd rn old new H Ho Hn. unfold ac_s in H. injection H as _ _ <-.
  simpl in Hn. injection Hn as <-. unfold arr_of. rewrite Ho. reflexivity.
Qed.

Lemma ex_stepper_construct : shared_known (fun u => u) inp_s diag_c /\ shared_known (fun u => u) inp_s out_s /\
  ~ (bad_stepper_properties inp_s diag_c out_s \/ (true = true /\ no_difference inp_s out_s)) /\
  no_difference inp_s [("wind", qprops ["*"] "km s^-1")].
Proof.
  assert (K1 : shared_known (fun u => u) inp_s diag_c) by (apply shared_knownb_ok; reflexivity).
  assert (K2 : shared_known (fun u => u) inp_s out_s) by (apply shared_knownb_ok; reflexivity).
  split; auto. split; auto. split.
  - intros Hb. destruct (make_stepper_iff empty_treg inp_s diag_c out_s "stepper" true 1000000%Z) as [H _];
      try (apply nodupb_ok; reflexivity); auto.
    specialize (H Hb). rewrite c_s_made in H. discriminate.
  - exists "wind", (qprops ["*"] "km s^-1"), (qprops ["*"] "m s^-1").
    split; [left; reflexivity|]. split; [reflexivity|]. right. discriminate.
Qed.

(** With an alias, the same component works without the option and fails with it. *)
Definition out_al : pdict := [ ("T", mkprops None false (Some "K") (Some "t") false) ].

Lemma aliased_difference_fails :
  exists (inp diag outp : pdict) c0 c1 (ac : unit -> dict (rval Qc) -> Z -> unit * res (dict (nd Qc) * dict (nd Qc)))
      (st : state Qc) dt,
    make_stepper empty_treg inp diag outp "stepper" false None 1000000%Z = (empty_treg, Ok c0) /\
    make_stepper empty_treg inp diag outp "stepper" true None 1000000%Z = (empty_treg, Ok c1) /\
    is_ok (snd (stepper_call empty_treg c0 ac tt st dt)) = true /\
    snd (stepper_call empty_treg c1 ac tt st dt) = Err EKey.
Proof.
  exists inp_s, [], out_al.
  destruct (pair_is_ok (make_stepper empty_treg inp_s [] out_al "stepper" false None 1000000%Z)) as (g0 & c0 & E0);
    [vm_compute; reflexivity|].
  exists (mkscomp true inp_s [] out_al "stepper" false [] None 1000000%Z),
    (mkscomp true inp_s [("T_tendency_from_stepper", qprops ["z"; "*"] "K s^-1")] out_al "stepper" true
       ["T_tendency_from_stepper"] None 1000000%Z),
    (fun u raw dt => (u, Ok ([], [("t", arr_of "T" raw)]))), st_c, 10000000%Z.
  repeat split; vm_compute; reflexivity.
Qed.

(** With another time unit the value is per that unit, the label still per second. *)
Lemma time_unit_mislabelled :
  exists (inp diag outp : pdict) tu c (ac : nat -> dict (rval Qc) -> Z -> nat * res (dict (nd Qc) * dict (nd Qc)))
      (st : state Qc) dt u' dout nout d new old pt,
    make_stepper empty_treg inp diag outp "stepper" true None tu = (empty_treg, Ok c) /\
    stepper_call empty_treg c ac 0 st dt = (u', Ok (dout, nout)) /\
    dget "T_tendency_from_stepper" dout = Some d /\ dget "units" (attrs d) = Some "K s^-1" /\
    dget "T" nout = Some new /\ dget "T" st = Some (VDA old) /\ dget "units" (attrs old) = Some "K" /\
    dget "units" (attrs new) = Some "K" /\
    da_at d pt <> Qcdiv (Qcminus (da_at new pt) (da_at old pt)) (total_seconds dt).
Proof.
  pose (c := c_s 86400000000).
  destruct (stepper_call empty_treg c ac_s 0 st_s 10000000%Z) as [u' r] eqn:E.
  assert (Hchk : match r with
    | Ok (dout, nout) =>
        match dget "T_tendency_from_stepper" dout, dget "T" nout, dget "T" st_s with
        | Some d, Some new, Some (VDA old) =>
            (match dget "units" (attrs d) with Some u => String.eqb u "K s^-1" | None => false end) &&
            (match dget "units" (attrs new) with Some u => String.eqb u "K" | None => false end) &&
            (match dget "units" (attrs old) with Some u => String.eqb u "K" | None => false end) &&
            negb (Qc_eq_bool (da_at d (fun _ => 0)) (Qcdiv (Qcminus (da_at new (fun _ => 0)) (da_at old (fun _ => 0))) (total_seconds 10000000%Z)))
        | _, _, _ => false
        end
    | Err _ => false
    end = true).
  { replace r with (snd (stepper_call empty_treg c ac_s 0 st_s 10000000%Z)) by (rewrite E; reflexivity).
    vm_compute. reflexivity. }
  destruct r as [[dout nout]|e]; [|discriminate].
  destruct (dget "T_tendency_from_stepper" dout) as [d|] eqn:Ed; [|discriminate].
  destruct (dget "T" nout) as [new|] eqn:En; [|discriminate].
  destruct (dget "T" st_s) as [[old|t]|] eqn:Eo; try discriminate.
  apply andb_true_iff in Hchk as [Hchk H4]. apply andb_true_iff in Hchk as [Hchk H3].
  apply andb_true_iff in Hchk as [H1 H2].
  destruct (dget "units" (attrs d)) as [x|] eqn:Ex; [|discriminate]. apply String.eqb_eq in H1. subst x.
  destruct (dget "units" (attrs new)) as [x|] eqn:Ex2; [|discriminate]. apply String.eqb_eq in H2. subst x.
  destruct (dget "units" (attrs old)) as [x|] eqn:Ex3; [|discriminate]. apply String.eqb_eq in H3. subst x.
  exists inp_s, diag_c, out_s, 86400000000%Z, c, ac_s, st_s, 10000000%Z, u', dout, nout, d, new, old, (fun _ => 0).
  split; [vm_compute; reflexivity|]. repeat (split; [auto|]).
  intros Hc. apply negb_true_iff in H4. rewrite Hc in H4. unfold Qc_eq_bool in H4.
  destruct (Qc_eq_dec _ _); congruence.
Qed.

(** ** Shared dictionaries *)

Definition world_c : world :=
  mkworld [("Heater", mktclass false inp_c tend_c diag_c None "s^-1"); ("Other", mktclass true inp_c tend_c diag_c None "s^-1")]
          [("Step", mksclass inp_s diag_c out_s None 1000000%Z)] empty_treg.

Definition first_a : world * res inst := new_tendency world_c "Heater" "a" true.
Definition inst_of (r : res inst) : inst := match r with Ok i => i | Err _ => mkinst "" "" false [] None end.

(** Building a second instance breaks the first one. *)
Lemma second_instance_breaks_first :
  exists (w0 w : world) cls i o (ac : nat -> dict (rval Qc) -> nat * res (dict (nd Qc) * dict (nd Qc))) (st : state Qc),
    new_tendency w0 cls "a" true = (w, Ok i) /\
    is_ok (snd (call_tendency w i ac 0 st)) = true /\
    is_ok (snd (create w o)) = true /\
    snd (call_tendency (create_all w [o]) i ac 0 st) = Err EMissingOutput.
Proof.
  exists world_c, (fst first_a), "Heater", (inst_of (snd first_a)), (NewTendency "Heater" "b" true), ac_t, st_c.
  split; [|split; [|split]]; vm_compute; reflexivity.
Qed.

(** Nor can an instance without the option be used after one with it. *)
Lemma instance_with_option_breaks_next :
  exists (w : world) cls i0 i1 w0 w1 (ac : nat -> dict (rval Qc) -> nat * res (dict (nd Qc) * dict (nd Qc))) (st : state Qc),
    new_tendency w cls "a" false = (w0, Ok i0) /\ is_ok (snd (call_tendency w0 i0 ac 0 st)) = true /\
    new_tendency (fst (new_tendency w cls "b" true)) cls "a" false = (w1, Ok i1) /\
    snd (call_tendency w1 i1 ac 0 st) = Err EMissingOutput.
Proof.
  pose (a := new_tendency world_c "Heater" "a" false).
  pose (b := new_tendency (fst (new_tendency world_c "Heater" "b" true)) "Heater" "a" false).
  exists world_c, "Heater", (inst_of (snd a)), (inst_of (snd b)), (fst a), (fst b), ac_t, st_c.
  split; [|split; [|split]]; vm_compute; reflexivity.
Qed.

Lemma ex_unaffected :
  (forall c k, dget c (w_t world_c) = Some k -> NoDup (keys (k_tend k))) /\
  new_tendency world_c "Heater" "a" true = (fst first_a, Ok (inst_of (snd first_a))) /\
  Forall (harmless_to_tendency (inst_of (snd first_a)))
    [NewTendency "Heater" "b" false; NewTendency "Other" "b" true; NewTendency "Heater" "a" true; NewStepper "Step" "s" true].
Proof.
  split; [|split].
  - intros c k Hk. simpl in Hk. destruct (String.eqb c "Heater"); [injection Hk as <-; apply nodupb_ok; reflexivity|].
    destruct (String.eqb c "Other"); [injection Hk as <-; apply nodupb_ok; reflexivity|discriminate].
  - vm_compute. reflexivity.
  - apply Forall_cons; [left; reflexivity|]. apply Forall_cons; [right; left; discriminate|].
    apply Forall_cons; [right; right; split; reflexivity|]. apply Forall_cons; [exact I|]. constructor.
Qed.
