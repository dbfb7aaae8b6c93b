(** Concrete cases for the property theorems about declared inputs (C83). *)
From Coq Require Import String List Bool Arith ZArith QArith Qcanon Lia Permutation.
From Verif Require Import Prelude PreludeFacts ArithM NdArray NdFacts Units DataArrayM SpecDa SpecUnits SpecArrays Wildcard GetNp ExtractFacts
  ExampleRegistry Checks Tracers SpecTracers Components SpecComponents SpecCalls CallFacts Composite SpecComposite Steppers SpecNested SpecInputs InputsFacts
  Ex_Components Ex_Tracers Ex_Steppers.
Import ListNotations.
Open Scope string_scope.
Open Scope nat_scope.
Open Scope list_scope.

#[local] Existing Instance ex_registry | 5.

(** ** Decidable hypotheses *)

Definition satisfiesb {T} {A : Arith T} {R : Registry} (st : state T) (pd : pdict) : bool :=
  wf_stateb st && wf_pdictb pd && completeb st pd && known_unitsb st pd && no_repeatedb st pd &&
  is_ok (get_numpy_arrays_with_properties st pd).

Lemma satisfiesb_ok : forall {T} {A : Arith T} {R : Registry} (st : state T) pd, satisfiesb st pd = true -> satisfies st pd.
Proof.
  intros T A R st pd H. unfold satisfiesb in H. repeat (apply andb_true_iff in H; destruct H as [H ?]).
  apply wf_stateb_ok in H. apply wf_pdictb_ok in H4. apply completeb_ok in H3. apply known_unitsb_ok in H2. apply no_repeatedb_ok in H1.
  apply is_ok_ex in H0. destruct H0 as (raw & Hr).
  destruct (extraction_iff st pd H H4 H3 H2 H1) as (Hbad & _).
  split; [exact H3|]. split; [exact H2|]. split; [|split]; intros Hb; rewrite Hbad in Hr by auto; discriminate Hr.
Qed.

Definition coversb (l : list (string * props)) : bool :=
  forallb (fun xp => forallb (fun yq =>
    negb (String.eqb (fst xp) (fst yq)) ||
    match p_dims (snd xp), p_dims (snd yq) with
    | Some ds, Some ds' => mem "*" ds || forallb (fun d => String.eqb d "*" || mem d ds) ds'
    | _, _ => true
    end) l) l.

Lemma coversb_ok : forall l, coversb l = true -> covers l.
Proof.
  intros l H X p q ds ds' d Hp Hq Hds Hds' Hns Hd Hne. unfold coversb in H.
  rewrite forallb_forall in H. specialize (H _ Hp). cbv beta in H. rewrite forallb_forall in H. specialize (H _ Hq). cbn [fst snd] in H.
  rewrite String.eqb_refl, Hds, Hds' in H. cbn [negb orb] in H. apply orb_true_iff in H. destruct H as [H|H].
  - exfalso. apply Hns. apply mem_In. exact H.
  - rewrite forallb_forall in H. specialize (H _ Hd). apply orb_true_iff in H. destruct H as [H|H].
    + exfalso. apply Hne. apply String.eqb_eq. exact H.
    + apply mem_In. exact H.
Qed.

Definition knownb {R : Registry} (l : list (string * props)) : bool :=
  forallb (fun xp => match p_units (snd xp) with Some u => match parse u with Some _ => true | None => false end | None => false end) l.

Lemma knownb_all : forall {R : Registry} l, knownb l = true -> forall X p, In (X, p) l -> units_known R p.
Proof.
  intros R l H X p Hin. unfold knownb in H. rewrite forallb_forall in H. specialize (H _ Hin). cbn [snd] in H. unfold units_known.
  destruct (p_units p) as [u|]; [|discriminate H]. destruct (parse u) as [x|] eqn:E; [|discriminate H]. eauto.
Qed.

Lemma knownb_ok : forall {R : Registry} l, knownb l = true -> known l.
Proof. intros R l H X _ p Hp. apply (knownb_all l H X). apply In_entries. exact Hp. Qed.

(** ** A component with tracers and one that reads a tracer as a quantity *)

Definition c_i1 : tcomp := mktcomp true [("temperature", qprops ["z"; "*"] "K")] [("temperature", qprops ["z"; "*"] "K s^-1")] [] "a" false [] (Some p_tr) "s^-1".
Definition c_i2 : tcomp := mktcomp true [("temperature", qprops ["*"] "K"); ("soot", qprops ["z"; "y"] "g")] [] [] "b" false [] None "s^-1".
Definition cs_i : list tcomp := [c_i1; c_i2].

Definition composite_i : pdict := match composite_inputs (fun l => l) g_tr (map seen cs_i) with Ok i => i | Err _ => [] end.
Definition cfg_i : tstep :=
  match make_tstep (fun l => l) ex_clean g_tr (map (fun c => (true, seen c)) cs_i) "step" false with Ok c => c | Err _ => mktstep false "" [] [] [] end.

Lemma ex_inputs : (forall l : list string, NoDup l -> Permutation ((fun l => l) l) l) /\ consistent g_tr /\ wf_state st_tr /\
  (exists t, dget "time" st_tr = Some t) /\ (forall c, In c cs_i -> sound_component g_tr st_tr c) /\
  composite_inputs (fun l => l) g_tr (map seen cs_i) = Ok composite_i /\
  keys composite_i = ["temperature"; "soot"; "ash"; "vapour"] /\
  known (all_reads g_tr cs_i) /\ covers (all_reads g_tr cs_i) /\ satisfies st_tr composite_i.
Proof.
  split; [auto|]. split; [exact ex_consistent|]. split; [apply wf_stateb_ok; reflexivity|].
  split; [eexists; reflexivity|]. split.
  { intros c [<-|[<-|[]]].
    - split; [reflexivity|]. split; [split; [apply wf_pdictb_ok; reflexivity|apply no_repeatedb_ok; reflexivity]|].
      intros p Hp. injection Hp as <-. split; [|apply no_repeatedb_ok; reflexivity].
      exists qd_tr. split; [exact ex_has_dims|apply one_starb_ok; reflexivity].
    - split; [reflexivity|]. split; [split; [apply wf_pdictb_ok; reflexivity|apply no_repeatedb_ok; reflexivity]|].
      intros p Hp. discriminate Hp. }
  split; [reflexivity|]. split; [vm_compute; reflexivity|].
  split; [apply knownb_ok; vm_compute; reflexivity|]. split; [apply coversb_ok; reflexivity|].
  apply satisfiesb_ok. vm_compute. reflexivity.
Qed.

Lemma ex_stepper_inputs :
  make_tstep (fun l => l) ex_clean g_tr (map (fun c => (true, seen c)) cs_i) "step" false = Ok cfg_i /\
  known (composite_i ++ ts_out cfg_i) /\ covers (composite_i ++ ts_out cfg_i) /\ satisfies st_tr (ts_inp cfg_i).
Proof.
  split; [reflexivity|]. split; [apply knownb_ok; vm_compute; reflexivity|]. split; [apply coversb_ok; vm_compute; reflexivity|].
  apply satisfiesb_ok. vm_compute. reflexivity.
Qed.

Definition ds_i : list dcomp := [mkdcomp true [("temperature", qprops ["z"; "*"] "K")] [("p", qprops ["*"] "K")]; mkdcomp true [("soot", qprops ["z"; "y"] "g"); ("temperature", qprops ["*"] "K")] []].
Definition dcomposite_i : pdict := match composite_inputs (fun l => l) empty_treg (map dseen ds_i) with Ok i => i | Err _ => [] end.

Lemma ex_diagnostic_inputs :
  (forall c, In c ds_i -> d_init c = true /\ sound_inputs st_tr (d_inp c)) /\
  composite_inputs (fun l => l) empty_treg (map dseen ds_i) = Ok dcomposite_i /\
  known (flat_map d_inp ds_i) /\ covers (flat_map d_inp ds_i) /\ satisfies st_tr dcomposite_i.
Proof.
  split.
  { intros c [<-|[<-|[]]]; (split; [reflexivity|]; split; [apply wf_pdictb_ok; reflexivity|apply no_repeatedb_ok; reflexivity]). }
  split; [reflexivity|]. split; [apply knownb_ok; vm_compute; reflexivity|]. split; [apply coversb_ok; reflexivity|].
  apply satisfiesb_ok. vm_compute. reflexivity.
Qed.

(** One component wants T on any columns, the other on x only. *)
Definition c_r1 : tcomp := mktcomp true [("T", qprops ["*"; "z"] "K")] [] [] "a" false [] None "s^-1".
Definition c_r2 : tcomp := mktcomp true [("T", qprops ["x"] "K")] [] [] "b" false [] None "s^-1".

Lemma ex_uncovered : (forall X p, In (X, p) (concat [t_inp c_r1; t_inp c_r2]) -> units_known ex_registry p) /\
  combine_properties (fun l => l) [t_inp c_r1; t_inp c_r2] [] = Ok [("T", qprops ["z"; "x"] "K")] /\ ~ covers (concat [t_inp c_r1; t_inp c_r2]).
Proof.
  split; [apply knownb_all; vm_compute; reflexivity|]. split; [vm_compute; reflexivity|].
  intros H. assert (In "z" ["x"]) as [E|[]]; [|discriminate E].
  apply (H "T" (qprops ["x"] "K") (qprops ["*"; "z"] "K") ["x"] ["*"; "z"] "z"); cbn; auto; [|discriminate].
  intros [E|[]]. discriminate E.
Qed.

(** ** States that have all inputs and are refused *)

Lemma dims_refused : exists cs inp (st : state Qc) c,
  @composite_inputs ex_registry (fun l => l) empty_treg (map seen cs) = Ok inp /\ @satisfies Qc ex_registry st inp /\
  In c cs /\ (forall c, In c cs -> @sound_component Qc empty_treg st c) /\
  forall {U} (ac : U -> dict (rval Qc) -> U * res (dict (nd Qc) * dict (nd Qc))) u,
    @tendency_call Qc ArithQc ex_registry U empty_treg c ac u st = (u, Err EInvalidState).
Proof.
  exists [c_r1; c_r2], [("T", qprops ["z"; "x"] "K")], st_c, c_r2.
  split; [vm_compute; reflexivity|]. split; [apply satisfiesb_ok; vm_compute; reflexivity|]. split; [cbn; auto|]. split.
  - intros c [<-|[<-|[]]]; (split; [reflexivity|]; split; [split; [apply wf_pdictb_ok; reflexivity|apply no_repeatedb_ok; reflexivity]|]; intros p Hp; discriminate Hp).
  - intros U ac u. reflexivity.
Qed.

(** One component names x for "A" and leaves it to '*' for "B"; another names it for "B". *)
Definition c_r3 : tcomp := mktcomp true [("A", qprops ["*"; "x"] "K"); ("B", qprops ["*"] "K")] [] [] "a" false [] None "s^-1".
Definition c_r4 : tcomp := mktcomp true [("B", qprops ["*"; "x"] "K")] [] [] "b" false [] None "s^-1".
Definition st_r : state Qc := [("time", VTime 0%Z); ("A", VDA (mkda ["x"] (cramp [2]) [("units", "K")])); ("B", VDA (mkda ["x"] (cramp [2]) [("units", "K")]))].

Lemma repeated_refused : exists cs inp (st : state Qc) c raw,
  @composite_inputs ex_registry (fun l => l) empty_treg (map seen cs) = Ok inp /\ @satisfies Qc ex_registry st inp /\
  covers (all_reads empty_treg cs) /\ @get_numpy_arrays_with_properties Qc ArithQc ex_registry st inp = Ok raw /\ In c cs /\
  forall {U} (ac : U -> dict (rval Qc) -> U * res (dict (nd Qc) * dict (nd Qc))) u,
    @tendency_call Qc ArithQc ex_registry U empty_treg c ac u st = (u, Err EValue).
Proof.
  exists [c_r3; c_r4], [("A", qprops ["*"; "x"] "K"); ("B", qprops ["*"; "x"] "K")], st_r, c_r3. eexists.
  split; [vm_compute; reflexivity|]. split; [apply satisfiesb_ok; vm_compute; reflexivity|]. split; [apply coversb_ok; reflexivity|].
  split; [vm_compute; reflexivity|]. split; [cbn; auto|]. intros U ac u. reflexivity.
Qed.
