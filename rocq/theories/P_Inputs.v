(** Property theorems about the inputs that composites and steppers declare (C83). *)
From Coq Require Import String List Bool Arith ZArith QArith Qcanon Permutation.
From Verif Require Import Prelude ArithM NdArray Units DataArrayM GetNp SpecArrays SpecComposite ExampleRegistry Tracers SpecTracers Components Composite Steppers
  SpecNested SpecInputs InputsFacts Ex_Components Ex_Tracers Ex_Steppers Ex_Inputs.
Import ListNotations.
Open Scope string_scope.
Open Scope nat_scope.
Open Scope list_scope.

#[local] Existing Instance ex_registry | 5.

(** C83: a state that has what a composite declares as input is accepted by each of its components, tracers included: array_call is run.  [covers] and [sound_component] are needed, see below. *)
Theorem c83_composite_partial : forall {T : Type} {A : Arith T} {R : Registry} ord, (forall l, NoDup l -> Permutation (ord l) l) -> forall g cs inp (st : state T), consistent g -> wf_state st ->
  (exists t, dget "time" st = Some t) -> (forall c, In c cs -> sound_component g st c) ->
  composite_inputs ord g (map seen cs) = Ok inp -> known (all_reads g cs) -> covers (all_reads g cs) ->
  satisfies st inp ->
  forall c, In c cs -> forall (ac : dict (rval T) -> res (dict (nd T) * dict (nd T))) raws, exists raw,
  fst (tendency_call g c (fun s r => (s ++ [r], ac r)) raws st) = raws ++ [raw].
Proof. exact @composite_inputs_suffice. Qed.
Print Assumptions c83_composite_partial.

(** A component with tracers, and one that reads one of the tracers as a quantity of its own. *)
Example c83_composite_hypotheses_met : (forall l : list string, NoDup l -> Permutation ((fun l => l) l) l) /\ consistent g_tr /\ wf_state st_tr /\
  (exists t, dget "time" st_tr = Some t) /\ (forall c, In c cs_i -> sound_component g_tr st_tr c) /\
  composite_inputs (fun l => l) g_tr (map seen cs_i) = Ok composite_i /\
  keys composite_i = ["temperature"; "soot"; "ash"; "vapour"] /\
  known (all_reads g_tr cs_i) /\ covers (all_reads g_tr cs_i) /\ satisfies st_tr composite_i.
Proof. exact @ex_inputs. Qed.

(** C83: the same of the input_properties of a time stepper. *)
Theorem c83_stepper_partial : forall {T : Type} {A : Arith T} {R : Registry} ord, (forall l, NoDup l -> Permutation (ord l) l) -> forall g clean cs name tid cfg inp (st : state T), consistent g -> wf_state st ->
  (exists t, dget "time" st = Some t) -> (forall c, In c cs -> sound_component g st c) ->
  make_tstep ord clean g (map (fun c => (true, seen c)) cs) name tid = Ok cfg ->
  composite_inputs ord g (map seen cs) = Ok inp ->
  known (all_reads g cs) -> covers (all_reads g cs) -> known (inp ++ ts_out cfg) -> covers (inp ++ ts_out cfg) ->
  satisfies st (ts_inp cfg) ->
  forall c, In c cs -> forall (ac : dict (rval T) -> res (dict (nd T) * dict (nd T))) raws, exists raw,
  fst (tendency_call g c (fun s r => (s ++ [r], ac r)) raws st) = raws ++ [raw].
Proof. exact @stepper_inputs_suffice. Qed.
Print Assumptions c83_stepper_partial.

(**  *)
Example c83_stepper_hypotheses_met : make_tstep (fun l => l) ex_clean g_tr (map (fun c => (true, seen c)) cs_i) "step" false = Ok cfg_i /\
  known (composite_i ++ ts_out cfg_i) /\ covers (composite_i ++ ts_out cfg_i) /\ satisfies st_tr (ts_inp cfg_i).
Proof. exact @ex_stepper_inputs. Qed.

(** C83: the same of a composite of diagnostic components. *)
Theorem c83_diagnostic_composite_partial : forall {T : Type} {A : Arith T} {R : Registry} ord, (forall l, NoDup l -> Permutation (ord l) l) -> forall g cs inp (st : state T), wf_state st ->
  (exists t, dget "time" st = Some t) -> (forall c, In c cs -> d_init c = true /\ sound_inputs st (d_inp c)) ->
  composite_inputs ord g (map dseen cs) = Ok inp -> known (flat_map d_inp cs) -> covers (flat_map d_inp cs) ->
  satisfies st inp ->
  forall c, In c cs -> forall (ac : dict (rval T) -> res (dict (nd T))) raws, exists raw,
  fst (diagnostic_call c (fun s r => (s ++ [r], ac r)) raws st) = raws ++ [raw].
Proof. exact @diagnostic_inputs_suffice. Qed.
Print Assumptions c83_diagnostic_composite_partial.

(**  *)
Example c83_diagnostic_hypotheses_met : (forall c, In c ds_i -> d_init c = true /\ sound_inputs st_tr (d_inp c)) /\
  composite_inputs (fun l => l) empty_treg (map dseen ds_i) = Ok dcomposite_i /\
  known (flat_map d_inp ds_i) /\ covers (flat_map d_inp ds_i) /\ satisfies st_tr dcomposite_i.
Proof. exact @ex_diagnostic_inputs. Qed.

(** C83: the same of any combination of property dictionaries. *)
Theorem c83_properties_partial : forall {T : Type} {R : Registry} ord, (forall l, NoDup l -> Permutation (ord l) l) -> forall pds res (st : state T), known (concat pds) -> wf_state st ->
  combine_properties ord pds [] = Ok res -> covers (concat pds) -> satisfies st res ->
  forall pd, In pd pds -> satisfies st pd.
Proof. exact @combined_satisfied. Qed.
Print Assumptions c83_properties_partial.

(** C83: whenever a declaration without the wildcard leaves out a dim that another declaration names, some state has all combined inputs and has a dim that the component does not take (C03, C13: it is refused). *)
Theorem c83_covers_needed : forall {T : Type} {A : Arith T} {R : Registry} ord, (forall l, NoDup l -> Permutation (ord l) l) -> forall pds res, (forall X p, In (X, p) (concat pds) -> units_known R p) ->
  combine_properties ord pds [] = Ok res -> ~ covers (concat pds) ->
  exists st : state T, wf_state st /\ dget "time" st <> None /\ satisfies st res /\
  ~ (forall pd, In pd pds -> ~ unexpected_dim st pd).
Proof. exact @combined_unsatisfied. Qed.
Print Assumptions c83_covers_needed.

(**  *)
Example c83_covers_hypotheses_met : (forall X p, In (X, p) (concat [t_inp c_r1; t_inp c_r2]) -> units_known ex_registry p) /\
  combine_properties (fun l => l) [t_inp c_r1; t_inp c_r2] [] = Ok [("T", qprops ["z"; "x"] "K")] /\ ~ covers (concat [t_inp c_r1; t_inp c_r2]).
Proof. exact @ex_uncovered. Qed.

(** C83 in full is false: a state that has all inputs of the composite, refused by a component because of its dims, *)
Theorem c83_dims_refuted : exists cs inp (st : state Qc) c,
  @composite_inputs ex_registry (fun l => l) empty_treg (map seen cs) = Ok inp /\ @satisfies Qc ex_registry st inp /\
  In c cs /\ (forall c, In c cs -> @sound_component Qc empty_treg st c) /\
  forall {U} (ac : U -> dict (rval Qc) -> U * res (dict (nd Qc) * dict (nd Qc))) u,
  @tendency_call Qc ArithQc ex_registry U empty_treg c ac u st = (u, Err EInvalidState).
Proof. exact @dims_refused. Qed.
Print Assumptions c83_dims_refuted.

(** ... and one from which the inputs of the composite can be extracted, but not those of the component. *)
Theorem c83_repeated_refuted : exists cs inp (st : state Qc) c raw,
  @composite_inputs ex_registry (fun l => l) empty_treg (map seen cs) = Ok inp /\ @satisfies Qc ex_registry st inp /\
  covers (all_reads empty_treg cs) /\ @get_numpy_arrays_with_properties Qc ArithQc ex_registry st inp = Ok raw /\ In c cs /\
  forall {U} (ac : U -> dict (rval Qc) -> U * res (dict (nd Qc) * dict (nd Qc))) u,
  @tendency_call Qc ArithQc ex_registry U empty_treg c ac u st = (u, Err EValue).
Proof. exact @repeated_refused. Qed.
Print Assumptions c83_repeated_refuted.
