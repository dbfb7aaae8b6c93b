(** What exactly happens where a property holds in part (C06, C07, C10, C15, C22, C27, C47, C63). *)
From Coq Require Import String List Bool Arith ZArith QArith Qcanon Permutation.
From Verif Require Import Prelude ArithM NdArray Units DataArrayM SpecArrays ExampleRegistry GetNp Restore InitNp NetCDF Tracers SpecTracers
  Components SpecComponents SpecCalls Composite SpecComposite Steppers SpecSteppers Exact Ex_Arrays Ex_Components Ex_Steppers Ex_Tracers Ex_Exact.
Import ListNotations.
Open Scope string_scope.
Open Scope nat_scope.
Open Scope list_scope.

#[local] Existing Instance ex_registry | 5.

(** C06: for an output with '*' whose named dims the inputs have, the shape of the raw array makes no
    difference, only its elements in row-major order: whatever is returned or raised for one shape is for the other. *)
Theorem c06_shape_ignored : forall {T : Type}, forall (st : state T) raw raw' outp inp ign, wf_state st -> NoDup (keys outp) ->
  (forall name ds, declared_dims outp inp name ds ->
  dget (out_key outp inp name) raw' = dget (out_key outp inp name) raw \/
  In "*" ds /\ dims_known st inp ds /\ exists ra ra', dget (out_key outp inp name) raw = Some ra /\ dget (out_key outp inp name) raw' = Some ra' /\
  data ra' = data ra /\ prod (shape ra') = prod (shape ra)) ->
  restore_data_arrays_with_properties raw' outp st inp ign false = restore_data_arrays_with_properties raw outp st inp ign false.
Proof. exact @exact_wildcard. Qed.
Print Assumptions c06_shape_ignored.

(** Temperature given with its two axes exchanged, column_mass with one axis given as a (2, 3) array. *)
Example c06_shape_ignored_hypotheses_met : wf_state st_ex /\ NoDup (keys outp_ex) /\
  (forall name ds, declared_dims outp_ex pd_ex name ds ->
  dget (out_key outp_ex pd_ex name) raw_turned = dget (out_key outp_ex pd_ex name) raw_ex \/
  In "*" ds /\ dims_known st_ex pd_ex ds /\ exists ra ra', dget (out_key outp_ex pd_ex name) raw_ex = Some ra /\
  dget (out_key outp_ex pd_ex name) raw_turned = Some ra' /\ data ra' = data ra /\ prod (shape ra') = prod (shape ra)) /\
  is_ok (restore_data_arrays_with_properties raw_turned outp_ex st_ex pd_ex [] false) = true /\
  option_map (fun a => shape a) (dget "T" raw_ex) = Some [6; 2] /\ option_map (fun a => shape a) (dget "T" raw_turned) = Some [2; 6].
Proof. exact @ex_shape_ignored. Qed.

(** C06: every DataArray returned has the elements of the raw array under the output's key, in row-major order. *)
Theorem c06_row_major : forall {T : Type}, forall (st : state T) raw outp inp ign b out, NoDup (keys outp) ->
  restore_data_arrays_with_properties raw outp st inp ign b = Ok out ->
  forall name q, dget name out = Some q -> exists ra, dget (out_key outp inp name) raw = Some ra /\ data (arr q) = data ra.
Proof. exact @exact_data. Qed.
Print Assumptions c06_row_major.

(** The raw array has shape (2, 6), the output shape (2, 3, 2). *)
Example c06_row_major_hypotheses_met : exists out, restore_data_arrays_with_properties raw_turned outp_ex st_ex pd_ex [] false = Ok out /\
  exists q, dget "temperature" out = Some q /\ dims q = ["y"; "x"; "z"] /\ data (arr q) = data (ramp [2; 6]).
Proof. exact @ex_row_major. Qed.

(** C07: if one output's key in the raw dictionary is not the name of an output, as with an alias, the
    initialised arrays can never be turned into DataArrays: there is an exception. *)
Theorem c07_alias_fails : forall {T : Type} {A : Arith T}, forall (st : state T) raw outp inp tn out name, NoDup (keys outp) ->
  initialize_numpy_arrays_with_properties outp raw inp None tn = Ok out ->
  In name (keys outp) -> ~ In (out_key outp inp name) (keys outp) ->
  exists e, restore_data_arrays_with_properties out outp st inp [] false = Err e.
Proof. exact @exact_initialised. Qed.
Print Assumptions c07_alias_fails.

(** column_mass with the alias cm. *)
Example c07_alias_fails_hypotheses_met : exists raw out, NoDup (keys outp_alias) /\ @get_numpy_arrays_with_properties Qc ArithQc table_registry st_ex pd_plain = Ok raw /\
  initialize_numpy_arrays_with_properties outp_alias raw pd_plain None [] = Ok out /\
  In "column_mass" (keys outp_alias) /\ ~ In (out_key outp_alias pd_plain "column_mass") (keys outp_alias).
Proof. exact @ex_initialised. Qed.

(** C10: each output of an accepted dictionary is there under the key it will be looked up by, or it is there
    under its name or an alias instead, and then there is an exception, whatever the state. *)
Theorem c10_accepted : forall {T : Type}, forall (outp inp : pdict) ign (raw : dict (nd T)), NoDup (keys outp) -> check_outputs outp inp ign raw = Ok tt ->
  forall st name, In name (keys outp) -> ~ In name ign -> 
  In (out_key outp inp name) (keys raw) \/
  (exists k, k <> out_key outp inp name /\ (k = name \/ alias_of outp inp name k) /\ In k (keys raw)) /\
  exists e, restore_data_arrays_with_properties raw outp st inp ign false = Err e.
Proof. exact @exact_accepted. Qed.
Print Assumptions c10_accepted.

(** An output with an alias, given under its name. *)
Example c10_accepted_hypotheses_met : NoDup (keys diag_al) /\ check_outputs diag_al inp_c [] [("speed", cramp [3])] = Ok tt /\
  In "speed" (keys diag_al) /\ ~ In (out_key diag_al inp_c "speed") (keys [("speed", cramp [3])]).
Proof. exact @ex_accepted_otherwise. Qed.

(** C15: a Stepper with tendencies_in_diagnostics can return only if each output has the name 'tracers' or
    a name under which an input is passed to array_call: its own if it is an input without alias. *)
Theorem c15_needs_names : forall {T : Type} {A : Arith T} {R : Registry}, forall {U} g c (ac : U -> dict (rval T) -> Z -> U * res (dict (nd T) * dict (nd T))) u (st : state T) dt u' d n,
  stepper_call g c ac u st dt = (u', Ok (d, n)) -> s_tid c = true -> 
  forall X, In X (keys (s_out c)) -> X = "tracers" \/ exists name p, In (name, p) (s_inp c) /\ X = raw_name name p.
Proof. exact @exact_difference. Qed.
Print Assumptions c15_needs_names.

(** A Stepper with the input and output T. *)
Example c15_needs_names_hypotheses_met : s_tid (c_s 1000000) = true /\ In "T" (keys (s_out (c_s 1000000))) /\
  exists u' d n, stepper_call empty_treg (c_s 1000000) ac_s 0 st_s 10000000%Z = (u', Ok (d, n)).
Proof. exact @ex_difference_returns. Qed.

(** C22: exactly which declarations are combined: those where the first has '*', or the named dims agree. *)
Theorem c22_combined_iff : forall ord, (forall l, NoDup l -> Permutation (ord l) l) -> forall d1 d2,
  (exists r, combine_dims ord d1 d2 = Ok r) <->
  In "*" (fst d1) \/ forall d, d <> "*" -> (In d (fst d1) <-> In d (fst d2)).
Proof. exact @exact_combine. Qed.
Print Assumptions c22_combined_iff.

(** C27: what a call that raised leaves behind.  If the timestep was refused, nothing changed and no
    component was called.  Else the timestep is remembered; the tendencies have been added to the
    memory if and only if all had units of the quantity per second (and, if the exception came only
    when the diagnostics were made, the memory is as after a successful call). *)
Theorem c27_after_failure : forall {T : Type} {A : Arith T} {R : Registry}, forall {U} cfg (prog : icaller (T:=T) U) a u (st : state T) dt a' u' e,
  adams_bashforth cfg prog (a, u) st dt = ((a', u'), Err e) ->
  (ab_dt a <> None /\ ab_dt a <> Some dt /\ e = EValue /\ a' = a /\ u' = u) \/
  (ab_order a' = ab_order a /\ ab_dt a' = Some dt /\
  exists r, prog u st dt = (u', r) /\
  (r = Err e /\ ab_hist a' = ab_hist a \/
  exists tend diag, r = Ok (tend, diag) /\
  ((exists X t, In (X, t) tend /\ ~ has_rate st X t) /\ ab_hist a' = ab_hist a \/
  exists h, keys h = keys tend /\
  (ab_hist a' = ab_hist a ++ [h] \/
  ts_tid cfg = true /\ ab_hist a' = (if Nat.eqb (length (ab_hist a ++ [h])) (ab_order a) then tl (ab_hist a ++ [h]) else ab_hist a ++ [h]))))).
Proof. exact @exact_failed. Qed.
Print Assumptions c27_after_failure.

(** A tendency of another length than the quantity: the tendencies are remembered. *)
Example c27_after_failure_hypotheses_met : let a := mkab (T:=Qc) 2 None [] in
  (exists a', adams_bashforth cfg_0 prog_fix (a, tt) st_bad 1000000%Z = ((a', tt), Err EValue) /\ length (ab_hist a') = 1) /\
  exists a', adams_bashforth cfg_0 prog_fix (mkab 1 None [], tt) st_bad 1000000%Z = ((a', tt), Err EValue) /\ ab_order a' <= length (ab_hist a').
Proof. exact @ex_failed. Qed.

(** C27: once the memory holds as many tendencies as the order, no call ever forgets any of them, and
    each successful call adds one. *)
Theorem c27_never_trimmed : forall {T : Type} {A : Arith T} {R : Registry}, forall {U} cfg (prog : icaller (T:=T) U) a u, ab_order a <= length (ab_hist a) ->
  (forall calls, exists more, ab_hist (fst (after (adams_bashforth cfg prog) calls (a, u))) = ab_hist a ++ more) /\ (forall dt log a' u', history (adams_bashforth cfg prog) prog dt (a, u) log (a', u') -> length (ab_hist a') = length (ab_hist a) + length log).
Proof. exact @exact_grows. Qed.
Print Assumptions c27_never_trimmed.

(** The memory of a first-order stepper after one failed call. *)
Example c27_never_trimmed_hypotheses_met : let a := mkab (T:=Qc) 2 None [] in
  (exists a', adams_bashforth cfg_0 prog_fix (a, tt) st_bad 1000000%Z = ((a', tt), Err EValue) /\ length (ab_hist a') = 1) /\
  exists a', adams_bashforth cfg_0 prog_fix (mkab 1 None [], tt) st_bad 1000000%Z = ((a', tt), Err EValue) /\ ab_order a' <= length (ab_hist a').
Proof. exact @ex_failed. Qed.

(** C47: a registration refused because the component of a packer computes the name is recorded all
    the same, just as an accepted one. *)
Theorem c47_refused_recorded : forall {R : Registry}, forall ops name u, SpecTracers.outcome ops (Register name u) = Err EInvalidProps ->
  let g := registry_after ops in let g' := registry_after (ops ++ [Register name u]) in
  dget name (tr_units g') = Some u /\ (forall m, m <> name -> dget m (tr_units g') = dget m (tr_units g)) /\
  tr_names g' = tr_names g ++ [name] /\ tr_packers g' = tr_packers g.
Proof. exact @exact_recorded. Qed.
Print Assumptions c47_refused_recorded.

(** ash is computed by the component of a packer. *)
Example c47_refused_recorded_hypotheses_met : SpecTracers.outcome (firstn 4 ops_h) (Register "ash" "g") = Err EInvalidProps.
Proof. exact @ex_recorded. Qed.

(** C63: exactly when two lists are taken for the same: equal lengths and the same members. *)
Theorem c63_exact : forall a b, same_list a b = true <-> length a = length b /\ forall x, In x a <-> In x b.
Proof. exact @exact_same_list. Qed.
Print Assumptions c63_exact.
