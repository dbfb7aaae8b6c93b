(** Properties C09-C17: component construction and calls. *)
From Coq Require Import String List Bool Arith ZArith QArith Qcanon.
From Verif Require Import Prelude ArithM NdArray Units DataArrayM Restore SpecArrays SpecUnits ExampleRegistry
  Tracers Components SpecComponents SpecCalls CheckerFacts ComponentFacts CallFacts StepperFacts TidFacts
  ComponentsMain ClassState ClassFacts Ex_Components.
Import ListNotations.
Open Scope string_scope.
Open Scope nat_scope.
Open Scope list_scope.

(** C09: an output dictionary is refused iff something is missing or extra. *)
Theorem c09_output_check_iff : forall {V} (outp inp : pdict) ign (raw : dict V), NoDup (keys outp) ->
  (check_outputs outp inp ign raw = Err EMissingOutput <-> output_missing outp inp ign raw) /\
  (check_outputs outp inp ign raw = Err EExtraOutput <->
     ~ output_missing outp inp ign raw /\ output_extra outp inp raw) /\
  (check_outputs outp inp ign raw = Ok tt <->
     ~ output_missing outp inp ign raw /\ ~ output_extra outp inp raw).
Proof. exact @check_outputs_iff. Qed.
Print Assumptions c09_output_check_iff.

(** C09: no call of any component class returns on an incomplete or excessive
    answer of array_call. *)
Theorem c09_calls_answered : forall {T : Type} {A : Arith T} {R : Registry},
  (forall {U} g c (ac : U -> dict (rval T) -> U * res (dict (nd T) * dict (nd T))) u u' st r,
    t_packer c = None -> NoDup (keys (t_tend c)) -> NoDup (keys (t_diag c)) ->
    tendency_call g c ac u st = (u', Ok r) ->
    exists raw rt rd, ac u raw = (u', Ok (rt, rd)) /\
      (~ output_missing (t_tend c) (t_inp c) [] rt /\ ~ output_extra (t_tend c) (t_inp c) rt) /\
      (~ output_missing (t_diag c) (t_inp c) (t_added c) rd /\ ~ output_extra (t_diag c) (t_inp c) rd)) /\
  (forall {U} c (ac : U -> dict (rval T) -> U * res (dict (nd T))) u u' st r,
    NoDup (keys (d_diag c)) ->
    diagnostic_call c ac u st = (u', Ok r) ->
    exists raw rd, ac u raw = (u', Ok rd) /\
      ~ output_missing (d_diag c) (d_inp c) [] rd /\ ~ output_extra (d_diag c) (d_inp c) rd) /\
  (forall {U} g c (ac : U -> dict (rval T) -> Z -> U * res (dict (nd T) * dict (nd T))) u u' st dt r,
    s_packer c = None -> NoDup (keys (s_diag c)) -> NoDup (keys (s_out c)) ->
    stepper_call g c ac u st dt = (u', Ok r) ->
    exists raw rd rn, ac u raw dt = (u', Ok (rd, rn)) /\
      (~ output_missing (s_diag c) (s_inp c) (s_ign c) rd /\ ~ output_extra (s_diag c) (s_inp c) rd) /\
      (~ output_missing (s_out c) (s_inp c) [] rn /\ ~ output_extra (s_out c) (s_inp c) rn)).
Proof. exact @calls_answered. Qed.
Print Assumptions c09_calls_answered.

Example c09_a_call_returns : exists u' d, @diagnostic_call Qc ArithQc ex_registry nat c_d ac_d 0 st_c = (u', Ok d).
Proof. exact ex_diagnostic_hyps. Qed.

(** C10 for outputs without aliases: an accepted dictionary has the array
    restoration looks up. *)
Theorem c10_accepted_found_partial : forall {V} (outp inp : pdict) ign (raw : dict V), NoDup (keys outp) ->
  check_outputs outp inp ign raw = Ok tt ->
  (forall name, In name (keys outp) -> forall al, ~ alias_of outp inp name al) ->
  forall name, In name (keys outp) -> ~ In name ign ->
    out_key outp inp name = name /\ exists a, dget (out_key outp inp name) raw = Some a.
Proof. exact @accepted_found. Qed.
Print Assumptions c10_accepted_found_partial.

Example c10_hypotheses_met : NoDup (keys diag_c) /\
  check_outputs diag_c [] [] [("speed", cramp [3])] = Ok tt /\
  (forall name, In name (keys diag_c) -> forall al, ~ alias_of diag_c [] name al).
Proof. exact ex_accepted. Qed.

(** C10 fails with an alias: accepted, then KeyError, also for a whole call. *)
Theorem c10_accepted_restorable_refuted :
  exists (outp inp : pdict) (raw : dict (nd Qc)) (st : state Qc),
    check_outputs outp inp [] raw = Ok tt /\
    restore_data_arrays_with_properties raw outp st inp [] false = Err EKey /\
    exists c, @make_diagnostic_component ex_registry inp outp = Ok c /\
      @diagnostic_call Qc ArithQc ex_registry unit c (fun u _ => (u, Ok raw)) tt st = (tt, Err EKey).
Proof. exact accepted_not_restorable. Qed.
Print Assumptions c10_accepted_restorable_refuted.

(** C11: a call that returns gives exactly the declared quantities, with declared
    units and dims. *)
Theorem c11_tendency_contract : forall {T : Type} {A : Arith T} {R : Registry}
    {U} impl g g' (inp tend diag : pdict) name tid tu c
    (ac : U -> dict (rval T) -> U * res (dict (nd T) * dict (nd T))) u u' (st : state T) tout dout,
  NoDup (keys inp) -> NoDup (keys tend) -> NoDup (keys diag) ->
  stars_ok tend inp -> stars_ok diag inp ->
  make_tendency_component impl g inp tend diag name tid None tu = (g', Ok c) ->
  wf_state st ->
  tendency_call g c ac u st = (u', Ok (tout, dout)) ->
  as_declared st tend inp tout /\ as_declared st (t_diag c) inp dout /\
  (forall k, In k (keys (t_diag c)) <->
     In k (keys diag) \/ tid = true /\ exists X, In X (keys tend) /\ k = tendency_name name X).
Proof. exact @tendency_contract. Qed.
Print Assumptions c11_tendency_contract.

Example c11_tendency_hypotheses_met :
  NoDup (keys inp_c) /\ NoDup (keys tend_c) /\ NoDup (keys diag_c) /\ stars_ok tend_c inp_c /\ stars_ok diag_c inp_c /\
  wf_state st_c /\ exists u' t d, @tendency_call Qc ArithQc ex_registry nat empty_treg (c_t true) ac_t 0 st_c = (u', Ok (t, d)).
Proof. exact ex_tendency_hyps. Qed.

Theorem c11_diagnostic_contract : forall {T : Type} {A : Arith T} {R : Registry}
    {U} (inp diag : pdict) c
    (ac : U -> dict (rval T) -> U * res (dict (nd T))) u u' (st : state T) dout,
  NoDup (keys diag) -> stars_ok diag inp ->
  make_diagnostic_component inp diag = Ok c -> wf_state st ->
  diagnostic_call c ac u st = (u', Ok dout) -> as_declared st diag inp dout.
Proof. exact @diagnostic_contract. Qed.
Print Assumptions c11_diagnostic_contract.

Example c11_diagnostic_hypotheses_met :
  @make_diagnostic_component ex_registry inp_c diag_c = Ok c_d /\
  exists u' d, @diagnostic_call Qc ArithQc ex_registry nat c_d ac_d 0 st_c = (u', Ok d).
Proof. exact (conj c_d_made ex_diagnostic_hyps). Qed.

Theorem c11_stepper_contract : forall {T : Type} {A : Arith T} {R : Registry}
    {U} g g' h (inp diag outp : pdict) name tid tu c
    (ac : U -> dict (rval T) -> Z -> U * res (dict (nd T) * dict (nd T))) u u' (st : state T) dt dout nout,
  NoDup (keys inp) -> NoDup (keys diag) -> NoDup (keys outp) ->
  stars_ok outp (s_inp c) -> stars_ok (s_diag c) (s_inp c) ->
  make_stepper g inp diag outp name tid None tu = (g', Ok c) -> wf_state st ->
  stepper_call h c ac u st dt = (u', Ok (dout, nout)) ->
  as_declared st outp (s_inp c) nout /\ as_declared st (s_diag c) (s_inp c) dout /\
  (forall k, In k (keys (s_diag c)) <->
     In k (keys diag) \/ tid = true /\ exists X, In X (keys outp) /\ k = tendency_name name X).
Proof. exact @stepper_contract. Qed.
Print Assumptions c11_stepper_contract.

Example c11_stepper_hypotheses_met : NoDup (keys inp_s) /\ NoDup (keys diag_c) /\ NoDup (keys out_s) /\
  stars_ok out_s (s_inp (c_s 1000000)) /\ stars_ok (s_diag (c_s 1000000)) (s_inp (c_s 1000000)) /\
  @make_stepper ex_registry empty_treg inp_s diag_c out_s "stepper" true None 1000000%Z = (empty_treg, Ok (c_s 1000000)) /\
  wf_state st_s /\
  exists u' d n, @stepper_call Qc ArithQc ex_registry nat empty_treg (c_s 1000000) ac_s 0 st_s 10000000%Z = (u', Ok (d, n)).
Proof. exact ex_stepper_hyps. Qed.

(** C11: the returned numbers are those array_call answered, at the same named
    coordinates. *)
Theorem c11_calls_carry : forall {T : Type} {A : Arith T} {R : Registry},
  (forall {U} g c (ac : U -> dict (rval T) -> U * res (dict (nd T) * dict (nd T))) u u' (st : state T) tout dout,
    wf_state st -> t_packer c = None -> NoDup (keys (t_tend c)) -> NoDup (keys (t_diag c)) ->
    stars_ok (t_tend c) (t_inp c) -> stars_ok (t_diag c) (t_inp c) ->
    tendency_call g c ac u st = (u', Ok (tout, dout)) ->
    exists raw rt rd, ac u raw = (u', Ok (rt, rd)) /\
      (forall X q, dget X tout = Some q -> carries st (t_tend c) (t_inp c) rt X q) /\
      (forall k q, (forall X, In X (keys tout) -> k <> tendency_name (t_name c) X) ->
         dget k dout = Some q -> carries st (t_diag c) (t_inp c) rd k q)) /\
  (forall {U} c (ac : U -> dict (rval T) -> U * res (dict (nd T))) u u' (st : state T) dout,
    wf_state st -> NoDup (keys (d_diag c)) -> stars_ok (d_diag c) (d_inp c) ->
    diagnostic_call c ac u st = (u', Ok dout) ->
    exists raw rd, ac u raw = (u', Ok rd) /\
      forall k q, dget k dout = Some q -> carries st (d_diag c) (d_inp c) rd k q) /\
  (forall {U} g c (ac : U -> dict (rval T) -> Z -> U * res (dict (nd T) * dict (nd T))) u u' (st : state T) dt dout nout,
    wf_state st -> s_packer c = None -> NoDup (keys (s_diag c)) -> NoDup (keys (s_out c)) ->
    stars_ok (s_out c) (s_inp c) -> stars_ok (s_diag c) (s_inp c) ->
    stepper_call g c ac u st dt = (u', Ok (dout, nout)) ->
    exists raw rd rn, ac u raw dt = (u', Ok (rd, rn)) /\
      (forall X q, dget X nout = Some q -> carries st (s_out c) (s_inp c) rn X q) /\
      (forall k q, (forall X, In X (keys (s_out c)) ->
           out_key (s_diag c) (s_inp c) k <> tendency_name (s_name c) X) ->
         dget k dout = Some q -> carries st (s_diag c) (s_inp c) rd k q)).
Proof. exact @calls_carry. Qed.
Print Assumptions c11_calls_carry.

(** C12: only declared inputs, the time and the tracers read matter. *)
Theorem c12_only_declared_inputs : forall {T : Type} {A : Arith T} {R : Registry},
  (forall {U} g c (ac : U -> dict (rval T) -> U * res (dict (nd T) * dict (nd T))) u (st st' : state T),
    agree_on (keys (t_inp c)) st st' -> agree_on ["time"] st st' -> agree_on (read_tracers g (t_packer c)) st st' ->
    tendency_call g c ac u st = tendency_call g c ac u st') /\
  (forall {U} c (ac : U -> dict (rval T) -> U * res (dict (nd T))) u (st st' : state T),
    agree_on (keys (d_inp c)) st st' -> agree_on ["time"] st st' ->
    diagnostic_call c ac u st = diagnostic_call c ac u st') /\
  (forall {U} g c (ac : U -> dict (rval T) -> Z -> U * res (dict (nd T) * dict (nd T))) u (st st' : state T) dt,
    agree_on (keys (s_inp c)) st st' -> agree_on ["time"] st st' -> agree_on (read_tracers g (s_packer c)) st st' ->
    stepper_call g c ac u st dt = stepper_call g c ac u st' dt).
Proof. exact @calls_ext. Qed.
Print Assumptions c12_only_declared_inputs.

Example c12_hypotheses_met : let st' := dset "unused" (VTime 5%Z) (ddel "unused" st_c) in
  st' <> st_c /\ agree_on (keys inp_c) st_c st' /\ agree_on ["time"] st_c st'.
Proof. exact ex_agree. Qed.

(** C13: array_call is not run on a state with unusable inputs. *)
Theorem c13_unusable_not_called : forall {T : Type} {A : Arith T} {R : Registry},
  (forall {U} g c (ac : U -> dict (rval T) -> U * res (dict (nd T) * dict (nd T))) u (st : state T),
    wf_state st -> unusable st (t_inp c) -> exists e, tendency_call g c ac u st = (u, Err e)) /\
  (forall {U} c (ac : U -> dict (rval T) -> U * res (dict (nd T))) u (st : state T),
    wf_state st -> unusable st (d_inp c) -> exists e, diagnostic_call c ac u st = (u, Err e)) /\
  (forall {U} g c (ac : U -> dict (rval T) -> Z -> U * res (dict (nd T) * dict (nd T))) u (st : state T) dt,
    wf_state st -> unusable st (s_inp c) -> exists e, stepper_call g c ac u st dt = (u, Err e)).
Proof. exact @unusable_not_called. Qed.
Print Assumptions c13_unusable_not_called.

Example c13_hypotheses_met :
  wf_state (ddel "T" st_c) /\ @unusable Qc ex_registry (ddel "T" st_c) inp_c /\ proper_inputs inp_c.
Proof. exact ex_unusable. Qed.

(** C13: array_call is run at most once per call, and then on a faithful image of
    the declared inputs. *)
Theorem c13_called_on_validated : forall {T : Type} {A : Arith T} {R : Registry},
  (forall g c (st : state T) raws, wf_state st -> proper_inputs (t_inp c) ->
    forall (ac : dict (rval T) -> res (dict (nd T) * dict (nd T))),
    fst (tendency_call g c (fun seen raw => (seen ++ [raw], ac raw)) raws st) = raws \/
    exists raw, fst (tendency_call g c (fun seen raw => (seen ++ [raw], ac raw)) raws st) = raws ++ [raw] /\
      validated g (t_inp c) (t_packer c) st raw) /\
  (forall c (st : state T) raws, wf_state st -> proper_inputs (d_inp c) ->
    forall (ac : dict (rval T) -> res (dict (nd T))),
    fst (diagnostic_call c (fun seen raw => (seen ++ [raw], ac raw)) raws st) = raws \/
    exists raw, fst (diagnostic_call c (fun seen raw => (seen ++ [raw], ac raw)) raws st) = raws ++ [raw] /\
      validated empty_treg (d_inp c) None st raw) /\
  (forall g c (st : state T) raws dt, wf_state st -> proper_inputs (s_inp c) ->
    forall (ac : dict (rval T) -> Z -> res (dict (nd T) * dict (nd T))),
    fst (stepper_call g c (fun seen raw t => (seen ++ [(raw, t)], ac raw t)) raws st dt) = raws \/
    exists raw, fst (stepper_call g c (fun seen raw t => (seen ++ [(raw, t)], ac raw t)) raws st dt) = raws ++ [(raw, dt)] /\
      validated g (s_inp c) (s_packer c) st raw).
Proof. exact @called_on_validated. Qed.
Print Assumptions c13_called_on_validated.

Example c13_validated_hypotheses_met : wf_state st_c /\ proper_inputs inp_c /\
  exists raw, @raw_state Qc ArithQc ex_registry empty_treg inp_c None st_c = Ok raw.
Proof. exact ex_validated. Qed.

(** C14: switching tendencies_in_diagnostics on adds the tendencies to the
    diagnostics and changes nothing else. *)
Theorem c14_tendencies_in_diagnostics : forall {T : Type} {A : Arith T} {R : Registry}
    {U} impl g g0 (inp tend diag : pdict) name tro tu c0
    (ac : U -> dict (rval T) -> U * res (dict (nd T) * dict (nd T))),
  NoDup (keys inp) -> NoDup (keys tend) -> NoDup (keys diag) ->
  (forall X, In X (keys tend) -> ~ In (tendency_name name X) (keys diag)) ->
  make_tendency_component impl g inp tend diag name false tro tu = (g0, Ok c0) ->
  exists c1, make_tendency_component impl g inp tend diag name true tro tu = (g0, Ok c1) /\
  forall h u u' (st : state T) tout d0,
    tendency_call h c0 ac u st = (u', Ok (tout, d0)) ->
    exists d1, tendency_call h c1 ac u st = (u', Ok (tout, d1)) /\
      (forall X q, dget X tout = Some q -> dget (tendency_name name X) d1 = Some q) /\
      (forall k, (forall X, In X (keys tout) -> k <> tendency_name name X) -> dget k d1 = dget k d0) /\
      (forall k, In k (keys d1) <-> In k (keys d0) \/ exists X, In X (keys tout) /\ k = tendency_name name X).
Proof. exact @tid_main. Qed.
Print Assumptions c14_tendencies_in_diagnostics.

Example c14_hypotheses_met : NoDup (keys inp_c) /\ NoDup (keys tend_c) /\ NoDup (keys diag_c) /\
  (forall X, In X (keys tend_c) -> ~ In (tendency_name "heater" X) (keys diag_c)) /\
  @make_tendency_component ex_registry false empty_treg inp_c tend_c diag_c "heater" false None "s^-1" = (empty_treg, Ok (c_t false)) /\
  exists u' t d, @tendency_call Qc ArithQc ex_registry nat empty_treg (c_t false) ac_t 0 st_c = (u', Ok (t, d)) /\ t <> [].
Proof. exact ex_tid. Qed.

(** C15 for unaliased outputs: the diagnostic is (new - old) / timestep times the
    component's time unit. *)
Theorem c15_stepper_difference_partial : forall {T : Type} {A : Arith T} {R : Registry}
    {U} g g' h (inp diag outp : pdict) name tu c
    (ac : U -> dict (rval T) -> Z -> U * res (dict (nd T) * dict (nd T))) u u' (st : state T) dt dout nout X p ds,
  NoDup (keys inp) -> NoDup (keys diag) -> NoDup (keys outp) ->
  proper_inputs (s_inp c) -> stars_ok outp (s_inp c) -> stars_ok (s_diag c) (s_inp c) ->
  make_stepper g inp diag outp name true None tu = (g', Ok c) -> wf_state st ->
  stepper_call h c ac u st dt = (u', Ok (dout, nout)) ->
  dget X outp = Some p -> declared_dims outp (s_inp c) X ds ->
  unaliased outp X -> unaliased (s_inp c) X -> unaliased (s_inp c) (tendency_name name X) ->
  dims_known st (s_inp c) ds -> (In "*" ds -> keeps_shape ac X) ->
  exists un a old new d, p_units p = Some un /\ dget X st = Some (VDA a) /\ to_units a un = Ok old /\
    dget X nout = Some new /\ dget (tendency_name name X) dout = Some d /\
    attrs d = [("units", tendency_units un)] /\ dims d = dims new /\ shape (arr d) = shape (arr new) /\
    forall L pt, common_lengths st (s_inp c) L -> grid_point (wildcard_dims st (s_inp c)) L pt ds ->
      da_at d pt = amul (adiv (asub (da_at new pt) (da_at old pt)) (aofQ (dt # 1000000))) (aofQ (tu # 1000000)).
Proof. exact @stepper_difference. Qed.
Print Assumptions c15_stepper_difference_partial.

Example c15_hypotheses_met : let c := c_s 1000000 in
  proper_inputs (s_inp c) /\ dget "T" out_s = Some (mkprops None false (Some "K") None false) /\
  declared_dims out_s (s_inp c) "T" ["z"; "*"] /\
  unaliased out_s "T" /\ unaliased (s_inp c) "T" /\ unaliased (s_inp c) (tendency_name "stepper" "T") /\
  dims_known st_s (s_inp c) ["z"; "*"] /\ keeps_shape ac_s "T".
Proof. exact ex_difference_hyps. Qed.

(** C15 fails for an aliased output: KeyError, although the call works with the
    option off. *)
Theorem c15_aliased_output_refuted :
  exists (inp diag outp : pdict) c0 c1 (ac : unit -> dict (rval Qc) -> Z -> unit * res (dict (nd Qc) * dict (nd Qc)))
      (st : state Qc) dt,
    @make_stepper ex_registry empty_treg inp diag outp "stepper" false None 1000000%Z = (empty_treg, Ok c0) /\
    @make_stepper ex_registry empty_treg inp diag outp "stepper" true None 1000000%Z = (empty_treg, Ok c1) /\
    is_ok (snd (@stepper_call Qc ArithQc ex_registry unit empty_treg c0 ac tt st dt)) = true /\
    snd (@stepper_call Qc ArithQc ex_registry unit empty_treg c1 ac tt st dt) = Err EKey.
Proof. exact aliased_difference_fails. Qed.
Print Assumptions c15_aliased_output_refuted.

(** C15 fails for a time unit other than a second: the units attribute still says
    per second. *)
Theorem c15_time_unit_label_refuted :
  exists (inp diag outp : pdict) tu c (ac : nat -> dict (rval Qc) -> Z -> nat * res (dict (nd Qc) * dict (nd Qc)))
      (st : state Qc) dt u' dout nout d new old pt,
    @make_stepper ex_registry empty_treg inp diag outp "stepper" true None tu = (empty_treg, Ok c) /\
    @stepper_call Qc ArithQc ex_registry nat empty_treg c ac 0 st dt = (u', Ok (dout, nout)) /\
    dget "T_tendency_from_stepper" dout = Some d /\ dget "units" (attrs d) = Some "K s^-1" /\
    dget "T" nout = Some new /\ dget "T" st = Some (VDA old) /\ dget "units" (attrs old) = Some "K" /\
    dget "units" (attrs new) = Some "K" /\
    da_at d pt <> Qcdiv (Qcminus (da_at new pt) (da_at old pt)) (aofQ (dt # 1000000)).
Proof. exact time_unit_mislabelled. Qed.
Print Assumptions c15_time_unit_label_refuted.

(** C16: construction raises InvalidPropertyDictError exactly on malformed
    dictionaries. *)
Theorem c16_tendency_construction : forall {R : Registry} impl g (inp tend diag : pdict) name tid tu,
  NoDup (keys inp) -> NoDup (keys tend) -> NoDup (keys diag) ->
  shared_known tendency_units inp tend -> shared_known (fun u => u) inp diag ->
  (bad_tendency_properties inp tend diag ->
     make_tendency_component impl g inp tend diag name tid None tu = (g, Err EInvalidProps)) /\
  (~ bad_tendency_properties inp tend diag ->
     exists c, make_tendency_component impl g inp tend diag name tid None tu = (g, Ok c)).
Proof. exact @make_tendency_iff. Qed.
Print Assumptions c16_tendency_construction.

Theorem c16_diagnostic_construction : forall {R : Registry} (inp diag : pdict),
  NoDup (keys inp) -> NoDup (keys diag) -> shared_known (fun u => u) inp diag ->
  (bad_tendency_properties inp [] diag -> make_diagnostic_component inp diag = Err EInvalidProps) /\
  (~ bad_tendency_properties inp [] diag ->
     exists c, make_diagnostic_component inp diag = Ok c /\
       d_init c = true /\ d_inp c = inp /\ d_diag c = diag).
Proof. exact @make_diagnostic_iff. Qed.
Print Assumptions c16_diagnostic_construction.

Theorem c16_stepper_construction : forall {R : Registry} g (inp diag outp : pdict) name tid tu,
  NoDup (keys inp) -> NoDup (keys diag) -> NoDup (keys outp) ->
  shared_known (fun u => u) inp diag -> shared_known (fun u => u) inp outp ->
  let bad := bad_stepper_properties inp diag outp \/ (tid = true /\ no_difference inp outp) in
  (bad -> make_stepper g inp diag outp name tid None tu = (g, Err EInvalidProps)) /\
  (~ bad -> exists c, make_stepper g inp diag outp name tid None tu = (g, Ok c)).
Proof. exact @make_stepper_iff. Qed.
Print Assumptions c16_stepper_construction.

Example c16_hypotheses_met : NoDup (keys inp_c) /\ NoDup (keys tend_c) /\ NoDup (keys diag_c) /\
  @shared_known ex_registry tendency_units inp_c tend_c /\ @shared_known ex_registry (fun u => u) inp_c diag_c /\
  ~ @bad_tendency_properties ex_registry inp_c tend_c diag_c /\
  @bad_tendency_properties ex_registry inp_c [("T", qprops ["z"] "K")] diag_c /\
  @shared_known ex_registry tendency_units inp_c [("T", qprops ["z"] "K")].
Proof. exact ex_construct. Qed.

Example c16_stepper_hypotheses_met :
  @shared_known ex_registry (fun u => u) inp_s diag_c /\ @shared_known ex_registry (fun u => u) inp_s out_s /\
  ~ (@bad_stepper_properties ex_registry inp_s diag_c out_s \/ (true = true /\ no_difference inp_s out_s)) /\
  no_difference inp_s [("wind", qprops ["*"] "km s^-1")].
Proof. exact ex_stepper_construct. Qed.

(** C17 in the cases where it holds: creations without the option, of other
    classes, or of a twin, change no call of the instance [i]. *)
Theorem c17_tendency_unaffected_partial : forall {R : Registry} {T : Type} {A : Arith T}
    {U} w0 cls name tid w i l
    (ac : U -> dict (rval T) -> U * res (dict (nd T) * dict (nd T))) u st,
  (forall c k, dget c (w_t w0) = Some k -> NoDup (keys (k_tend k))) ->
  new_tendency w0 cls name tid = (w, Ok i) -> Forall (harmless_to_tendency i) l ->
  call_tendency (create_all w l) i ac u st = call_tendency w i ac u st.
Proof. exact @tendency_unaffected. Qed.
Print Assumptions c17_tendency_unaffected_partial.

Theorem c17_stepper_unaffected_partial : forall {R : Registry} {T : Type} {A : Arith T}
    {U} w i l
    (ac : U -> dict (rval T) -> Z -> U * res (dict (nd T) * dict (nd T))) u st dt,
  Forall (harmless_to_stepper i) l ->
  call_stepper (create_all w l) i ac u st dt = call_stepper w i ac u st dt.
Proof. exact @stepper_unaffected. Qed.
Print Assumptions c17_stepper_unaffected_partial.

Example c17_hypotheses_met :
  (forall c k, dget c (w_t world_c) = Some k -> NoDup (keys (k_tend k))) /\
  @new_tendency ex_registry world_c "Heater" "a" true = (fst first_a, Ok (inst_of (snd first_a))) /\
  Forall (harmless_to_tendency (inst_of (snd first_a)))
    [NewTendency "Heater" "b" false; NewTendency "Other" "b" true; NewTendency "Heater" "a" true; NewStepper "Step" "s" true].
Proof. exact ex_unaffected. Qed.

(** C17 is false: a second instance with the option breaks the first. *)
Theorem c17_second_instance_refuted :
  exists (w0 w : world) cls i o (ac : nat -> dict (rval Qc) -> nat * res (dict (nd Qc) * dict (nd Qc))) (st : state Qc),
    @new_tendency ex_registry w0 cls "a" true = (w, Ok i) /\
    is_ok (snd (@call_tendency ex_registry Qc ArithQc nat w i ac 0 st)) = true /\
    is_ok (snd (@create ex_registry w o)) = true /\
    snd (@call_tendency ex_registry Qc ArithQc nat (@create_all ex_registry w [o]) i ac 0 st) = Err EMissingOutput.
Proof. exact second_instance_breaks_first. Qed.
Print Assumptions c17_second_instance_refuted.

(** C17 is false: an instance with the option breaks later ones without it. *)
Theorem c17_later_instance_refuted :
  exists (w : world) cls i0 i1 w0 w1 (ac : nat -> dict (rval Qc) -> nat * res (dict (nd Qc) * dict (nd Qc))) (st : state Qc),
    @new_tendency ex_registry w cls "a" false = (w0, Ok i0) /\
    is_ok (snd (@call_tendency ex_registry Qc ArithQc nat w0 i0 ac 0 st)) = true /\
    @new_tendency ex_registry (fst (@new_tendency ex_registry w cls "b" true)) cls "a" false = (w1, Ok i1) /\
    snd (@call_tendency ex_registry Qc ArithQc nat w1 i1 ac 0 st) = Err EMissingOutput.
Proof. exact instance_with_option_breaks_next. Qed.
Print Assumptions c17_later_instance_refuted.
