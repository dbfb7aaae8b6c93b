(** Properties C01-C08: moving quantities between states and raw arrays. *)
From Coq Require Import String List Bool Arith ZArith QArith Qcanon.
From Verif Require Import Prelude ArithM NdArray Units DataArrayM Wildcard GetNp Restore InitNp
  SpecArrays SpecUnits ExtractFacts RoundTripFacts InitFacts UnitsFacts ArraysMain
  ExampleRegistry Ex_Arrays.
Import ListNotations.
Open Scope string_scope.
Open Scope nat_scope.
Open Scope list_scope.

(** C01: extracted arrays have exactly the declared shape. *)
Theorem c01_extracted_shapes : forall {T : Type} {A : Arith T} {R : Registry}
    (st : state T) (pd : pdict) raw,
  wf_state st -> wf_pdict pd ->
  NoDup (map (fun np => raw_name (fst np) (snd np)) pd) ->
  get_numpy_arrays_with_properties st pd = Ok raw ->
  keys raw = map (fun np => raw_name (fst np) (snd np)) pd /\
  (exists L, common_lengths st pd L) /\
  forall L, common_lengths st pd L ->
    forall name p ds, In (name, p) pd -> p_dims p = Some ds ->
      exists r, dget (raw_name name p) raw = Some r /\
        shape r = map (axis_len (wildcard_dims st pd) L) ds /\ wf_nd r.
Proof. exact @main_shapes. Qed.
Print Assumptions c01_extracted_shapes.

Example c01_hypotheses_met : wf_state st_ex /\ wf_pdict pd_ex /\ NoDup (keys pd_ex) /\
  NoDup (map (fun np => raw_name (fst np) (snd np)) pd_ex) /\
  exists raw, get_numpy_arrays_with_properties st_ex pd_ex = Ok raw.
Proof. exact ex_extract_hyps. Qed.

(** C02: extracted values are the state's values at the same named coordinates. *)
Theorem c02_extracted_values : forall {T : Type} {A : Arith T} {R : Registry}
    (st : state T) (pd : pdict) raw,
  wf_state st -> wf_pdict pd ->
  NoDup (map (fun np => raw_name (fst np) (snd np)) pd) ->
  get_numpy_arrays_with_properties st pd = Ok raw ->
  forall L, common_lengths st pd L ->
    forall name p ds u, In (name, p) pd -> p_dims p = Some ds -> p_units p = Some u ->
      exists a q r, dget name st = Some (VDA a) /\ to_units a u = Ok q /\
        dget (raw_name name p) raw = Some r /\
        forall c, grid_point (wildcard_dims st pd) L c ds ->
          at_ r (map (axis_pos (wildcard_dims st pd) L c) ds) = da_at q c.
Proof. exact @main_values. Qed.
Print Assumptions c02_extracted_values.

Example c02_hypotheses_met : wf_state st_ex /\ wf_pdict pd_ex /\ NoDup (keys pd_ex) /\
  NoDup (map (fun np => raw_name (fst np) (snd np)) pd_ex) /\
  exists raw, get_numpy_arrays_with_properties st_ex pd_ex = Ok raw.
Proof. exact ex_extract_hyps. Qed.

(** C03: extraction is rejected with InvalidStateError exactly on inconsistent
    dims or units. *)
Theorem c03_rejected_iff_inconsistent : forall {T : Type} {A : Arith T} {R : Registry}
    (st : state T) (pd : pdict),
  wf_state st -> wf_pdict pd -> complete st pd -> known_units st pd -> no_repeated_dims st pd ->
  (length_conflict st pd \/ unexpected_dim st pd \/ bad_units st pd ->
     get_numpy_arrays_with_properties st pd = Err EInvalidState) /\
  (~ length_conflict st pd -> ~ unexpected_dim st pd -> ~ bad_units st pd ->
     exists raw, get_numpy_arrays_with_properties st pd = Ok raw).
Proof. exact @extraction_iff. Qed.
Print Assumptions c03_rejected_iff_inconsistent.

Example c03_hypotheses_met : wf_state st_ex /\ wf_pdict pd_ex /\ complete st_ex pd_ex /\
  known_units st_ex pd_ex /\ no_repeated_dims st_ex pd_ex.
Proof. exact ex_iff_hyps. Qed.

Example c03_rejects_something : length_conflict st_conflict pd_ex /\
  get_numpy_arrays_with_properties st_conflict pd_ex = Err EInvalidState.
Proof. exact ex_conflict. Qed.

(** Without [no_repeated_dims] the claim is false: a consistent state is rejected
    with a ValueError when a dim listed by one quantity is matched by the '*' of
    another. *)
Theorem c03_repeated_dim_refuted : exists (st : state Qc) pd,
  wf_state st /\ wf_pdict pd /\ complete st pd /\ known_units st pd /\
  ~ length_conflict st pd /\ ~ unexpected_dim st pd /\ ~ bad_units st pd /\
  get_numpy_arrays_with_properties st pd = Err EValue.
Proof. exact repeated_dim_value_error. Qed.
Print Assumptions c03_repeated_dim_refuted.

(** C04: restored outputs carry declared units, dims and named values. *)
Theorem c04_restored_outputs : forall {T : Type} {A : Arith T}
    (st : state T) raw (outp inp : pdict) ign b out,
  wf_state st -> NoDup (keys outp) ->
  (forall name ds, declared_dims outp inp name ds -> one_star ds) ->
  restore_data_arrays_with_properties raw outp st inp ign b = Ok out ->
  (forall name, In name (keys out) <-> In name (keys outp) /\ ~ ignored raw outp ign b name) /\
  (forall name p, dget name outp = Some p -> ~ ignored raw outp ign b name ->
     exists ds u ra q, declared_dims outp inp name ds /\ p_units p = Some u /\
       dget (out_key outp inp name) raw = Some ra /\ dget name out = Some q /\
       attrs q = [("units", u)] /\
       dims q = expand_dims (wildcard_dims st inp) ds /\
       (~ In "*" ds -> arr q = ra) /\
       (NoDup (dims q) ->
        let L := fun d => or1 (dim_len q d) in
        shape ra = map (axis_len (wildcard_dims st inp) L) ds ->
        forall c, da_at q c = at_ ra (map (axis_pos (wildcard_dims st inp) L c) ds))).
Proof. exact @main_restore. Qed.
Print Assumptions c04_restored_outputs.

Example c04_hypotheses_met : wf_state st_ex /\ NoDup (keys outp_ex) /\
  (forall name ds, declared_dims outp_ex pd_ex name ds -> one_star ds) /\
  exists out, restore_data_arrays_with_properties raw_ex outp_ex st_ex pd_ex [] false = Ok out.
Proof. exact ex_restore_hyps. Qed.

(** C04: raw arrays of the right shape are always accepted. *)
Theorem c04_right_shapes_accepted : forall {T : Type} {A : Arith T}
    (st : state T) raw (outp inp : pdict) ign b L,
  wf_state st -> NoDup (keys outp) ->
  complete st inp -> ~ length_conflict st inp -> ~ unexpected_dim st inp ->
  (forall nm p ds a d n, listed st inp nm p ds a -> has_dim a d n -> L d = n) ->
  (forall name p, dget name outp = Some p -> ~ ignored raw outp ign b name ->
     exists ds u ra, restorable raw st outp inp L name p ds u ra) ->
  exists out, restore_data_arrays_with_properties raw outp st inp ign b = Ok out /\
    (forall name, In name (keys out) <-> In name (keys outp) /\ ~ ignored raw outp ign b name) /\
    forall name p ds u ra, dget name outp = Some p -> ~ ignored raw outp ign b name ->
      restorable raw st outp inp L name p ds u ra ->
      exists q, dget name out = Some q /\ attrs q = [("units", u)] /\
        dims q = expand_dims (wildcard_dims st inp) ds /\ shape (arr q) = map L (dims q) /\
        forall c, da_at q c = at_ ra (map (axis_pos (wildcard_dims st inp) L c) ds).
Proof. exact @main_restore_ok. Qed.
Print Assumptions c04_right_shapes_accepted.

Example c04_acceptance_hypotheses_met :
  (~ length_conflict st_ex pd_ex /\ ~ unexpected_dim st_ex pd_ex) /\
  (forall nm p ds a d n, listed st_ex pd_ex nm p ds a -> has_dim a d n -> len_ex d = n) /\
  (forall name p, dget name outp_ex = Some p ->
     exists ds u ra, restorable raw_ex st_ex outp_ex pd_ex len_ex name p ds u ra).
Proof. exact (conj ex_not_bad (conj len_ex_ok ex_restorable)). Qed.

(** C05: extract-then-restore is the identity on named values. *)
Theorem c05_round_trip : forall {T : Type} {A : Arith T} {R : Registry}
    (st : state T) (pd : pdict) raw,
  wf_state st -> wf_pdict pd -> NoDup (keys pd) ->
  NoDup (map (fun np => raw_name (fst np) (snd np)) pd) ->
  get_numpy_arrays_with_properties st pd = Ok raw ->
  exists out L, common_lengths st pd L /\
    restore_data_arrays_with_properties raw pd st pd [] false = Ok out /\
    keys out = keys pd /\
    forall name p ds u a q, dget name pd = Some p -> p_dims p = Some ds -> p_units p = Some u ->
      dget name st = Some (VDA a) -> to_units a u = Ok q ->
      exists q', dget name out = Some q' /\
        dims q' = expand_dims (wildcard_dims st pd) ds /\ attrs q' = [("units", u)] /\
        wf_nd (arr q') /\ shape (arr q') = map L (dims q') /\
        forall c, grid_point (wildcard_dims st pd) L c ds -> da_at q' c = da_at q c.
Proof. exact @round_trip. Qed.
Print Assumptions c05_round_trip.

Example c05_hypotheses_met : wf_state st_ex /\ wf_pdict pd_ex /\ NoDup (keys pd_ex) /\
  NoDup (map (fun np => raw_name (fst np) (snd np)) pd_ex) /\
  exists raw, get_numpy_arrays_with_properties st_ex pd_ex = Ok raw.
Proof. exact ex_extract_hyps. Qed.

(** C06: a raw output whose shape contradicts its declared dims is rejected.
    Full for outputs without '*'.  Missing for outputs with '*': there only the
    number of elements is guaranteed to fit, see the refutation below. *)
Theorem c06_wrong_shapes_rejected_partial : forall {T : Type}
    (st : state T) raw (outp inp : pdict) ign b out,
  wf_state st -> NoDup (keys outp) ->
  (forall name ds, declared_dims outp inp name ds -> one_star ds) ->
  restore_data_arrays_with_properties raw outp st inp ign b = Ok out ->
  forall name p ds ra, dget name outp = Some p -> ~ ignored raw outp ign b name ->
    declared_dims outp inp name ds -> dget (out_key outp inp name) raw = Some ra ->
    (~ In "*" ds ->
       length (shape ra) = length ds /\
       forall d n, In (d, n) (combine ds (shape ra)) ->
         forall nm p' ds' a m, listed st inp nm p' ds' a -> has_dim a d m -> n = m) /\
    (exists q, dget name out = Some q /\ prod (shape (arr q)) = prod (shape ra) /\
       forall d n, In (d, n) (combine (dims q) (shape (arr q))) ->
         forall nm p' ds' a m, listed st inp nm p' ds' a -> has_dim a d m -> n = m).
Proof. exact @main_reject. Qed.
Print Assumptions c06_wrong_shapes_rejected_partial.

Example c06_hypotheses_met : wf_state st_ex /\ NoDup (keys outp_ex) /\
  (forall name ds, declared_dims outp_ex pd_ex name ds -> one_star ds) /\
  exists out, restore_data_arrays_with_properties raw_ex outp_ex st_ex pd_ex [] false = Ok out.
Proof. exact ex_restore_hyps. Qed.

(** A (z, x) raw array is accepted for dims ['*', 'z'] and its values end up at
    the wrong coordinates. *)
Theorem c06_wildcard_shape_refuted :
  exists (st : state Qc) raw outp inp ra out q,
    wf_state st /\ dget "mass" raw = Some ra /\ shape ra = [2; 3] /\
    dget "mass" outp = Some (qprops ["*"; "z"] "kg") /\
    wildcard_dims st inp = ["x"] /\
    (exists p ds a, listed st inp "mass" p ds a /\ has_dim a "x" 3 /\ has_dim a "z" 2) /\
    restore_data_arrays_with_properties raw outp st inp [] false = Ok out /\
    dget "mass" out = Some q /\
    exists c, c "x" < 3 /\ c "z" < 2 /\ da_at q c <> at_ ra [c "z"; c "x"].
Proof. exact wildcard_shape_accepted. Qed.
Print Assumptions c06_wildcard_shape_refuted.

(** C07: initialised output arrays fit the declared outputs. *)
Theorem c07_initialised_shapes : forall {T : Type} {A : Arith T}
    (raw : dict (nd T)) (outp inp : pdict) tn out,
  NoDup (keys outp) ->
  initialize_numpy_arrays_with_properties outp raw inp None tn = Ok out ->
  keys out = keys outp /\
  exists L : string -> nat,
    (forall nm p ids i d, In (nm, p) inp -> p_tracer p = false -> p_dims p = Some ids ->
       nth_error ids i = Some d ->
       exists a, dget (raw_name nm p) raw = Some a /\ nth_error (shape a) i = Some (L d)) /\
    forall name ds, declared_dims outp inp name ds ->
      (forall d, In d ds -> exists nm p ids, In (nm, p) inp /\ p_tracer p = false /\
                              p_dims p = Some ids /\ In d ids) /\
      exists z, dget name out = Some z /\ wf_nd z /\ shape z = map L ds /\
        forall idx, in_range idx (shape z) -> at_ z idx = azero.
Proof. exact @init_shapes. Qed.
Print Assumptions c07_initialised_shapes.

(** C07: ... and can be restored when no output has an alias. *)
Theorem c07_initialised_arrays_restorable_partial : forall {T : Type} {A : Arith T} {R : Registry}
    (st : state T) raw (outp inp : pdict) tn out,
  wf_state st -> wf_pdict inp -> NoDup (keys outp) ->
  NoDup (map (fun np => raw_name (fst np) (snd np)) inp) ->
  (forall nm p, In (nm, p) inp -> p_tracer p = false) ->
  get_numpy_arrays_with_properties st inp = Ok raw ->
  initialize_numpy_arrays_with_properties outp raw inp None tn = Ok out ->
  (forall name ds, declared_dims outp inp name ds -> one_star ds) ->
  (forall name p, dget name outp = Some p ->
     (exists u, p_units p = Some u) /\ out_key outp inp name = name) ->
  exists L res, common_lengths st inp L /\
    restore_data_arrays_with_properties out outp st inp [] false = Ok res /\
    keys res = keys outp /\
    forall name p ds u, dget name outp = Some p -> declared_dims outp inp name ds -> p_units p = Some u ->
      exists q, dget name res = Some q /\ dims q = expand_dims (wildcard_dims st inp) ds /\
        attrs q = [("units", u)] /\ shape (arr q) = map L (dims q) /\ wf_nd (arr q) /\
        forall c, grid_point (wildcard_dims st inp) L c ds -> da_at q c = azero.
Proof. exact @init_restores. Qed.
Print Assumptions c07_initialised_arrays_restorable_partial.

Example c07_hypotheses_met : exists raw out,
  wf_state st_ex /\ wf_pdict pd_plain /\ NoDup (keys outp_init) /\
  NoDup (map (fun np => raw_name (fst np) (snd np)) pd_plain) /\
  (forall nm p, In (nm, p) pd_plain -> p_tracer p = false) /\
  get_numpy_arrays_with_properties st_ex pd_plain = Ok raw /\
  initialize_numpy_arrays_with_properties outp_init raw pd_plain None [] = Ok out /\
  (forall name p, dget name outp_init = Some p ->
     (exists u, p_units p = Some u) /\ out_key outp_init pd_plain name = name).
Proof. exact ex_init_hyps. Qed.

(** With an alias the initialised arrays cannot be restored. *)
Theorem c07_alias_refuted :
  exists (st : state Qc) raw outp inp out,
    wf_state st /\ wf_pdict inp /\ NoDup (keys outp) /\
    get_numpy_arrays_with_properties st inp = Ok raw /\
    initialize_numpy_arrays_with_properties outp raw inp None [] = Ok out /\
    restore_data_arrays_with_properties out outp st inp [] false = Err EKey.
Proof. exact init_alias_not_restorable. Qed.
Print Assumptions c07_alias_refuted.

(** C08: unit conversion is exact, reversible and never mislabels. *)
Theorem c08_unit_conversion : forall (R : Registry) (a : da Qc) s,
  sane_registry R -> wf_nd (arr a) ->
  (dget "units" (attrs a) = None -> to_units a s = Err EKey) /\
  forall own u1 u2, dget "units" (attrs a) = Some own -> parse own = Some u1 -> parse s = Some u2 ->
    (u_dim u1 <> u_dim u2 -> to_units a s = Err EValue) /\
    (u_dim u1 = u_dim u2 -> exists q, to_units a s = Ok q /\
       dims q = dims a /\ shape (arr q) = shape (arr a) /\ wf_nd (arr q) /\
       (exists s', dget "units" (attrs q) = Some s' /\ parse s' = Some u2) /\
       (forall k, k <> "units" -> dget k (attrs q) = dget k (attrs a)) /\
       (forall idx, in_range idx (shape (arr a)) ->
          base_value u2 (at_ (arr q) idx) = base_value u1 (at_ (arr a) idx)) /\
       exists r, to_units q own = Ok r /\ dims r = dims a /\ arr r = arr a /\
         exists s', dget "units" (attrs r) = Some s' /\ parse s' = Some u1).
Proof. exact to_units_spec. Qed.
Print Assumptions c08_unit_conversion.

Example c08_hypotheses_met : sane_registry table_registry /\ wf_nd (arr q_degC) /\
  exists own u1 u2, dget "units" (attrs q_degC) = Some own /\ parse own = Some u1 /\
    parse "degF" = Some u2 /\ u_dim u1 = u_dim u2 /\ u1 <> u2 /\ u_off u1 <> 0%Qc.
Proof. exact ex_units_hyps. Qed.
