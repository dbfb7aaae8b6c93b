(** Property theorems about tracers (C45-C48, C65), tracers in component calls (C11) and
    the second round trip of raw arrays (C05). *)
From Coq Require Import String List Bool Arith ZArith QArith Qcanon.
From Verif Require Import Prelude ArithM NdArray Units DataArrayM SpecUnits ExampleRegistry SpecArrays Wildcard GetNp Restore InitNp Tracers SpecTracers
  Components SpecComponents SpecCalls RestoreExtract TracersFacts TracersMain TracersInit TracersCalls Ex_Components Ex_Tracers.
Import ListNotations.
Open Scope string_scope.
Open Scope nat_scope.
Open Scope list_scope.

#[local] Existing Instance ex_registry | 5.

(** C05, the other way round: restoring raw arrays and extracting the restored quantities
    again, from any state that holds them, gives back the same raw arrays exactly. *)
Theorem c05_restore_extract : forall {T : Type} {A : Arith T} {R : Registry}, forall (st st' : state T) raw pd L,
  wf_state st -> wf_state st' -> wf_pdict pd -> NoDup (keys pd) ->
  NoDup (map (fun np => raw_name (fst np) (snd np)) pd) ->
  complete st pd -> ~ length_conflict st pd -> ~ unexpected_dim st pd -> no_repeated_dims st pd ->
  (forall name p u, In (name, p) pd -> p_units p = Some u -> exists x, parse u = Some x) ->
  (forall nm p ds a d n, listed st pd nm p ds a -> has_dim a d n -> L d = n) ->
  (forall name p ds, In (name, p) pd -> p_dims p = Some ds ->
  exists ra, dget (raw_name name p) raw = Some ra /\ wf_nd ra /\ shape ra = map (axis_len (wildcard_dims st pd) L) ds) ->
  exists out, restore_data_arrays_with_properties raw pd st pd [] false = Ok out /\
  ((forall name, In name (keys pd) -> exists q, dget name out = Some q /\ dget name st' = Some (VDA q)) ->
  exists raw', get_numpy_arrays_with_properties st' pd = Ok raw' /\
  keys raw' = map (fun np => raw_name (fst np) (snd np)) pd /\
  forall name p, In (name, p) pd -> dget (raw_name name p) raw' = dget (raw_name name p) raw).
Proof. exact @main_restore_extract. Qed.
Print Assumptions c05_restore_extract.

(** Three quantities with a wildcard, one of which lacks two of its dims. *)
Example c05_restore_extract_hypotheses_met : wf_state st_tr /\ wf_pdict tp_tr /\ NoDup (keys tp_tr) /\ NoDup (map (fun np => raw_name (fst np) (snd np)) tp_tr) /\
  complete st_tr tp_tr /\ ~ length_conflict st_tr tp_tr /\ ~ unexpected_dim st_tr tp_tr /\ no_repeated_dims st_tr tp_tr /\
  (forall name p u, In (name, p) tp_tr -> p_units p = Some u -> exists x, parse u = Some x) /\
  exists raw L out, common_lengths st_tr tp_tr L /\
  (forall name p ds, In (name, p) tp_tr -> p_dims p = Some ds ->
  exists ra, dget (raw_name name p) raw = Some ra /\ wf_nd ra /\ shape ra = map (axis_len (wildcard_dims st_tr tp_tr) L) ds) /\
  restore_data_arrays_with_properties raw tp_tr st_tr tp_tr [] false = Ok out /\
  wf_state (map (fun kv => (fst kv, VDA (snd kv))) out).
Proof. exact @ex_restore_extract. Qed.

(** C11 with tracers: array_call is given the packed tracers; of what it answers, the call
    returns the declared tendencies and the tracers, and nothing else; each tracer has
    the numbers of its slice at the same named coordinates. *)
Theorem c11_tendency_tracers : forall {T : Type} {A : Arith T} {R : Registry}, forall {U} g c p qd (ac : U -> dict (rval T) -> U * res (dict (nd T) * dict (nd T))) u u' (st : state T) tout dout,
  consistent g -> t_packer c = Some p -> has_dims p qd -> one_star qd -> NoDup (map fst (pk_prepend p)) -> wf_state st ->
  NoDup (keys (t_tend c)) -> stars_ok (t_tend c) (t_inp c) -> (forall m, In m (tracer_order g p) -> ~ In m (keys (t_tend c))) ->
  tendency_call g c ac u st = (u', Ok (tout, dout)) ->
  let tp := get_tracer_input_properties g (pk_prepend p) (pk_dims p) in
  exists raw arr rt rd a L, pack g p st = Ok arr /\ dget "tracers" raw = Some (RArr arr) /\
  ac u raw = (u', Ok (rt, rd)) /\ dget "tracers" rt = Some a /\ common_lengths st tp L /\
  (forall k, In k (keys tout) <-> In k (keys (t_tend c)) \/ In k (tracer_order g p)) /\
  (forall X q, In X (keys (t_tend c)) -> dget X tout = Some q -> conforms st (t_tend c) (t_inp c) X q /\ carries st (t_tend c) (t_inp c) rt X q) /\
  (shape a = shape arr -> unpacked g p qd (wildcard_dims st tp) L (t_tunit c) a tout) /\
  (t_tid c = true -> forall X q, dget X tout = Some q -> dget (tendency_name (t_name c) X) dout = Some q).
Proof. exact @main_tendency_tracers. Qed.
Print Assumptions c11_tendency_tracers.

(** A component with three tracers. *)
Example c11_tendency_tracers_hypotheses_met : consistent (fst made_m) /\ t_packer c_m = Some p_tr /\ has_dims p_tr qd_tr /\ one_star qd_tr /\ NoDup (map fst (pk_prepend p_tr)) /\ wf_state st_tr /\
  NoDup (keys (t_tend c_m)) /\ stars_ok (t_tend c_m) (t_inp c_m) /\ (forall m, In m (tracer_order (fst made_m) p_tr) -> ~ In m (keys (t_tend c_m))) /\
  exists u' t d, tendency_call (fst made_m) c_m ac_m 0 st_tr = (u', Ok (t, d)).
Proof. exact @ex_tendency_tracers. Qed.

(** Its answer for the third one. *)
Example c11_tendency_tracers_case : match snd (tendency_call (fst made_m) c_m ac_m 0 st_tr) with
  | Ok (t, d) => da_is (dget "ash" t) ["y"; "x"; "z"] [2; 3; 2] "g s^-1" (map cz [0; 2000; 0; 2000; 0; 2000; 0; 2000; 0; 2000; 0; 2000]%Z)
  | Err _ => false
  end = true.
Proof. exact @ex_tendency_tracers_case. Qed.

(** C11 with tracers: the same for the new state of a stepper. *)
Theorem c11_stepper_tracers : forall {T : Type} {A : Arith T} {R : Registry}, forall {U} g c p qd (ac : U -> dict (rval T) -> Z -> U * res (dict (nd T) * dict (nd T))) u u' (st : state T) dt dout nout,
  consistent g -> s_packer c = Some p -> has_dims p qd -> one_star qd -> NoDup (map fst (pk_prepend p)) -> wf_state st ->
  NoDup (keys (s_out c)) -> stars_ok (s_out c) (s_inp c) -> (forall m, In m (tracer_order g p) -> ~ In m (keys (s_out c))) ->
  stepper_call g c ac u st dt = (u', Ok (dout, nout)) ->
  let tp := get_tracer_input_properties g (pk_prepend p) (pk_dims p) in
  exists raw arr rd rn a L, pack g p st = Ok arr /\ dget "tracers" raw = Some (RArr arr) /\
  ac u raw dt = (u', Ok (rd, rn)) /\ dget "tracers" rn = Some a /\ common_lengths st tp L /\
  (forall k, In k (keys nout) <-> In k (keys (s_out c)) \/ In k (tracer_order g p)) /\
  (forall X q, In X (keys (s_out c)) -> dget X nout = Some q -> conforms st (s_out c) (s_inp c) X q /\ carries st (s_out c) (s_inp c) rn X q) /\
  (shape a = shape arr -> unpacked g p qd (wildcard_dims st tp) L "" a nout).
Proof. exact @main_stepper_tracers. Qed.
Print Assumptions c11_stepper_tracers.

(** A stepper with three tracers. *)
Example c11_stepper_tracers_hypotheses_met : consistent (fst made_k) /\ s_packer c_k = Some p_tr /\ has_dims p_tr qd_tr /\ one_star qd_tr /\ NoDup (map fst (pk_prepend p_tr)) /\ wf_state st_tr /\
  NoDup (keys (s_out c_k)) /\ stars_ok (s_out c_k) (s_inp c_k) /\ (forall m, In m (tracer_order (fst made_k) p_tr) -> ~ In m (keys (s_out c_k))) /\
  exists u' d n, stepper_call (fst made_k) c_k ac_k 0 st_tr 10%Z = (u', Ok (d, n)).
Proof. exact @ex_stepper_tracers. Qed.

(** C11 fails for the diagnostics of components that use tracers and report tendencies
    in diagnostics: the tendencies of tracers are returned but not declared. *)
Theorem c11_tracer_diagnostics_refuted : exists (g g' : treg) inp tend diag name tro tunit c (ac : nat -> dict (rval Qc) -> nat * res (dict (nd Qc) * dict (nd Qc))) u (st : state Qc) u' t d X,
  make_tendency_component false g inp tend diag name true tro tunit = (g', Ok c) /\ tendency_call g' c ac u st = (u', Ok (t, d)) /\
  In X (keys d) /\ ~ In X (keys (t_diag c)).
Proof. exact @ex_undeclared_diagnostics. Qed.
Print Assumptions c11_tracer_diagnostics_refuted.

(** C45: the i-th tracer of the packed array is the i-th of the prepended tracers
    followed by the registered ones, with its values in its units at the same named
    coordinates. *)
Theorem c45_pack : forall {T : Type} {A : Arith T} {R : Registry}, forall g p qd (st : state T) arr, consistent g -> has_dims p qd -> one_star qd -> wf_state st ->
  pack g p st = Ok arr ->
  let tp := get_tracer_input_properties g (pk_prepend p) (pk_dims p) in
  let W := wildcard_dims st tp in
  tracer_quantities g p qd tp /\ wf_nd arr /\
  exists L, common_lengths st tp L /\ shape arr = tracer_shape g p W L /\
  forall i name, nth_error (tracer_order g p) i = Some name ->
  exists u a q, tracer_units g p name = Some u /\ dget name st = Some (VDA a) /\ to_units a u = Ok q /\
  forall c, grid_point W L c qd -> at_ arr (map (tracer_pos i W L c) (pk_dims p)) = da_at q c.
Proof. exact @main_pack. Qed.
Print Assumptions c45_pack.

(** C45: packing succeeds exactly when the tracers can be extracted, and fails with the same error. *)
Theorem c45_pack_iff : forall {T : Type} {A : Arith T} {R : Registry}, forall g p qd (st : state T), consistent g -> has_dims p qd -> one_star qd -> wf_state st ->
  match get_numpy_arrays_with_properties st (get_tracer_input_properties g (pk_prepend p) (pk_dims p)) with
  | Ok _ => exists arr, pack g p st = Ok arr
  | Err e => pack g p st = Err e
  end.
Proof. exact @main_pack_iff. Qed.
Print Assumptions c45_pack_iff.

(** C45: each tracer is packed once if no name is prepended twice. *)
Theorem c45_order_once : forall g p, NoDup (map fst (pk_prepend p)) -> NoDup (tracer_order g p).
Proof. exact @main_tracer_order_once. Qed.
Print Assumptions c45_order_once.

(** C45: registering a tracer, again or newly, moves no other tracer of any packer. *)
Theorem c45_order_stable : forall {R : Registry}, forall g p name u, let g' := fst (register_tracer g name u) in
  exists more, tracer_order g' p = tracer_order g p ++ more /\ (more = [] \/ more = [name]).
Proof. exact @main_order_stable. Qed.
Print Assumptions c45_order_stable.

(** Three tracers with different dims and units; one has been registered twice. *)
Example c45_pack_hypotheses_met : consistent g_tr /\ has_dims p_tr qd_tr /\ one_star qd_tr /\ wf_state st_tr /\ exists arr, pack g_tr p_tr st_tr = Ok arr /\ shape arr = [6; 3; 2].
Proof. exact @ex_pack_hyps. Qed.

(** C45: unpacking any array of that shape. *)
Theorem c45_unpack : forall {T : Type} {A : Arith T}, forall g p qd (st : state T) (a : nd T) mult L, consistent g -> has_dims p qd -> one_star qd -> wf_state st ->
  NoDup (map fst (pk_prepend p)) ->
  let tp := get_tracer_input_properties g (pk_prepend p) (pk_dims p) in
  let W := wildcard_dims st tp in
  complete st tp -> ~ length_conflict st tp -> ~ unexpected_dim st tp ->
  (forall nm pr ds b d n, listed st tp nm pr ds b -> has_dim b d n -> L d = n) ->
  shape a = tracer_shape g p W L ->
  exists out, unpack g p a st mult = Ok out /\
  (forall m, In m (keys out) <-> In m (tracer_order g p)) /\
  unpacked g p qd W L mult a out.
Proof. exact @main_unpack. Qed.
Print Assumptions c45_unpack.

(** For the same tracers. *)
Example c45_unpack_hypotheses_met : NoDup (map fst (pk_prepend p_tr)) /\ complete st_tr tp_tr /\ ~ length_conflict st_tr tp_tr /\ ~ unexpected_dim st_tr tp_tr /\
  NoDup (expand_dims (wildcard_dims st_tr tp_tr) qd_tr) /\
  (forall m u, tracer_units g_tr p_tr m = Some u -> exists x, parse u = Some x) /\
  exists L, common_lengths st_tr tp_tr L /\ exists a : nd Qc, wf_nd a /\ shape a = tracer_shape g_tr p_tr (wildcard_dims st_tr tp_tr) L.
Proof. exact @ex_unpack_hyps. Qed.

(** C45: unpacking the packed array gives exactly the tracers, with the values of the
    state in their units. *)
Theorem c45_pack_unpack : forall {T : Type} {A : Arith T} {R : Registry}, forall g p qd (st : state T) arr mult, consistent g -> has_dims p qd -> one_star qd -> wf_state st ->
  pack g p st = Ok arr ->
  let W := wildcard_dims st (get_tracer_input_properties g (pk_prepend p) (pk_dims p)) in
  exists out L, common_lengths st (get_tracer_input_properties g (pk_prepend p) (pk_dims p)) L /\
  unpack g p arr st mult = Ok out /\
  (forall m, In m (keys out) <-> In m (tracer_order g p)) /\
  forall m, In m (tracer_order g p) -> exists u a q q', tracer_units g p m = Some u /\ dget m st = Some (VDA a) /\ to_units a u = Ok q /\
  dget m out = Some q' /\ attrs q' = [("units", times_unit u mult)] /\ dims q' = expand_dims W qd /\
  shape (DataArrayM.arr q') = map L (dims q') /\ forall c, grid_point W L c qd -> da_at q' c = da_at q c.
Proof. exact @main_pack_unpack. Qed.
Print Assumptions c45_pack_unpack.

(** With a time unit. *)
Example c45_pack_unpack_case : match pack g_tr p_tr st_tr with
  | Ok arr => match unpack g_tr p_tr arr st_tr "s^-1" with
  | Ok out => list_eqb (keys out) ["soot"; "ash"; "vapour"] &&
  da_is (dget "ash" out) ["y"; "x"; "z"] [2; 3; 2] "g s^-1" (map cz [0; 1000; 0; 1000; 0; 1000; 0; 1000; 0; 1000; 0; 1000]%Z)
  | Err _ => false
  end
  | Err _ => false
  end = true.
Proof. exact @ex_pack_unpack. Qed.

(** C45: packing the unpacked tracers, from any state that holds them, gives back the
    array exactly. *)
Theorem c45_unpack_pack : forall {T : Type} {A : Arith T} {R : Registry}, forall g p qd (st st' : state T) (a : nd T) L, consistent g -> has_dims p qd -> one_star qd ->
  wf_state st -> wf_state st' -> NoDup (map fst (pk_prepend p)) ->
  let tp := get_tracer_input_properties g (pk_prepend p) (pk_dims p) in
  let W := wildcard_dims st tp in
  complete st tp -> ~ length_conflict st tp -> ~ unexpected_dim st tp -> NoDup (expand_dims W qd) ->
  (forall m u, tracer_units g p m = Some u -> exists x, parse u = Some x) ->
  (forall nm pr ds b d n, listed st tp nm pr ds b -> has_dim b d n -> L d = n) ->
  wf_nd a -> shape a = tracer_shape g p W L ->
  exists out, unpack g p a st "" = Ok out /\
  ((forall m, In m (tracer_order g p) -> exists q, dget m out = Some q /\ dget m st' = Some (VDA q)) ->
  pack g p st' = Ok a).
Proof. exact @main_unpack_pack. Qed.
Print Assumptions c45_unpack_pack.

(** C45 needs 'tracer' to be listed once in tracer_dims: listing it twice is accepted, and
    the packed arrays have fewer axes than tracer_dims. *)
Theorem c45_tracer_dim_twice_refuted : exists (g : treg) (p : packer) (st : state Qc) arr, In p (tr_packers (registry_after [Register "soot" "kg"; NewPacker [] ["tracer"; "tracer"] []])) /\
  pack (registry_after [Register "soot" "kg"; NewPacker [] ["tracer"; "tracer"] []]) p st = Ok arr /\ length (shape arr) <> length (pk_dims p).
Proof. exact @ex_tracer_twice. Qed.
Print Assumptions c45_tracer_dim_twice_refuted.

(** C46: after every history, the registered names are the keys of the unit dictionary. *)
Theorem c46_consistent : forall {R : Registry}, forall ops, consistent (registry_after ops).
Proof. exact @main_registry_consistent. Qed.
Print Assumptions c46_consistent.

(** C46: registering a tracer with other units is refused and changes nothing. *)
Theorem c46_reregister : forall {R : Registry}, forall ops name u u', dget name (tr_units (registry_after ops)) = Some u ->
  units_are_same u u' = Ok false ->
  outcome ops (Register name u') = Err EValue /\ registry_after (ops ++ [Register name u']) = registry_after ops.
Proof. exact @main_reregister. Qed.
Print Assumptions c46_reregister.

(** C46: until the tracers are reset, a registered tracer keeps its units, up to the spelling. *)
Theorem c46_units_kept : forall {R : Registry}, forall ops ops' name u, dget name (tr_units (registry_after ops)) = Some u -> ~ In ResetTracers ops' ->
  exists u', dget name (tr_units (registry_after (ops ++ ops'))) = Some u' /\ (u' = u \/ units_are_same u u' = Ok true).
Proof. exact @main_units_kept. Qed.
Print Assumptions c46_units_kept.

(** C46: no live packer's component has a prepended tracer as an output; if it has a
    registered one, a call registering it has raised an error while the packer was live. *)
Theorem c46_outputs : forall {R : Registry}, forall ops p name, In p (tr_packers (registry_after ops)) -> In name (pk_outs p) ->
  ~ In name (map fst (pk_prepend p)) /\
  (In name (keys (tr_units (registry_after ops))) ->
  exists ops1 u ops2, ops = ops1 ++ Register name u :: ops2 /\ outcome ops1 (Register name u) = Err EInvalidProps /\ In p (tr_packers (registry_after ops1))).
Proof. exact @main_outputs. Qed.
Print Assumptions c46_outputs.

(** C46: every live packer has 'tracer' among its dims. *)
Theorem c46_packer_dims : forall {R : Registry}, forall ops p, In p (tr_packers (registry_after ops)) -> In "tracer" (pk_dims p).
Proof. exact @main_packer_dims. Qed.
Print Assumptions c46_packer_dims.

(** A history with three refusals of different kinds. *)
Example c46_hypotheses_met : In p_h (tr_packers (registry_after ops_h)) /\ In "ash" (pk_outs p_h) /\ In "ash" (keys (tr_units (registry_after ops_h))) /\
  outcome [Register "soot" "kg"] (Register "soot" "g") = Err EValue /\
  units_are_same "kg" "g" = Ok false /\ dget "soot" (tr_units (registry_after [Register "soot" "kg"])) = Some "kg".
Proof. exact @ex_history. Qed.

(** The units of soot in that history. *)
Example c46_units_kept_hypotheses_met : dget "soot" (tr_units (registry_after [Register "soot" "kg"])) = Some "kg" /\
  ~ In ResetTracers (tl ops_h) /\ dget "soot" (tr_units (registry_after ([Register "soot" "kg"] ++ tl ops_h))) = Some "kg".
Proof. exact @ex_units_kept. Qed.

(** C47, partial: a refused call changes nothing, unless it is a registration refused
    because of the output of a component. *)
Theorem c47_refused_unchanged_partial : forall {R : Registry}, forall ops op e, outcome ops op = Err e -> (forall n u, op = Register n u -> e <> EInvalidProps) ->
  registry_after (ops ++ [op]) = registry_after ops.
Proof. exact @main_refused_unchanged. Qed.
Print Assumptions c47_refused_unchanged_partial.

(** C47: exactly which registrations are refused and how, and what accepted ones record. *)
Theorem c47_register_iff : forall {R : Registry}, forall ops name u,
  (outcome ops (Register name u) = Err EInvalidProps <->
  (forall u0, dget name (tr_units (registry_after ops)) = Some u0 -> units_are_same u0 u = Ok true) /\
  exists p, In p (tr_packers (registry_after ops)) /\ In name (pk_outs p)) /\
  (outcome ops (Register name u) = Err EValue <-> exists u0, dget name (tr_units (registry_after ops)) = Some u0 /\ units_are_same u0 u = Ok false) /\
  (outcome ops (Register name u) = Ok tt ->
  let g := registry_after ops in let g' := registry_after (ops ++ [Register name u]) in
  dget name (tr_units g') = Some u /\ (forall m, m <> name -> dget m (tr_units g') = dget m (tr_units g)) /\
  tr_names g' = tr_names g ++ [name] /\ tr_packers g' = tr_packers g).
Proof. exact @main_register_iff. Qed.
Print Assumptions c47_register_iff.

(** Refused packers. *)
Example c47_hypotheses_met : outcome [Register "soot" "kg"] (NewPacker [] ["tracer"] ["soot"]) = Err EInvalidProps /\
  outcome [] (NewPacker [] ["z"] []) = Err EValue.
Proof. exact @ex_refused_packer. Qed.

(** C47 fails: a tracer whose registration was refused because of the output of a
    component is registered afterwards. *)
Theorem c47_refused_recorded_refuted : exists ops name u, outcome ops (Register name u) = Err EInvalidProps /\
  dget name (tr_units (registry_after ops)) = None /\ dget name (tr_units (registry_after (ops ++ [Register name u]))) = Some u.
Proof. exact @ex_refused_recorded. Qed.
Print Assumptions c47_refused_recorded_refuted.

(** C47 fails: an accepted second registration lists the name twice. *)
Theorem c47_listed_twice_refuted : exists ops, outcome (removelast ops) (last ops ResetPackers) = Ok tt /\ ~ NoDup (tr_names (registry_after ops)).
Proof. exact @ex_listed_twice. Qed.
Print Assumptions c47_listed_twice_refuted.

(** C48, partial: the initialised array has the shape of the packed array if there are
    tracers, no tracer is listed twice, and the tracers and the other inputs have the
    same wildcard dims and share the dims of the tracers. *)
Theorem c48_init_tracers_partial : forall {T : Type} {A : Arith T} {R : Registry}, forall g p qd (st : state T) inp outp raw arr out, consistent g -> has_dims p qd -> one_star qd -> wf_state st ->
  wf_pdict inp -> NoDup (map (fun np => raw_name (fst np) (snd np)) inp) ->
  let tp := get_tracer_input_properties g (pk_prepend p) (pk_dims p) in
  NoDup (tr_names g ++ map fst (pk_prepend p)) -> tracer_order g p <> [] ->
  wildcard_dims st inp = wildcard_dims st tp -> shared_dims st inp tp (expand_dims (wildcard_dims st tp) qd) ->
  get_numpy_arrays_with_properties st inp = Ok raw -> pack g p st = Ok arr ->
  initialize_numpy_arrays_with_properties outp raw inp (Some (pk_dims p)) (tr_names g ++ map fst (pk_prepend p)) = Ok out ->
  exists z, dget "tracers" out = Some z /\ shape z = shape arr /\ z = full (shape arr) azero.
Proof. exact @main_init_tracers. Qed.
Print Assumptions c48_init_tracers_partial.

(** Two registered tracers and a prepended one. *)
Example c48_hypotheses_met : consistent g_i /\ has_dims p_i qd_tr /\ one_star qd_tr /\ wf_state st_tr /\ wf_pdict inp_i /\
  NoDup (map (fun np => raw_name (fst np) (snd np)) inp_i) /\ NoDup (tr_names g_i ++ map fst (pk_prepend p_i)) /\ tracer_order g_i p_i <> [] /\
  wildcard_dims st_tr inp_i = wildcard_dims st_tr tp_i /\ shared_dims st_tr inp_i tp_i (expand_dims (wildcard_dims st_tr tp_i) qd_tr) /\
  exists raw arr out, get_numpy_arrays_with_properties st_tr inp_i = Ok raw /\ pack g_i p_i st_tr = Ok arr /\
  initialize_numpy_arrays_with_properties [] raw inp_i (Some (pk_dims p_i)) (tr_names g_i ++ map fst (pk_prepend p_i)) = Ok out.
Proof. exact @ex_init_hyps. Qed.

(** C48 fails: the shapes differ if a tracer is registered twice, if it is registered and
    prepended, if there are no tracers, and if all tracers lack a dim. *)
Theorem c48_shapes_refuted : (exists ops p (st : state Qc) inp, ops = [Register "soot" "kg"; Register "soot" "kg"] /\ shapes_differ (registry_after ops) p st inp) /\
  (exists ops p (st : state Qc) inp, ops = [Register "soot" "kg"] /\ pk_prepend p = [("soot", "kg")] /\ shapes_differ (registry_after ops) p st inp) /\
  (exists p (st : state Qc) inp, pk_prepend p = [] /\ shapes_differ empty_treg p st inp) /\
  (exists ops p (st : state Qc) inp, ops = [Register "ash" "g"] /\ pk_prepend p = [] /\ shapes_differ (registry_after ops) p st inp).
Proof. exact @ex_shapes_differ. Qed.
Print Assumptions c48_shapes_refuted.

(** C65, partial: if the tracers and the other inputs have the same wildcard dims in the
    same order, then the same position along '*' is the same point of the grid. *)
Theorem c65_columns_align_partial : forall {T : Type} {A : Arith T} {R : Registry}, forall g p qd (st : state T) inp raw arr, consistent g -> has_dims p qd -> one_star qd -> wf_state st ->
  wf_pdict inp -> NoDup (map (fun np => raw_name (fst np) (snd np)) inp) ->
  let tp := get_tracer_input_properties g (pk_prepend p) (pk_dims p) in
  wildcard_dims st inp = wildcard_dims st tp ->
  get_numpy_arrays_with_properties st inp = Ok raw -> pack g p st = Ok arr ->
  exists L Lt, common_lengths st inp L /\ common_lengths st tp Lt /\
  forall c, let W := wildcard_dims st inp in
  (forall name pr ds u a q r, dget name inp = Some pr -> p_dims pr = Some ds -> p_units pr = Some u -> grid_point W L c ds ->
  dget name st = Some (VDA a) -> to_units a u = Ok q -> dget (raw_name name pr) raw = Some r -> 
  at_ r (map (axis_pos W L c) ds) = da_at q c) /\
  (forall i name u a q, nth_error (tracer_order g p) i = Some name -> tracer_units g p name = Some u -> grid_point W Lt c qd ->
  dget name st = Some (VDA a) -> to_units a u = Ok q -> at_ arr (map (tracer_pos i W Lt c) (pk_dims p)) = da_at q c) /\
  (shared_dims st inp tp W -> axis_pos W L c "*" = tracer_pos 0 W Lt c "*").
Proof. exact @main_columns_align. Qed.
Print Assumptions c65_columns_align_partial.

(** The inputs and tracers of c48. *)
Example c65_hypotheses_met : consistent g_i /\ has_dims p_i qd_tr /\ one_star qd_tr /\ wf_state st_tr /\ wf_pdict inp_i /\
  NoDup (map (fun np => raw_name (fst np) (snd np)) inp_i) /\ NoDup (tr_names g_i ++ map fst (pk_prepend p_i)) /\ tracer_order g_i p_i <> [] /\
  wildcard_dims st_tr inp_i = wildcard_dims st_tr tp_i /\ shared_dims st_tr inp_i tp_i (expand_dims (wildcard_dims st_tr tp_i) qd_tr) /\
  exists raw arr out, get_numpy_arrays_with_properties st_tr inp_i = Ok raw /\ pack g_i p_i st_tr = Ok arr /\
  initialize_numpy_arrays_with_properties [] raw inp_i (Some (pk_dims p_i)) (tr_names g_i ++ map fst (pk_prepend p_i)) = Ok out.
Proof. exact @ex_init_hyps. Qed.

(** C65 fails: with a temperature on (y, x) and a tracer on (x, y), equal at all points,
    position 1 along '*' of the raw temperature and of the packed tracer differ. *)
Theorem c65_columns_refuted : exists g p (st : state Qc) inp raw arr t s tr, consistent g /\ has_dims p ["*"] /\ wf_state st /\
  dget "temperature" st = Some (VDA t) /\ dget "soot" st = Some (VDA s) /\
  (forall x y, x < 3 -> y < 2 -> let c := fun d => if String.eqb d "x" then x else y in da_at t c = da_at s c) /\
  get_numpy_arrays_with_properties st inp = Ok raw /\ pack g p st = Ok arr /\
  tracer_order g p = ["soot"] /\ pk_dims p = ["tracer"; "*"] /\ dget "temperature" raw = Some tr /\ shape tr = [6] /\ shape arr = [1; 6] /\
  at_ tr [1] <> at_ arr [0; 1].
Proof. exact @ex_columns. Qed.
Print Assumptions c65_columns_refuted.
