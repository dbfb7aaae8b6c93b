(** Property theorems about helpers, kinds of components and calendars (C58-C63, C68). *)
From Coq Require Import String List Bool Arith ZArith QArith Qcanon Permutation.
From Verif Require Import Prelude ArithM NdArray DataArrayM SpecArrays NetCDF UtilM SpecUtil UtilMain UtilAlias
  Duck SpecDuck DuckMain Calendar CalendarMain MonComp SpecMonComp MonCompMain Ex_Components Ex_NetCDF Ex_Util.
Import ListNotations.
Open Scope string_scope.
Open Scope nat_scope.
Open Scope list_scope.

(** C58: over all sequences of calls, every call of the composite calls each monitor once, in
    order, up to the first that raises, whose exception it raises; and nothing else happens.
    The monitors are arbitrary and may share state; [log] are the calls made before. *)
Theorem c58_calls : forall {W St : Type}, forall (ms : list (storer W St)) sts w w' os log, composite_run ms w sts = (w', os) ->
  exists cs, composite_run (recordings 0 ms) (w, log) sts = ((w', log ++ concat cs), os)
  /\ length os = length sts /\ length cs = length sts
  /\ replays ms w (concat cs) w'
  /\ (forall n st calls o, nth_error sts n = Some st -> nth_error cs n = Some calls -> nth_error os n = Some o -> each_once (length ms) st calls o).
Proof. exact @main_composite_calls. Qed.
Print Assumptions c58_calls.

(** C58: the composite accepts exactly lists of monitors. *)
Theorem c58_constructor : forall {W St : Type}, forall args : list (bool * storer W St),
  (forall p, new_composite args = Ok p <-> (forall a, In a args -> fst a = true) /\ p = map snd args)
  /\ (new_composite args = Err EType <-> exists a, In a args /\ fst a = false).
Proof. exact @main_new_composite. Qed.
Print Assumptions c58_constructor.

(** C58: NetCDF monitors with different files, used through a composite, each write their file
    as if they were used alone with the states that reached them. *)
Theorem c58_netcdf : forall {T : Type} {A : Arith T} {N : NcLib T}, forall ord ms sts fs cs fs' cs' os, NoDup (map m_file ms) -> length ms = length cs ->
  composite_run (nc_storers ord 0 ms) (fs, cs) sts = ((fs', cs'), os) ->
  (forall g, ~ In g (map m_file ms) -> dget g fs' = dget g fs) /\
  exists stops, length stops = length sts /\ Forall2 (fun stop o => stop = None <-> o = Ok tt) stops os /\
  forall i m, nth_error ms i = Some m ->
  exists fsi, mon_run ord m (map Store (given i stops sts)) fs (nth i cs []) = (gave i stops os, fsi, nth i cs' [])
  /\ dget (m_file m) fs' = dget (m_file m) fsi.
Proof. exact @main_nc_composite. Qed.
Print Assumptions c58_netcdf.

(** Three monitors, the second of which refuses the second state. *)
Example c58_case : composite_run (recordings 0 [adder; picky; adder]) ([], []) [2; 3] =
  (([2; 2; 3; 100], [(0, 2, Ok tt); (1, 2, Ok tt); (2, 2, Ok tt); (0, 3, Ok tt); (1, 3, Err EValue)]), [Ok tt; Err EValue]).
Proof. exact @ex_composite. Qed.

(** Three NetCDF monitors, the second of which fails from the second state on. *)
Example c58_netcdf_hypotheses_met : NoDup (map m_file mons) /\ length mons = length [[]; []; [] : cache_t Qc] /\
  match composite_run (nc_storers ident 0 mons) ([], [[]; []; []]) [lone 0 1; both second 2; lone (2 * second) 3] with
  | ((fs, cs), os) => match os with [Ok _; Err _; Err _] => true | _ => false end
  && zs_eq (file_times fs "a.nc") [0; 1; 2]%Z && zs_eq (file_times fs "c.nc") [0]%Z
  end = true.
Proof. exact @ex_nc_composite. Qed.

(** C59: get_numpy_array returns exactly when the requested dims describe the array. *)
Theorem c59_get_iff : forall {T : Type} {A : Arith T}, forall (a : da T) out req, wf_da a -> ~ In "*" (dims a) -> ((exists r w, get_numpy a out req = Ok (r, w)) <-> describes a out).
Proof. exact @main_get_iff. Qed.
Print Assumptions c59_get_iff.

(** C59: and then every element is where the requested dims say. *)
Theorem c59_get_values : forall {T : Type} {A : Arith T}, forall (a : da T) out req r w, wf_da a -> ~ In "*" (dims a) -> get_numpy a out req = Ok (r, w) ->
  exists rest, flattened a out req rest /\ w = (if mem "*" out then [("*", rest)] else []) /\ wf_nd r /\ shape r = map (axis_len a rest) out /\
  forall c, inside a c -> at_ r (map (axis_at a rest c) out) = da_at a c.
Proof. exact @main_get_values. Qed.
Print Assumptions c59_get_values.

(** C59: restoring what was extracted gives the array back. *)
Theorem c59_get_restore : forall {T : Type} {A : Arith T}, forall (a : da T) out r w at', wf_da a -> ~ In "*" (dims a) -> get_numpy a out None = Ok (r, w) -> restore_dims r out a at' = Ok (mkda (dims a) (arr a) at').
Proof. exact @main_get_restore. Qed.
Print Assumptions c59_get_restore.

(** C59: restore_dimensions returns exactly when the dims describe the reference and the number of elements is right. *)
Theorem c59_restore_iff : forall {T : Type} {A : Arith T}, forall (v : nd T) out like at', wf_da like -> ~ In "*" (dims like) ->
  ((exists b, restore_dims v out like at' = Ok b) <-> describes like out /\ prod (shape v) = prod (shape (arr like))).
Proof. exact @main_restore_iff. Qed.
Print Assumptions c59_restore_iff.

(** C59: extracting what was restored gives the values back. *)
Theorem c59_restore_get : forall {T : Type} {A : Arith T}, forall (v : nd T) out like at' b, wf_da like -> ~ In "*" (dims like) -> wf_nd v -> restore_dims v out like at' = Ok b ->
  wf_da b /\ dims b = dims like /\ shape (arr b) = shape (arr like) /\ attrs b = at' /\
  exists r w, get_numpy b out None = Ok (r, w) /\ shape r = map (axis_len like (unlisted like out)) out /\ data r = data v.
Proof. exact @main_restore_get. Qed.
Print Assumptions c59_restore_get.

(** Three dims; some requests that describe them and some that do not. *)
Example c59_hypotheses_met : wf_da wind_yxh /\ ~ In "*" (dims wind_yxh) /\ describes wind_yxh ["height"; "*"] /\ describes wind_yxh ["x"; "z"; "height"; "y"] /\ ~ describes wind_yxh ["x"; "height"] /\ ~ describes wind_yxh ["*"; "lat"].
Proof. exact @ex_get_hyps. Qed.

(** Two dims flattened, the third moved to the front. *)
Example c59_get_case : match get_numpy wind_yxh ["height"; "*"] None with
  | Ok (r, w) => shape_is (shape r) [2; 6] && nats_are (data r) [0; 2; 4; 6; 8; 10; 1; 3; 5; 7; 9; 11] && (match dget "*" w with Some l => list_eqb l ["y"; "x"] | None => false end)
  | Err _ => false
  end = true.
Proof. exact @ex_get_case. Qed.

(** And back. *)
Example c59_restore_case : match restore_dims (cramp [2; 6]) ["height"; "*"] wind_yxh [("units", "K")] with
  | Ok b => list_eqb (dims b) ["y"; "x"; "height"] && shape_is (shape (arr b)) [2; 3; 2] && nats_are (data (arr b)) [0; 6; 1; 7; 2; 8; 3; 9; 4; 10; 5; 11]
  | Err _ => false
  end = true.
Proof. exact @ex_restore_case. Qed.

(** C59 fails with require_wildcard_matches: restore_dimensions does not know the required
    order, and puts the elements elsewhere. *)
Theorem c59_required_refuted : exists (a : da Qc) out w r w' b, wf_da a /\ ~ In "*" (dims a) /\ get_numpy a out (Some w) = Ok (r, w') /\ restore_dims r out a (attrs a) = Ok b /\ arr b <> arr a.
Proof. exact @ex_required_order. Qed.
Print Assumptions c59_required_refuted.

(** C60: the alias of a quantity is the last in the input properties, else in the output, else
    in the diagnostic, else in the tendency properties. *)
Theorem c60_aliases : forall cs n, dget n (get_component_aliases cs) =
  or_else (last_of (aliases_in ps_input cs n)) (or_else (last_of (aliases_in ps_output cs n)) (or_else (last_of (aliases_in ps_diagnostic cs n)) (last_of (aliases_in ps_tendency cs n)))).
Proof. exact @main_aliases. Qed.
Print Assumptions c60_aliases.

(** Three components, with several aliases for some quantities. *)
Example c60_case : get_component_aliases cs_alias = [("wind", "v"); ("cloud", "c2"); ("rain", "r")].
Proof. exact @ex_aliases. Qed.

(** C61: what makes an object that inherits from no component class an instance of one. *)
Theorem c61_instance_iff : forall k o, o_bases o = [] ->
  (is_instance k o = true <-> callable o /\ attributes_of k o /\ ((uses_timestep k <-> takes_timestep o) \/ timestep_may_be_none o)).
Proof. exact @main_instance_iff. Qed.
Print Assumptions c61_instance_iff.

(** C61: such an object is of at most one kind, except that it can be both kinds of tendency
    component if its timestep can be left out. *)
Theorem c61_one_kind : forall k k' o, o_bases o = [] -> is_instance k o = true -> is_instance k' o = true ->
  k = k' \/ (counts_as k k' /\ timestep_may_be_none o).
Proof. exact @main_one_kind. Qed.
Print Assumptions c61_one_kind.

(** C61: an object whose class inherits from component classes is an instance of those only. *)
Theorem c61_inherits : forall k o, o_bases o <> [] -> (is_instance k o = true <-> In k (o_bases o)).
Proof. exact @main_inherits. Qed.
Print Assumptions c61_inherits.

(** Objects of each kind, of both tendency kinds, and of none. *)
Example c61_case : map (fun k => is_instance k (mkobj [] stepper_attrs (Some (args_timestep Required)))) [KStepper; KTendency; KImplicit; KDiagnostic] = [true; false; false; false]
  /\ map (fun k => is_instance k (mkobj [] tendency_attrs (Some args_plain))) [KStepper; KTendency; KImplicit; KDiagnostic] = [false; true; false; false]
  /\ map (fun k => is_instance k (mkobj [] tendency_attrs (Some (args_timestep DefaultOther)))) [KStepper; KTendency; KImplicit; KDiagnostic] = [false; false; true; false]
  /\ map (fun k => is_instance k (mkobj [] tendency_attrs (Some (args_timestep DefaultNone)))) [KStepper; KTendency; KImplicit; KDiagnostic] = [false; true; true; false]
  /\ map (fun k => is_instance k (mkobj [] diagnostic_attrs (Some args_plain))) [KStepper; KTendency; KImplicit; KDiagnostic] = [false; false; false; true]
  /\ map (fun k => is_instance k (mkobj [] diagnostic_attrs (Some (args_timestep Required)))) [KStepper; KTendency; KImplicit; KDiagnostic] = [false; false; false; false].
Proof. exact @ex_duck. Qed.

(** C62: for a documented calendar, however it is capitalised, the datetime is made in it. *)
Theorem c62_documented : forall {F Z D : Type} (construct : calendar -> F -> option Z -> res D), forall name n c fields, In (n, c) documented -> same_but_case name n ->
  datetime construct fields None name true = (let* d := construct c fields None in Ok (Some d)).
Proof. exact @main_documented. Qed.
Print Assumptions c62_documented.

(** C62: the default calendar needs no other package and allows a time zone. *)
Theorem c62_default : forall {F Z D : Type} (construct : calendar -> F -> option Z -> res D), forall name fields tzinfo ct, same_but_case name "proleptic_gregorian" ->
  datetime construct fields tzinfo name ct = (let* d := construct PythonDatetime fields tzinfo in Ok (Some d)).
Proof. exact @main_default_calendar. Qed.
Print Assumptions c62_default.

(** C62: the others refuse a time zone. *)
Theorem c62_timezone : forall {F Z D : Type} (construct : calendar -> F -> option Z -> res D), forall name fields z ct, ~ same_but_case name "proleptic_gregorian" -> datetime construct fields (Some z) name ct = Err EValue.
Proof. exact @main_timezone. Qed.
Print Assumptions c62_timezone.

(** C62: the others need the package. *)
Theorem c62_needs_package : forall {F Z D : Type} (construct : calendar -> F -> option Z -> res D), forall name fields, ~ same_but_case name "proleptic_gregorian" -> datetime construct fields None name false = Err EImport.
Proof. exact @main_needs_package. Qed.
Print Assumptions c62_needs_package.

(** C62: a datetime is only ever made in the calendar that was named. *)
Theorem c62_only_named : forall {F Z D : Type} (construct : calendar -> F -> option Z -> res D), forall name fields tzinfo ct d, datetime construct fields tzinfo name ct = Ok (Some d) ->
  exists n c, In (n, c) (documented ++ [("noleap", NoLeap)]) /\ same_but_case name n /\ construct c fields tzinfo = Ok d.
Proof. exact @main_only_named. Qed.
Print Assumptions c62_only_named.

(** C62 fails for every other name: nothing is raised, and None is returned. *)
Theorem c62_unknown_refuted : forall {F Z D : Type} (construct : calendar -> F -> option Z -> res D), forall name fields, (forall n c, In (n, c) (documented ++ [("noleap", NoLeap)]) -> ~ same_but_case name n) ->
  datetime construct fields None name true = Ok None.
Proof. exact @main_unknown_calendar. Qed.
Print Assumptions c62_unknown_refuted.

(** Some calendars. *)
Example c62_case : In ("360_day", Day360) documented /\ same_but_case "360_DAY" "360_day" /\ datetime keep 7 None "360_DAY" true = Ok (Some (Day360, 7))
  /\ datetime keep 7 (Some tt) "Julian" true = Err EValue /\ datetime keep 7 None "Julian" false = Err EImport /\ datetime keep 7 (Some tt) "Proleptic_Gregorian" false = Ok (Some (PythonDatetime, 7)).
Proof. exact @ex_calendar. Qed.

(** An unknown one, standard in CF. *)
Example c62_unknown_case : exists name, (forall n c, In (n, c) documented -> ~ same_but_case name n) /\ datetime keep 7 None name true = Ok None.
Proof. exact @ex_unknown_calendar. Qed.

(** C63, for lists one of which has no duplicates. *)
Theorem c63_same_list_partial : forall a b, NoDup a \/ NoDup b -> (same_list a b = true <-> Permutation a b).
Proof. exact @main_same_list. Qed.
Print Assumptions c63_same_list_partial.

(** C63: reorderings are always accepted. *)
Theorem c63_reordering : forall a b, Permutation a b -> same_list a b = true.
Proof. exact @main_reordering. Qed.
Print Assumptions c63_reordering.

(** A reordering, and a list that is none. *)
Example c63_case : NoDup ["x"; "y"; "z"] /\ same_list ["x"; "y"; "z"] ["z"; "x"; "y"] = true /\ same_list ["x"; "y"; "z"] ["x"; "y"; "y"] = false.
Proof. exact @ex_same_list. Qed.

(** C63 fails for lists with duplicates. *)
Theorem c63_duplicates_refuted : exists a b, same_list a b = true /\ ~ Permutation a b.
Proof. exact @ex_same_list_refuted. Qed.
Print Assumptions c63_duplicates_refuted.

(** C68: behind any wrappers, a component with the attributes of its kind is of that kind, and
    of no other, except that a tendency component is then of both tendency kinds. *)
Theorem c68_kind : forall k k' w ws o, attributes_of k o -> (is_instance k' (wrap_all (w :: ws) o) = true <-> counts_as k k').
Proof. exact @main_wrapped_kind. Qed.
Print Assumptions c68_kind.

(** C68: an object that is recognised by its attributes has those of its kind. *)
Theorem c68_recognised : forall k o, o_bases o = [] -> is_instance k o = true -> attributes_of k o.
Proof. exact @main_recognised. Qed.
Print Assumptions c68_recognised.

(** C68: ScalingWrapper accepts it. *)
Theorem c68_accepted : forall k ws o, attributes_of k o -> (ws = [] -> o_bases o = [k]) -> scaling_accepts (wrap_all ws o) = true.
Proof. exact @main_scaling_accepts. Qed.
Print Assumptions c68_accepted.

(** C68: behind any wrappers a stepper gets the timestep. *)
Theorem c68_stepper : forall {O : Type}, forall ws o (body : option Z -> res O) dt, o_bases o = [KStepper] -> attributes_of KStepper o ->
  call_through ws o KStepper body (Some dt) = body (Some dt).
Proof. exact @main_stepper_call. Qed.
Print Assumptions c68_stepper.

(** C68: a component that takes no timestep is called without one. *)
Theorem c68_plain : forall {O : Type}, forall k w ws o (body : option Z -> res O) ts, k = KTendency \/ k = KDiagnostic -> o_bases o = [k] -> attributes_of k o ->
  call_through (w :: ws) o k body ts = body None.
Proof. exact @main_plain_call. Qed.
Print Assumptions c68_plain.

(** C68: an implicit tendency component gets the timestep if no ScalingWrapper is around
    another wrapper.  What is missing: the other case, see [c68_scaling_refuted]. *)
Theorem c68_implicit_partial : forall {O : Type}, forall ws o (body : option Z -> res O) dt, o_bases o = [KImplicit] -> attributes_of KImplicit o -> ~ scaling_outside ws ->
  call_through ws o KImplicit body (Some dt) = body (Some dt).
Proof. exact @main_implicit_call. Qed.
Print Assumptions c68_implicit_partial.

(** C68: otherwise calling it always raises TypeError. *)
Theorem c68_implicit_fails : forall {O : Type}, forall ws o (body : option Z -> res O) dt, o_bases o = [KImplicit] -> attributes_of KImplicit o -> scaling_outside ws ->
  call_through ws o KImplicit body (Some dt) = Err EType.
Proof. exact @main_implicit_fails. Qed.
Print Assumptions c68_implicit_fails.

(** A component of each kind. *)
Example c68_hypotheses_met : attributes_of KStepper a_stepper /\ attributes_of KImplicit an_implicit /\ attributes_of KTendency a_tendency /\ attributes_of KDiagnostic a_diagnostic
  /\ o_bases a_stepper = [KStepper] /\ o_bases an_implicit = [KImplicit] /\ o_bases a_tendency = [KTendency] /\ o_bases a_diagnostic = [KDiagnostic].
Proof. exact @ex_attributes. Qed.

(** Some nestings. *)
Example c68_case : ~ scaling_outside [Frequency; Frequency; Scaling] /\ call_through [Frequency; Frequency; Scaling] an_implicit KImplicit echo (Some 60%Z) = Ok (Some 60%Z)
  /\ call_through [Scaling; Frequency; Scaling] a_stepper KStepper echo (Some 60%Z) = Ok (Some 60%Z)
  /\ call_through [Scaling; Frequency] a_tendency KTendency echo (Some 60%Z) = Ok None
  /\ call_through [Frequency; Scaling] a_diagnostic KDiagnostic echo (Some 60%Z) = Ok None.
Proof. exact @ex_nested. Qed.

(** C68 fails for a ScalingWrapper around an UpdateFrequencyWrapper around an implicit
    tendency component: it is accepted, and every call raises TypeError. *)
Theorem c68_scaling_refuted : exists ws o dt, o_bases o = [KImplicit] /\ attributes_of KImplicit o /\ is_instance KImplicit (wrap_all ws o) = true /\ scaling_accepts (wrap_all (tl ws) o) = true
  /\ forall body : option Z -> res unit, call_through ws o KImplicit body (Some dt) = Err EType.
Proof. exact @ex_scaling_outside. Qed.
Print Assumptions c68_scaling_refuted.

(** The attributes matter: a Stepper that also has tendency_properties is of no kind once wrapped. *)
Example c68_extra_attribute : exists o w, is_instance KStepper o = true /\ forall k, is_instance k (wrap_all [w] o) = false.
Proof. exact @ex_extra_attribute. Qed.
