(** Property theorems about what composites and steppers return (C84). *)
From Coq Require Import String List Bool Arith ZArith QArith Qcanon Permutation.
From Verif Require Import Prelude ArithM NdArray Units DataArrayM GetNp SpecArrays SpecDa SpecComposite SpecComponents ExampleRegistry Tracers SpecTracers Components Composite Steppers SpecSteppers
  SpecNested SpecInputs SpecReturns ReturnsFacts Ex_Components Ex_Composite Ex_Tracers Ex_Steppers Ex_Inputs Ex_Returns.
Import ListNotations.
Open Scope string_scope.
Open Scope nat_scope.
Open Scope list_scope.

#[local] Existing Instance ex_registry | 5.

(** C84: if each component returns what it declares, so does a composite: the tendencies it declares and those of the tracers, the diagnostics it declares, nothing else, and the declared ones in the declared units. *)
Theorem c84_composite : forall {T : Type} {A : Arith T} {R : Registry} ord, (forall l, NoDup l -> Permutation (ord l) l) -> forall {U} implicit g (cs : list (comp_obj T U)) comp dt u u' (st : state T) t d,
  make_tendency_composite ord implicit g (map (fun c => (true, o_props c)) cs) = Ok comp ->
  known (tends cs) -> dictionaries cs -> apart cs -> (forall c, In c cs -> keeps st c) ->
  implicit_composite_call (map o_call cs) dt u st = (u', Ok (t, d)) ->
  delivers (t_tend comp) (flat_map o_tracers cs) t /\ delivers (t_diag comp) [] d.
Proof. exact @composite_delivers. Qed.
Print Assumptions c84_composite.

(** A component with tracers and an implicit one that shares a tendency with it, in other units. *)
Example c84_composite_hypotheses_met : (forall l : list string, NoDup l -> Permutation ((fun l => l) l) l) /\
  make_tendency_composite (fun l => l) true g_tr (map (fun c => (true, o_props c)) cs_r) = Ok comp_r /\
  keys (t_tend comp_r) = ["temperature"] /\ keys (t_diag comp_r) = ["heat"] /\
  known (tends cs_r) /\ dictionaries cs_r /\ apart cs_r /\ (forall c, In c cs_r -> keeps st_tr c) /\
  exists u' t d, implicit_composite_call (map o_call cs_r) 1000000%Z 0 st_tr = (u', Ok (t, d)) /\ keys t = ["soot"; "ash"; "vapour"; "temperature"].
Proof. exact @ex_returns. Qed.

(** C84: constructed components are such components (C11). *)
Theorem c84_component : forall {T : Type} {A : Arith T} {R : Registry}, forall {U} impl g g' (inp tend diag : pdict) name tid tu c
  (ac : U -> dict (rval T) -> U * res (dict (nd T) * dict (nd T))) (st : state T),
  NoDup (keys inp) -> NoDup (keys tend) -> NoDup (keys diag) -> stars_ok tend inp -> stars_ok diag inp ->
  make_tendency_component impl g inp tend diag name tid None tu = (g', Ok c) -> wf_state st ->
  (forall u u' t d, tendency_call g c ac u st = (u', Ok (t, d)) -> proper t /\ NoDup (keys d)) ->
  keeps st (mkcomp (mkcprops inp tend (t_diag c) None) [] (inr (tendency_call g c ac))).
Proof. exact @component_keeps. Qed.
Print Assumptions c84_component.

(**  *)
Example c84_component_hypotheses_met : made_k = (g_tr, Ok c_k) /\ wf_state st_tr /\
  (forall u u' t d, tendency_call g_tr c_k ac_r2 u st_tr = (u', Ok (t, d)) -> proper t /\ NoDup (keys d)) /\
  exists u' t d, tendency_call g_tr c_k ac_r2 0 st_tr = (u', Ok (t, d)).
Proof. exact @ex_component_keeps. Qed.

(** C84: the same of a composite of diagnostic components, which then never raises SharedKeyError. *)
Theorem c84_diagnostic_composite : forall {T : Type} {R : Registry} ord, forall {U} g (cs : list (cprops * dcaller (T:=T) U)) c u (st : state T),
  make_diagnostic_composite ord g (map (fun x => (true, fst x)) cs) = Ok c ->
  (forall x, In x cs -> NoDup (keys (cp_diag (fst x)))) ->
  (forall x u u' o, In x cs -> snd x u st = (u', Ok o) -> NoDup (keys o) /\ delivers (cp_diag (fst x)) [] o) ->
  (forall u' d, diagnostic_composite_call (map snd cs) u st = (u', Ok d) -> delivers (d_diag c) [] d) /\
  forall u' outs, runs st (map snd cs) u u' outs -> exists d, diagnostic_composite_call (map snd cs) u st = (u', Ok d).
Proof. exact @dcomposite_delivers. Qed.
Print Assumptions c84_diagnostic_composite.

(**  *)
Example c84_diagnostic_hypotheses_met : (exists c, make_diagnostic_composite (fun l => l) g_tr (map (fun x => (true, fst x)) ds_r) = Ok c /\ keys (d_diag c) = ["p"; "q"]) /\
  (forall x, In x ds_r -> NoDup (keys (cp_diag (fst x)))) /\
  (forall x u u' o, In x ds_r -> snd x u st_tr = (u', Ok o) -> NoDup (keys o) /\ delivers (cp_diag (fst x)) [] o) /\
  exists u' d, diagnostic_composite_call (map snd ds_r) 0 st_tr = (u', Ok d).
Proof. exact @ex_returns_diagnostics. Qed.

(** C84: AdamsBashforth returns exactly the diagnostics it declares.  Those of the components are in the declared units, the tendencies it adds in the units of the input per second.  The new state differs at most in the declared outputs and the tracers, which keep the units they had. *)
Theorem c84_adams_bashforth_partial : forall {T : Type} {A : Arith T} {R : Registry} ord, (forall l, NoDup l -> Permutation (ord l) l) -> forall {U} clean g (cs : list (comp_obj T U)) name tid cfg dt o a u log s,
  make_tstep ord clean g (map (fun c => (true, o_props c)) cs) name tid = Ok cfg -> known (tends cs) -> dictionaries cs -> apart cs ->
  new_ab o = Ok a -> history (adams_bashforth cfg (all_of cs)) (all_of cs) dt (a, u) log s -> wf_log log ->
  (forall e c, In e log -> In c cs -> keeps (e_st e) c) ->
  forall e, In e log -> stepper_delivers cfg (e_diag e) /\
  same_outside (keys (ts_out cfg) ++ flat_map o_tracers cs) (e_st e) (e_new e) /\
  forall X, In X (keys (ts_out cfg) ++ flat_map o_tracers cs) -> exists x r, dget X (e_st e) = Some (VDA x) /\ dget X (e_new e) = Some (VDA r) /\ units_of r = units_of x.
Proof. exact @ab_delivers. Qed.
Print Assumptions c84_adams_bashforth_partial.

(**  *)
Example c84_adams_bashforth_hypotheses_met : make_tstep (fun l => l) ex_clean g_tr (map (fun c => (true, o_props c)) cs_r) "step" true = Ok cfg_r /\
  keys (ts_out cfg_r) = ["temperature"] /\ keys (ts_diag cfg_r) = ["heat"; "temperature_tendency_from_step"] /\
  exists a log s, new_ab (T:=Qc) (OInt 2) = Ok a /\ history (adams_bashforth cfg_r (all_of cs_r)) (all_of cs_r) 1000000 (a, 0) log s /\
  wf_log log /\ length log = 2 /\ forall e c, In e log -> In c cs_r -> keeps (e_st e) c.
Proof. exact @ex_returns_run. Qed.

(** C84: the same of Leapfrog, also for the state it filters, *)
Theorem c84_leapfrog_partial : forall {T : Type} {A : Arith T} {R : Registry} ord, (forall l, NoDup l -> Permutation (ord l) l) -> forall {U} clean g (cs : list (comp_obj T U)) name tid cfg dt nu alpha u log s,
  make_tstep ord clean g (map (fun c => (true, o_props c)) cs) name tid = Ok cfg -> known (tends cs) -> dictionaries cs -> apart cs ->
  lhistory cfg (all_of cs) dt (new_leap nu alpha, u) log s -> wf_llog log ->
  (forall e c, In e log -> In c cs -> keeps (l_st e) c) ->
  forall e, In e log -> stepper_delivers cfg (l_diag e) /\
  same_outside (keys (ts_out cfg) ++ flat_map o_tracers cs) (l_st e) (l_after e) /\
  same_outside (keys (ts_out cfg) ++ flat_map o_tracers cs) (l_st e) (l_new e) /\
  forall X, In X (keys (ts_out cfg) ++ flat_map o_tracers cs) -> exists x r, dget X (l_st e) = Some (VDA x) /\ dget X (l_new e) = Some (VDA r).
Proof. exact @leap_delivers. Qed.
Print Assumptions c84_leapfrog_partial.

(**  *)
Example c84_leapfrog_hypotheses_met : make_tstep (fun l => l) ex_clean g_tr (map (fun c => (true, o_props c)) cs_l) "step" true = Ok cfg_l /\
  known (tends cs_l) /\ dictionaries cs_l /\ apart cs_l /\
  exists log s, lhistory cfg_l (all_of cs_l) 1000000 (new_leap nu_e half, 0) log s /\
  wf_llog log /\ length log = 3 /\ forall e c, In e log -> In c cs_l -> keeps (l_st e) c.
Proof. exact @ex_returns_leap. Qed.

(** ... and of SSPRungeKutta, *)
Theorem c84_runge_kutta_partial : forall {T : Type} {A : Arith T} {R : Registry} ord, (forall l, NoDup l -> Permutation (ord l) l) -> forall {U} clean g (cs : list (comp_obj T U)) name tid cfg z k0 u0 calls k u st dt s' diag new,
  make_tstep ord clean g (map (fun c => (true, o_props c)) cs) name tid = Ok cfg -> known (tends cs) -> dictionaries cs -> apart cs ->
  new_rk z = Ok k0 -> after (ssp_rk cfg (all_of cs)) calls (k0, u0) = (k, u) ->
  proper_components (all_of cs) -> proper_state st -> (forall c, In c cs -> keeps st c) ->
  ssp_rk cfg (all_of cs) (k, u) st dt = (s', Ok (diag, new)) -> stepper_delivers cfg diag.
Proof. exact @rk_delivers. Qed.
Print Assumptions c84_runge_kutta_partial.

(** ... whose new state differs at most in these quantities if arithmetic is exact (C33). *)
Theorem c84_runge_kutta_new_partial : forall {R : Registry} ord, (forall l, NoDup l -> Permutation (ord l) l) ->
  forall {U} clean g (cs : list (comp_obj Qc U)) name tid cfg z k0 u0 calls k u st dt s' diag new,
  make_tstep ord clean g (map (fun c => (true, o_props c)) cs) name tid = Ok cfg -> known (tends cs) -> dictionaries cs -> apart cs ->
  new_rk z = Ok k0 -> after (ssp_rk cfg (all_of cs)) calls (k0, u0) = (k, u) ->
  proper_components (all_of cs) -> proper_state st -> (forall st c, In c cs -> keeps st c) ->
  ssp_rk cfg (all_of cs) (k, u) st dt = (s', Ok (diag, new)) ->
  same_outside (keys (ts_out cfg) ++ flat_map o_tracers cs) st new.
Proof. exact @rk_new_delivers. Qed.
Print Assumptions c84_runge_kutta_new_partial.

(**  *)
Example c84_runge_kutta_hypotheses_met : make_tstep (fun l => l) ex_clean g_tr (map (fun c => (true, o_props c)) cs_f) "step" true = Ok cfg_l /\
  known (tends cs_f) /\ dictionaries cs_f /\ apart cs_f /\ proper_components (all_of cs_f) /\ proper_state st_tr /\
  (forall st c, In c cs_f -> keeps st c) /\
  exists k0 s' diag new, new_rk (T:=Qc) 3 = Ok k0 /\ ssp_rk cfg_l (all_of cs_f) (k0, 0) st_tr 1000000 = (s', Ok (diag, new)).
Proof. exact @ex_returns_rk. Qed.

(** C84 in full is false of steppers: a tendency in the diagnostics that is not in the declared units, *)
Theorem c84_tendency_units_refuted : exists cfg (prog : icaller (T:=Qc) nat) (a : ab Qc) st dt s' diag new k p q,
  make_tstep (fun l => l) ex_clean empty_treg [(true, cp_e)] "step" true = Ok cfg /\ new_ab (OInt 1) = Ok a /\
  adams_bashforth cfg prog (a, 0) st dt = (s', Ok (diag, new)) /\
  dget k (ts_diag cfg) = Some p /\ dget k diag = Some q /\ p_units p = Some "m day^-1" /\ units_of q = Some "m s^-1".
Proof. exact @tendency_units_differ. Qed.
Print Assumptions c84_tendency_units_refuted.

(** ... an output that is not in the declared units, *)
Theorem c84_output_units_refuted : exists cfg (prog : icaller (T:=Qc) nat) (a : ab Qc) st dt s' diag new X p r,
  make_tstep (fun l => l) ex_clean empty_treg [(true, cp_e)] "step" false = Ok cfg /\ new_ab (OInt 1) = Ok a /\
  adams_bashforth cfg prog (a, 0) st dt = (s', Ok (diag, new)) /\
  dget X (ts_out cfg) = Some p /\ dget X new = Some (VDA r) /\ p_units p = Some "kg" /\ units_of r = Some "g".
Proof. exact @output_units_differ. Qed.
Print Assumptions c84_output_units_refuted.

(** ... and a tracer that is stepped although it is not among the declared outputs. *)
Theorem c84_tracer_refuted : exists (cs : list (comp_obj Qc nat)) cfg (a : ab Qc) (st : state Qc) dt s' diag new X,
  make_tstep (fun l => l) ex_clean g_tr (map (fun c => (true, o_props c)) cs) "step" true = Ok cfg /\ new_ab (OInt 1) = Ok a /\
  (forall c, In c cs -> keeps st c) /\
  adams_bashforth cfg (all_of cs) (a, 0) st dt = (s', Ok (diag, new)) /\
  dget X new <> dget X st /\ ~ In X (keys (ts_out cfg)).
Proof. exact @tracer_not_declared. Qed.
Print Assumptions c84_tracer_refuted.
