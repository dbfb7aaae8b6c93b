(** Property theorems about the basic components and wrappers (C39-C41, C64). *)
From Coq Require Import String List Bool Arith ZArith QArith Qcanon.
From Verif Require Import Prelude ArithM NdArray Units DataArrayM SpecUnits ExampleRegistry SpecArrays SpecDa Tracers Components
  Composite SpecComposite Steppers SpecSteppers Basic SpecBasic BasicMain Differencing UpdateFreq ConstComp Ex_Components Ex_Steppers Ex_Basic.
Import ListNotations.
Open Scope string_scope.
Open Scope nat_scope.
Open Scope list_scope.

#[local] Existing Instance ex_registry | 5.

(** C39, any arithmetic: what the component returns is (equilibrium - x) / timescale, in
    its own units and seconds, at each point of the joint grid. *)
Theorem c39_relaxation : forall {T : Type} {A : Arith T} {R : Registry}, forall over_s q u tu name tid c (st : state T) tend diag, wf_state st ->
  over_s u = Ok tu -> new_relaxation over_s q u name tid = Ok c ->
  relaxation_call c q st = Ok (tend, diag) ->
  exists x e s t,
  dget q st = Some (VDA x) /\ dget ("equilibrium_" ++ q) st = Some (VDA e) /\
  dget (q ++ "_relaxation_timescale") st = Some (VDA s) /\
  tend = [(q, t)] /\ diag = (if tid then [((q ++ "_tendency_from_" ++ name)%string, t)] else []) /\
  is_relaxation u tu x e s t.
Proof. exact @main_relaxation. Qed.
Print Assumptions c39_relaxation.

(** C39: it returns whenever units convert and lengths agree. *)
Theorem c39_returns : forall {T : Type} {A : Arith T} {R : Registry}, forall over_s q u tu name tid c (st : state T) x e s t, wf_state st -> q <> "time" ->
  over_s u = Ok tu -> new_relaxation over_s q u name tid = Ok c ->
  dget q st = Some (VDA x) -> dget ("equilibrium_" ++ q) st = Some (VDA e) ->
  dget (q ++ "_relaxation_timescale") st = Some (VDA s) -> dget "time" st = Some t ->
  convertible x u -> convertible e u -> convertible s "s" -> same_sizes [x; e; s] ->
  exists tend diag, relaxation_call c q st = Ok (tend, diag).
Proof. exact @main_relaxation_returns. Qed.
Print Assumptions c39_returns.

(** C39: it can be constructed for all units pint can divide by seconds. *)
Theorem c39_construction : forall {R : Registry}, forall over_s q u tu name tid u1 u2, over_s u = Ok tu ->
  parse (per_second u) = Some u1 -> parse tu = Some u2 -> u_dim u1 = u_dim u2 ->
  exists c, new_relaxation over_s q u name tid = Ok c.
Proof. exact @main_new_relaxation. Qed.
Print Assumptions c39_construction.

(** C39, exact arithmetic: every forward Euler step of every run moves the quantity by
    dt/timescale of its distance from equilibrium, so that it stays between its old
    value and the equilibrium if 0 <= dt <= timescale; nothing else changes. *)
Theorem c39_step : forall {R : Registry}, sane_registry R -> per_second_law R -> forall over_s q u tu name tid c, over_second_law R over_s ->
  over_s u = Ok tu -> new_relaxation over_s q u name tid = Ok c ->
  forall cfg prog dt o a log s, prog = (fun w (st : state Qc) d => implicit_composite_call [inr (stateless (relaxation_call c q))] d w st) ->
  new_ab o = Ok a -> is_order o 1 ->
  history (adams_bashforth cfg prog) prog dt (a, tt) log s ->
  (forall e, In e log -> wf_state (e_st e) /\ NoDup (keys (e_st e))) ->
  forall e, In e log ->
  (forall X, X <> q -> dget X (e_new e) = dget X (e_st e)) /\
  exists x eq tau r, dget q (e_st e) = Some (VDA x) /\ dget ("equilibrium_" ++ q) (e_st e) = Some (VDA eq) /\
  dget (q ++ "_relaxation_timescale") (e_st e) = Some (VDA tau) /\ dget q (e_new e) = Some (VDA r) /\
  attrs r = attrs x /\ (forall d, dim_len r d = first_len d [x; eq; tau]) /\
  forall p, in_grid r p -> exists vx ve vs z,
  amount x p = Some vx /\ amount eq p = Some ve /\ value_in tau "s" p vs /\ amount r p = Some z /\
  (vs <> 0%Qc -> z = (vx + Q2Qc (dt # 1000000) / vs * (ve - vx))%Qc) /\
  ((0 < vs)%Qc -> (0 <= Q2Qc (dt # 1000000))%Qc -> (Q2Qc (dt # 1000000) <= vs)%Qc -> between vx z ve).
Proof. exact @main_relaxation_step. Qed.
Print Assumptions c39_step.

(** Three steps; the first one spreads the quantity over a new dimension. *)
Example c39_hypotheses_met : forall tid, over_second_law ex_registry over_ex /\ sane_registry ex_registry /\ per_second_law ex_registry /\
  new_relaxation over_ex "T" "K" "relax" tid = Ok (comp_r tid) /\
  exists log s, history (adams_bashforth cfg_r (prog_r tid)) (prog_r tid) 3600000000 (mkab 1 None [], tt) log s /\ length log = 3 /\
  (forall e, In e log -> wf_state (e_st e) /\ NoDup (keys (e_st e))) /\
  map (fun e => match dget "T" (e_new e) with Some (VDA a) => (dims a, hd 0%Qc (data (arr a))) | _ => ([], 0%Qc) end) log =
  [(["x"; "y"], Q2Qc (25 # 4)); (["x"; "y"], Q2Qc (2375 # 192)); (["x"; "y"], Q2Qc (169225 # 9216))].
Proof. exact @ex_relaxation_run. Qed.

(** Its hypotheses about the state. *)
Example c39_returns_hypotheses_met : exists x e s : da Qc, wf_state st_r /\ dget "T" st_r = Some (VDA x) /\
  dget ("equilibrium_" ++ "T") st_r = Some (VDA e) /\ dget ("T" ++ "_relaxation_timescale") st_r = Some (VDA s) /\
  convertible x "K" /\ convertible e "K" /\ convertible s "s" /\ same_sizes [x; e; s].
Proof. exact @ex_relaxation_returns. Qed.

(** C40, any arithmetic: tendencies are the differences over the step of the declared
    outputs, and of nothing else; diagnostics are those of the Stepper. *)
Theorem c40_difference : forall {T : Type} {A : Arith T} {R : Registry}, forall {U} (outp : pdict) (stepper : U -> state T -> Z -> U * res (stepped T)) u st dt u' tend diag,
  (forall u st dt u' diag new, stepper u st dt = (u', Ok (diag, new)) -> proper_state new) -> proper_state st ->
  differencing_call outp stepper u st dt = (u', Ok (tend, diag)) ->
  exists new, stepper u st dt = (u', Ok (diag, new)) /\ NoDup (keys tend) /\
  forall X, match dget X outp, dget X new with
  | Some p, Some (VDA b) => exists old ou t, dget X st = Some (VDA old) /\ p_units p = Some ou /\
  dget X tend = Some t /\ is_difference dt (ou ++ " s^-1") old b t
  | _, _ => dget X tend = None
  end.
Proof. exact @main_differencing. Qed.
Print Assumptions c40_difference.

(** C40: tendencies are declared for the outputs of the Stepper, in its units per second. *)
Theorem c40_declared : forall (outp tp : pdict), differencing_tendencies outp = Ok tp ->
  keys tp = keys outp /\
  forall X p, dget X outp = Some p -> exists q ou, dget X tp = Some q /\ p_units p = Some ou /\
  p_units q = Some (ou ++ " s^-1")%string /\ p_dims q = p_dims p /\ p_alias q = p_alias p.
Proof. exact @main_differencing_declared. Qed.
Print Assumptions c40_declared.

(** C40: the tendencies returned are in the units declared for them. *)
Theorem c40_declared_units : forall {T : Type} {A : Arith T} {R : Registry}, forall {U} (outp tp : pdict) (stepper : U -> state T -> Z -> U * res (stepped T)) u st dt u' tend diag,
  (forall u st dt u' diag new, stepper u st dt = (u', Ok (diag, new)) -> proper_state new) -> proper_state st ->
  differencing_tendencies outp = Ok tp ->
  differencing_call outp stepper u st dt = (u', Ok (tend, diag)) ->
  exists new, stepper u st dt = (u', Ok (diag, new)) /\
  forall X t, dget X tend = Some t -> exists q tu old b, dget X tp = Some q /\ p_units q = Some tu /\
  dget X st = Some (VDA old) /\ dget X new = Some (VDA b) /\ is_difference dt tu old b t.
Proof. exact @main_differencing_units. Qed.
Print Assumptions c40_declared_units.

(** C40, exact arithmetic: old value plus dt times tendency is the new value. *)
Theorem c40_amount : forall {R : Registry}, sane_registry R -> per_second_law R -> forall dt tu (old new t : da Qc) c vo vt, is_difference dt tu old new t -> dt <> 0%Z ->
  in_grid t c -> amount old c = Some vo -> amount t c = Some vt ->
  amount new c = Some (vo + Q2Qc (dt # 1000000) * vt)%Qc.
Proof. exact @main_differencing_amount. Qed.
Print Assumptions c40_amount.

(** C40, exact arithmetic: in every run of forward Euler with the wrapped Stepper each
    new state holds what the Stepper returned for the state of that call. *)
Theorem c40_step : forall {R : Registry}, sane_registry R -> per_second_law R -> forall {U} (outp : pdict) (stepper : U -> state Qc -> Z -> U * res (stepped Qc)) cfg prog dt o a u log s,
  (forall u st dt u' diag new, stepper u st dt = (u', Ok (diag, new)) -> proper_state new) -> dt <> 0%Z ->
  prog = (fun w st d => implicit_composite_call [inl (differencing_call outp stepper)] d w st) ->
  new_ab o = Ok a -> is_order o 1 ->
  history (adams_bashforth cfg prog) prog dt (a, u) log s -> (forall e, In e log -> proper_state (e_st e)) ->
  forall e, In e log -> exists u1 u2 diag new, stepper u1 (e_st e) dt = (u2, Ok (diag, new)) /\
  forall X, match dget X outp, dget X new with
  | Some p, Some (VDA b) => exists old r, dget X (e_st e) = Some (VDA old) /\ dget X (e_new e) = Some (VDA r) /\
  (forall d, dim_len r d = first_len d [old; b]) /\ attrs r = attrs old /\
  forall c, in_grid r c -> exists v, amount r c = Some v /\ amount b c = Some v
  | _, _ => dget X (e_new e) = dget X (e_st e)
  end.
Proof. exact @main_differencing_step. Qed.
Print Assumptions c40_step.

(** C40: it returns whenever units convert and lengths agree. *)
Theorem c40_returns : forall {T : Type} {A : Arith T} {R : Registry}, forall {U} (outp : pdict) (stepper : U -> state T -> Z -> U * res (stepped T)) u st dt u' diag new,
  stepper u st dt = (u', Ok (diag, new)) ->
  (forall X t, In (X, VTime t) new -> X = "time") ->
  (forall X b p, In (X, VDA b) new -> dget X outp = Some p -> exists old un ou u1 u2,
  dget X st = Some (VDA old) /\ wf_da old /\ wf_da b /\ sizes_match b old /\ units_of b = Some un /\ convertible old un /\
  p_units p = Some ou /\ parse (per_second un) = Some u1 /\ parse (ou ++ " s^-1") = Some u2 /\ u_dim u1 = u_dim u2) ->
  exists tend, differencing_call outp stepper u st dt = (u', Ok (tend, diag)).
Proof. exact @main_differencing_returns. Qed.
Print Assumptions c40_returns.

(** C40: an exception of the Stepper is passed on. *)
Theorem c40_stepper_fails : forall {T : Type} {A : Arith T} {R : Registry}, forall {U} (outp : pdict) (stepper : U -> state T -> Z -> U * res (stepped T)) u st dt u' e,
  stepper u st dt = (u', Err e) -> differencing_call outp stepper u st dt = (u', Err e).
Proof. exact @main_differencing_fails. Qed.
Print Assumptions c40_stepper_fails.

(** C40: an output the given state lacks is refused. *)
Theorem c40_missing : forall {T : Type} {A : Arith T} {R : Registry}, forall {U} (outp : pdict) (stepper : U -> state T -> Z -> U * res (stepped T)) u st dt u' diag new X b,
  stepper u st dt = (u', Ok (diag, new)) -> In (X, VDA b) new -> In X (keys outp) -> dget X st = None ->
  exists e, differencing_call outp stepper u st dt = (u', Err e).
Proof. exact @main_differencing_missing. Qed.
Print Assumptions c40_missing.

(** Three steps with a Stepper that doubles a mass and returns it in other units. *)
Example c40_hypotheses_met : (forall u st dt u' diag new, stepper_d u st dt = (u', Ok (diag, new)) -> proper_state new) /\
  exists log s, history (adams_bashforth cfg_d prog_d) prog_d 10000000 (mkab 1 None [], 0) log s /\ length log = 3 /\
  (forall e, In e log -> proper_state (e_st e)) /\
  forallb (fun e => match dget "a" (e_st e), dget "a" (e_tend e), dget "a" (e_new e) with
  | Some (VDA a), Some t, Some (VDA b) => Qc_eqb (da_at b (fun _ => 2)) (da_at a (fun _ => 2) + da_at a (fun _ => 2))%Qc &&
  Qc_eqb (da_at t (fun _ => 2) * cz 10)%Qc (da_at a (fun _ => 2)) && negb (Qc_eqb (da_at a (fun _ => 2)) 0%Qc)
  | _, _, _ => false
  end) log = true.
Proof. exact @ex_differencing_run. Qed.

(** The declared tendencies of that Stepper. *)
Example c40_declared_hypotheses_met : exists tp, differencing_tendencies outp_d = Ok tp /\ keys tp = ["a"] /\ proper_state st_d.
Proof. exact @ex_differencing_declared. Qed.

(** A Stepper with an output. *)
Example c40_missing_hypotheses_met : exists new b, stepper_d 0 st_d 1 = (1, Ok ([("d", mkda [] (cramp []) [("units", "K")])], new)) /\
  In ("a", VDA b) new /\ In "a" (keys outp_d).
Proof. exact @ex_differencing_missing. Qed.

(** C41: over any history of calls, whatever their outcomes, the component is called iff
    there was no update yet or one interval has passed since the last; otherwise the
    last update's output is returned.  When called, its result or exception is that of
    the wrapper, and a failed call is no update. *)
Theorem c41_update_frequency : forall {T O U : Type} (component : U -> state T -> option Z -> U * res O), forall interval u log s, uhistory (uf_call (recording component) interval) (new_ufw, u) log s ->
  forall pre e post, log = pre ++ e :: post ->
  match last_update pre with
  | Some (t0, o0) => ((uc_time e < t0 + interval)%Z -> uc_tried e = [] /\ uc_out e = Ok (Some o0)) /\
  ((t0 + interval <= uc_time e)%Z -> uc_tried e <> [])
  | None => uc_tried e <> []
  end /\
  match uc_tried e with
  | [] => True
  | [(ts, r)] => ts = uc_step e /\ uc_out e = (let* o := r in Ok (Some o)) /\ (uc_step e = None \/ r <> Err EType)
  | [(ts, r); (ts', r')] => uc_step e <> None /\ ts = uc_step e /\ r = Err EType /\ ts' = None /\ uc_out e = (let* o := r' in Ok (Some o))
  | _ => False
  end.
Proof. exact @main_update_frequency. Qed.
Print Assumptions c41_update_frequency.

(** The recording in c41_update_frequency changes nothing else. *)
Theorem c41_recording_transparent : forall {T O U : Type} (component : U -> state T -> option Z -> U * res O), forall interval w u l st ts w' u' out,
  uf_call component interval (w, u) st ts = ((w', u'), out) <->
  exists l', uf_call (recording component) interval (w, (u, l)) st ts = ((w', (u', l')), out).
Proof. exact @main_recording_same. Qed.
Print Assumptions c41_recording_transparent.

(** C41 fails if read as "called once": a TypeError of the component makes it called twice. *)
Theorem c41_called_once_refuted : exists (component : nat -> state Qc -> option Z -> nat * res nat) interval st ts w' u' tried out,
  uf_call (recording component) interval (new_ufw, (0, [])) st ts = ((w', (u', tried)), out) /\ length tried = 2.
Proof. exact @called_twice. Qed.
Print Assumptions c41_called_once_refuted.

(** C41 fails as documented ("must differ by"): if time has gone back by more than the
    interval, nothing is recomputed. *)
Theorem c41_differ_refuted : exists (component : nat -> state Qc -> option Z -> nat * res nat) interval s1 s2 t0 t1 tried out,
  uhistory (uf_call (recording component) interval) (new_ufw, 0) s1 s2 /\ last_update s1 = Some (t0, 0) /\
  (interval < Z.abs (t0 - t1))%Z /\
  uf_call (recording component) interval (fst s2, (snd s2, [])) (st_u t1) None = ((fst s2, (snd s2, tried)), out) /\ tried = [].
Proof. exact @backwards. Qed.
Print Assumptions c41_differ_refuted.

(** C41: called once per step of a run with a fixed timestep, and without exceptions, the wrapper
    computes in every m-th call, where m timesteps are the least number to cover the interval, and
    returns in between what the last of these calls computed. *)
Theorem c41_fixed_timestep : forall {T O U : Type} (component : U -> state T -> option Z -> U * res O), forall interval dt t0 m u, (0 < dt)%Z -> 0 < m -> (interval <= Z.of_nat m * dt)%Z ->
  (m = 1 \/ (Z.of_nat (m - 1) * dt < interval)%Z) ->
  forall log s, uhistory (uf_call (recording component) interval) (new_ufw, u) log s ->
  (forall k e, nth_error log k = Some e -> uc_time e = (t0 + Z.of_nat k * dt)%Z /\ exists o, uc_out e = Ok o) ->
  forall k e, nth_error log k = Some e ->
  (uc_tried e <> [] <-> k mod m = 0) /\
  exists e0, nth_error log (k - k mod m) = Some e0 /\ uc_tried e0 <> [] /\ uc_out e0 = uc_out e.
Proof. exact @main_regular. Qed.
Print Assumptions c41_fixed_timestep.

(** Steps of 2 with an interval of 5: calls 0 and 3 compute. *)
Example c41_fixed_timestep_hypotheses_met : uhistory (uf_call (recording comp_w) 5) (new_ufw, 0) log_r (mkufw (Some 1) (Some 7%Z), 2) /\
  (forall k e, nth_error log_r k = Some e -> uc_time e = (1 + Z.of_nat k * 2)%Z /\ exists o, uc_out e = Ok o) /\
  (5 <= Z.of_nat 3 * 2)%Z /\ (Z.of_nat (3 - 1) * 2 < 5)%Z.
Proof. exact @ex_regular. Qed.

(** Seven calls: a failure, time going back, a second try after a TypeError. *)
Example c41_hypotheses_met : uhistory (uf_call (recording comp_u) 3) (new_ufw, 0)
  [ mkucall 1 (Some 2%Z) [(Some 2%Z, Ok 0)] (Ok (Some 0)); mkucall 3 (Some 2%Z) [] (Ok (Some 0));
  mkucall 5 None [(None, Err EValue)] (Err EValue); mkucall 2 None [] (Ok (Some 0));
  mkucall 4 (Some 1%Z) [(Some 1%Z, Err EType); (None, Ok 1)] (Ok (Some 1)); mkucall 6 None [] (Ok (Some 1));
  mkucall 8 None [(None, Ok 2)] (Ok (Some 2)) ] (mkufw (Some 2) (Some 8%Z), 3).
Proof. exact @ex_update_run. Qed.

(** C64: on any state with a time the component returns the given values, on their dims
    and in their units, under the given names; other attributes are dropped. *)
Theorem c64_constant_tendency : forall {T : Type} {A : Arith T} {R : Registry}, forall (tend diag : dict (da T)) name c, constants tend -> constants diag ->
  new_constant_tendency tend diag name false = Ok c ->
  forall st : state T,
  (dget "time" st = None -> constant_tendency_call c tend diag st = Err EKey) /\
  (dget "time" st <> None -> exists tout dout, constant_tendency_call c tend diag st = Ok (tout, dout) /\
  keys tout = keys tend /\ keys dout = keys diag /\
  (forall X a, dget X tend = Some a -> exists b, dget X tout = Some b /\ same_units_values a b) /\
  (forall X a, dget X diag = Some a -> exists b, dget X dout = Some b /\ same_units_values a b)).
Proof. exact @main_constant_tendency. Qed.
Print Assumptions c64_constant_tendency.

(** C64: it can be constructed exactly if all arrays have units. *)
Theorem c64_construction : forall {T : Type} {R : Registry}, forall (tend diag : dict (da T)) name,
  ((forall X a, In (X, a) (tend ++ diag) -> exists u, units_of a = Some u) -> exists c, new_constant_tendency tend diag name false = Ok c) /\
  ((exists X a, In (X, a) (tend ++ diag) /\ units_of a = None) -> new_constant_tendency tend diag name false = Err EKey).
Proof. exact @main_new_constant_tendency. Qed.
Print Assumptions c64_construction.

(** C64: the same for ConstantDiagnosticComponent. *)
Theorem c64_constant_diagnostic : forall {T : Type} {A : Arith T} {R : Registry}, forall (diag : dict (da T)) c, constants diag ->
  new_constant_diagnostic diag = Ok c ->
  forall st : state T,
  (dget "time" st = None -> constant_diagnostic_call c diag st = Err EKey) /\
  (dget "time" st <> None -> exists dout, constant_diagnostic_call c diag st = Ok dout /\ keys dout = keys diag /\
  (forall X a, dget X diag = Some a -> exists b, dget X dout = Some b /\ same_units_values a b)).
Proof. exact @main_constant_diagnostic. Qed.
Print Assumptions c64_constant_diagnostic.

(** Arrays whose dims disagree on a length are allowed. *)
Example c64_hypotheses_met : constants const_t /\ constants const_d /\
  (exists c, new_constant_tendency const_t const_d "c" false = Ok c) /\ exists c, new_constant_diagnostic const_d = Ok c.
Proof. exact @ex_constants. Qed.
