(** Property theorems about rescaled states (C103). *)
From Coq Require Import String List Bool Arith ZArith QArith Qcanon.
From Verif Require Import Prelude ArithM NdArray Units DataArrayM ExampleRegistry SpecArrays Tracers Components Composite Steppers MainLoop LeapLoop SpecScale ScaleMain ScaleRuns Ex_Scale.
From Verif Require Ex_Region.
Import ListNotations.
Open Scope string_scope.
Open Scope nat_scope.
Open Scope list_scope.

#[local] Existing Instance ex_registry | 5.

(** C103: a component whose array_call answers rescaled inputs with rescaled outputs: the call on a state with every quantity multiplied by its factor returns the tendencies and diagnostics with each multiplied by its factor, or raises what the call on the original raises. *)
Theorem c103_tendency : forall {R : Registry} {U} tg (f fi ft fd f1 f2 : string -> Qc) c (ac : U -> dict (rval Qc) -> Z -> U * res (dict (nd Qc) * dict (nd Qc))),
  t_packer c = None -> homogeneous fi f1 f2 ac -> input_factors f fi (t_inp c) -> output_factors ft f1 (t_tend c) (t_inp c) -> output_factors fd f2 (t_diag c) (t_inp c) ->
  (t_tid c = true -> forall name, fd (tendency_name (t_name c) name) = ft name) ->
  forall u st dt, no_offsets f (t_inp c) st ->
  tendency_call tg c (fun u raw => ac u raw dt) u (by_name times_value f st) =
  (fst (tendency_call tg c (fun u raw => ac u raw dt) u st),
  result_map (fun o => (by_name times_da ft (fst o), by_name times_da fd (snd o))) (snd (tendency_call tg c (fun u raw => ac u raw dt) u st))).
Proof. exact @scale_tendency. Qed.
Print Assumptions c103_tendency.

(** C103: so for a DiagnosticComponent. *)
Theorem c103_diagnostic : forall {R : Registry} {U} (f fi fd fo : string -> Qc) c (ac : U -> dict (rval Qc) -> U * res (dict (nd Qc))),
  homogeneous1 fi fo ac -> input_factors f fi (d_inp c) -> output_factors fd fo (d_diag c) (d_inp c) ->
  forall u st, no_offsets f (d_inp c) st ->
  diagnostic_call c ac u (by_name times_value f st) =
  (fst (diagnostic_call c ac u st), result_map (by_name times_da fd) (snd (diagnostic_call c ac u st))).
Proof. exact @scale_diagnostic. Qed.
Print Assumptions c103_diagnostic.

(** C103: so for a Stepper, tendencies in diagnostics included. *)
Theorem c103_stepper : forall {R : Registry} {U} tg (f fi fd fn f1 f2 : string -> Qc) c (ac : U -> dict (rval Qc) -> Z -> U * res (dict (nd Qc) * dict (nd Qc))),
  s_packer c = None -> homogeneous fi f1 f2 ac -> input_factors f fi (s_inp c) -> output_factors fd f1 (s_diag c) (s_inp c) -> output_factors fn f2 (s_out c) (s_inp c) ->
  change_factors fi f1 f2 c ->
  forall u st dt, no_offsets f (s_inp c) st ->
  stepper_call tg c ac u (by_name times_value f st) dt =
  (fst (stepper_call tg c ac u st dt), result_map (fun o => (by_name times_da fd (fst o), by_name times_da fn (snd o))) (snd (stepper_call tg c ac u st dt))).
Proof. exact @scale_stepper. Qed.
Print Assumptions c103_stepper.

(** C103: such a component, with the same factor for a quantity and its tendency, is one that the next theorems are about. *)
Theorem c103_component : forall {R : Registry} (f : string -> Qc) {U} tg (fi f1 f2 : string -> Qc) c (ac : U -> dict (rval Qc) -> Z -> U * res (dict (nd Qc) * dict (nd Qc))),
  t_packer c = None -> homogeneous fi f1 f2 ac -> input_factors f fi (t_inp c) -> output_factors f f1 (t_tend c) (t_inp c) -> output_factors f f2 (t_diag c) (t_inp c) ->
  (t_tid c = true -> forall name, f (tendency_name (t_name c) name) = f name) -> linear_props f (t_tend c) ->
  scales f (fun u st dt => tendency_call tg c (fun u raw => ac u raw dt) u st).
Proof. exact @scale_component. Qed.
Print Assumptions c103_component.

(** C103: composites of such components are such components. *)
Theorem c103_composite : forall {R : Registry} (f : string -> Qc) {U} (cs : list (icaller (T:=Qc) U + caller (T:=Qc) U)),
  Forall (fun c => match c with inl p => scales f p | inr p => scales f (fun u st _ => p u st) end) cs ->
  scales f (fun u st dt => implicit_composite_call cs dt u st).
Proof. exact @scale_composite. Qed.
Print Assumptions c103_composite.

(** C103: the run with AdamsBashforth from the rescaled state stores and ends with the rescaled states of the original run. *)
Theorem c103_adams_bashforth : forall {R : Registry} (f : string -> Qc) {U : Type} (p : icaller (T:=Qc) U) (Hp : scales f p) {M N} (mon : M -> state Qc -> M * res unit) (mon' : N -> state Qc -> N * res unit) cfg o a0 u,
  rates_fit f cfg -> new_ab (T:=Qc) o = Ok a0 ->
  forall n stop dt m m' st w w' log log' e e', linear_state f st ->
  main_loop n [beside (adams_bashforth cfg p)] (fun w st => let (m1, r) := mon (fst w) st in ((m1, snd w), r)) stop dt (m, (a0, u)) st = ((w, log), Some (Ok e)) ->
  main_loop n [beside (adams_bashforth cfg p)] (fun w st => let (m1, r) := mon' (fst w) st in ((m1, snd w), r)) stop dt (m', (a0, u)) (by_name times_value f st) = ((w', log'), Some (Ok e')) ->
  log' = map (by_name times_value f) log /\ e' = by_name times_value f e.
Proof. exact @scale_adams_bashforth. Qed.
Print Assumptions c103_adams_bashforth.

(** C103: so with SSPRungeKutta. *)
Theorem c103_runge_kutta : forall {R : Registry} (f : string -> Qc) {U : Type} (p : icaller (T:=Qc) U) (Hp : scales f p) {M N} (mon : M -> state Qc -> M * res unit) (mon' : N -> state Qc -> N * res unit) cfg z k0 u,
  rates_fit f cfg -> new_rk (T:=Qc) z = Ok k0 ->
  forall n stop dt m m' st w w' log log' e e', linear_state f st ->
  main_loop n [beside (ssp_rk cfg p)] (fun w st => let (m1, r) := mon (fst w) st in ((m1, snd w), r)) stop dt (m, (k0, u)) st = ((w, log), Some (Ok e)) ->
  main_loop n [beside (ssp_rk cfg p)] (fun w st => let (m1, r) := mon' (fst w) st in ((m1, snd w), r)) stop dt (m', (k0, u)) (by_name times_value f st) = ((w', log'), Some (Ok e')) ->
  log' = map (by_name times_value f) log /\ e' = by_name times_value f e.
Proof. exact @scale_runge_kutta. Qed.
Print Assumptions c103_runge_kutta.

(** C103: so with Leapfrog. *)
Theorem c103_leapfrog : forall {R : Registry} (f : string -> Qc) {U : Type} (p : icaller (T:=Qc) U) (Hp : scales f p) {M N} (mon : M -> state Qc -> M * res unit) (mon' : N -> state Qc -> N * res unit) cfg nu alpha u,
  rates_fit f cfg ->
  forall n stop dt m m' st s1 s1' w w' log log' e e', linear_state f st ->
  leap_main_loop n cfg p [] mon stop dt (new_leap nu alpha, u) m st = ((s1, w, log), Some (Ok e)) ->
  leap_main_loop n cfg p [] mon' stop dt (new_leap nu alpha, u) m' (by_name times_value f st) = ((s1', w', log'), Some (Ok e')) ->
  log' = map (by_name times_value f) log /\ e' = by_name times_value f e.
Proof. exact @scale_leapfrog. Qed.
Print Assumptions c103_leapfrog.

(** Drag, and depth that grows with the square of the wind: twice the wind and four times the depth. *)
Example c103_setting : t_packer c_f = None /\ homogeneous fac fac fac ac_f /\ input_factors fac fac (t_inp c_f) /\ output_factors fac fac (t_tend c_f) (t_inp c_f) /\ output_factors fac fac (t_diag c_f) (t_inp c_f) /\
  (t_tid c_f = true -> forall name, fac (tendency_name (t_name c_f) name) = fac name) /\ linear_props fac (t_tend c_f) /\ no_offsets fac (t_inp c_f) st_f /\ linear_state fac st_f /\ rates_fit fac cfg_f.
Proof. exact sc_setting. Qed.

(** The component and a composite of two of it. *)
Example c103_scales : scales fac prog_f /\ scales fac pair_f.
Proof. exact scales_f. Qed.

(** What two calls return. *)
Example c103_call_case : exists t d t' d', prog_f 0 st_f 0%Z = (1, Ok (t, d)) /\ prog_f 0 (by_name times_value fac st_f) 0%Z = (1, Ok (t', d')) /\
  vals (dget "depth" t) = [Q2Qc 1000000; Q2Qc (1000000 # 9); Q2Qc 4000000] /\ vals (dget "depth" t') = [Q2Qc 4000000; Q2Qc (4000000 # 9); Q2Qc 16000000] /\
  vals (dget "depth_tendency_from_pump" d') = vals (dget "depth" t').
Proof. exact sc_call. Qed.

(** Three steps of SSPRungeKutta over the composite, from the state and from the rescaled one. *)
Example c103_run_case : exists w log e w' log' e', length log = 3 /\
  main_loop 4 [beside (ssp_rk cfg_f pair_f)] (fun w st => let (m1, r) := Ex_Region.mon_r (fst w) st in ((m1, snd w), r)) (3 * Ex_Region.sec_r) Ex_Region.sec_r (0, (mkrk 2 (mkab 1 None []), 0)) st_f = ((w, log), Some (Ok e)) /\
  main_loop 4 [beside (ssp_rk cfg_f pair_f)] (fun w st => let (m1, r) := Ex_Region.mon_r (fst w) st in ((m1, snd w), r)) (3 * Ex_Region.sec_r) Ex_Region.sec_r (0, (mkrk 2 (mkab 1 None []), 0)) (by_name times_value fac st_f) = ((w', log'), Some (Ok e')) /\
  log' = map (by_name times_value fac) log /\ e' = by_name times_value fac e.
Proof. exact sc_run. Qed.

(** A stepper that halves the depth and reports the tendency. *)
Example c103_stepper_case : s_packer s_f = None /\ homogeneous fac fac fac sac_f /\ input_factors fac fac (s_inp s_f) /\ output_factors fac fac (s_diag s_f) (s_inp s_f) /\ output_factors fac fac (s_out s_f) (s_inp s_f) /\
  change_factors fac fac fac s_f /\ no_offsets fac (s_inp s_f) st_f /\
  exists d n, stepper_call empty_treg s_f sac_f 0 (by_name times_value fac st_f) 2000000%Z = (1, Ok (d, n)) /\ vals (dget "depth_tendency_from_leak" d) = [Q2Qc (-5); 0%Qc; Q2Qc (-7)].
Proof. exact sc_stepper. Qed.

(** A diagnostic that reads the depth. *)
Example c103_diagnostic_case : homogeneous1 fac fac dac_f /\ input_factors fac fac (d_inp d_f) /\ output_factors fac fac (d_diag d_f) (d_inp d_f) /\ no_offsets fac (d_inp d_f) st_f /\
  exists d, diagnostic_call d_f dac_f 0 (by_name times_value fac st_f) = (1, Ok d) /\ vals (dget "drive" d) = [Q2Qc 20; 0%Qc; Q2Qc 28].
Proof. exact sc_diagnostic. Qed.
