(** Property theorems about taking up a run that died (C88). *)
From Coq Require Import String List Bool Arith ZArith QArith Qcanon.
From Verif Require Import Prelude ArithM NdArray Units DataArrayM ExampleRegistry Tracers Components SpecCalls Composite Steppers Basic MainLoop NetCDF
  SpecNetCDF SpecMainLoop SpecResume SpecDies DiesMain DiesRK Ex_Components Ex_NetCDF Ex_Steppers Ex_MainLoop Ex_Resume Ex_Dies.
From Verif Require SpecLocal.
Import ListNotations.
Open Scope string_scope.
Open Scope nat_scope.
Open Scope list_scope.

#[local] Existing Instance ex_registry | 5.

(** C88, for processes that remember nothing and do not read the diagnostics given: a program stores every completed state in a restart file and dies after n passes, between two stores or anywhere within one. Then a complete restart is found in the file, or in the file with .old added if that is missing; it is the state completed by the last pass or by the one before; and a new program that goes on from it stores the states that the uninterrupted run would have stored. *)
Theorem c88_taken_up_partial : forall {T : Type} {A : Arith T} {N : NcLib T}, forall {U} (Fit : U -> Prop) Ds (ps : list (process (T:=T) U)) L f stop dt n fs u st fs1 u1 log1 fs2,
  Forall (memoryless Fit (concat Ds) dt) ps -> Forall2 (diagnoses dt) ps Ds -> ~ In "time" (concat Ds) -> Fit u -> tidy (concat Ds) st -> plain_fit N ->
  main_loop n (map beside ps) (to_restart f) stop dt (fs, u) st = (((fs1, u1), log1), None) -> 0 < n ->
  (forall X, In X (snd (fst (main_loop (S n) ps quiet stop dt u st))) -> restartable L X) ->
  (fs2 = fs1 \/ exists X, nth_error (snd (fst (main_loop (S n) ps quiet stop dt u st))) n = Some X /\ crash_points f false X fs1 fs2) ->
  exists k d st2 X, (S k = n \/ k = n) /\ current f fs2 = Some d /\ NetCDF.load f [(f, d)] = Ok st2 /\
  nth_error (snd (fst (main_loop (S n) ps quiet stop dt u st))) k = Some X /\ same_state X st2 /\
  forall m u2, Fit u2 ->
  let whole := main_loop (k + m) ps quiet stop dt u st in
  let taken_up := main_loop m ps quiet stop dt u2 st2 in
  Forall2 same_state (skipn k (snd (fst whole))) (snd (fst taken_up)) /\ same_end (concat Ds) (snd whole) (snd taken_up).
Proof. exact @main_taken_up. Qed.
Print Assumptions c88_taken_up_partial.

(** The loop of the quickstart with forward Euler dies in its third pass, when the restart file has been renamed. *)
Example c88_taken_up_hyps : exists fs1 u1 log1 X fs2,
  Forall (memoryless fit_d (concat given_d) 10000000) procs_d /\ Forall2 (diagnoses (T:=Qc) 10000000) procs_d given_d /\ ~ In "time" (concat given_d) /\
  fit_d (ab1, 0) /\ tidy (concat given_d) st_f /\ plain_fit ex_lib /\
  main_loop 2 (map beside procs_d) (to_restart "r.nc") 40000000 10000000 ([], (ab1, 0)) st_f = (((fs1, u1), log1), None) /\
  (forall Y, In Y (snd (fst quiet_three)) -> restartable Lr Y) /\
  nth_error (snd (fst quiet_three)) 2 = Some X /\ crash_points "r.nc" false X fs1 fs2 /\
  dget "r.nc" fs2 = None /\ dmem "r.nc.old" fs2 = true /\ length log1 = 2.
Proof. exact @ex_dies. Qed.

(** Newly created objects may take the run up. *)
Example c88_taken_up_new_objects : fit_d (ab1, 0) /\ fit_d (ab1, 41) /\ fit_d (mkab 1 (Some 10000000%Z) [], 7).
Proof. exact @ex_fits. Qed.

(** C88: storing restarts does not change the run. *)
Theorem c88_restart_beside : forall {T : Type} {A : Arith T} {N : NcLib T}, forall {U} f (ps : list (process (T:=T) U)) stop dt n fs u st fs1 u1 log,
  main_loop n (map beside ps) (to_restart f) stop dt (fs, u) st = (((fs1, u1), log), None) ->
  main_loop n ps quiet stop dt u st = ((u1, log), None) /\ length log = n.
Proof. exact @main_beside_restart. Qed.
Print Assumptions c88_restart_beside.

(** C88: a forward Euler stepper of components that remember nothing and do not read the diagnostics is as c88_taken_up_partial asks. *)
Theorem c88_euler : forall {T : Type} {A : Arith T} {R : Registry}, forall {U} Fit D cfg (prog : icaller (T:=T) U) dt, heedless Fit D prog -> (forall X, In X (keys (ts_out cfg)) -> ~ In X D) ->
  memoryless (fun w => euler_object dt (fst w) /\ Fit (snd w)) D dt (adams_bashforth cfg prog).
Proof. exact @main_euler_memoryless. Qed.
Print Assumptions c88_euler.

(** C88: components of which each computes the same whatever it remembers, and that declare no input that is a diagnostic, are as c88_euler asks. *)
Theorem c88_components : forall {T : Type} {A : Arith T} {R : Registry}, forall {U} names D g (cs : list (tcomp * (Z -> U -> dict (rval T) -> U * res (dict (nd T) * dict (nd T))))),
  (forall ca, In ca cs -> SpecLocal.uses names g (fst ca)) -> (forall ca, In ca cs -> forall dt u u' raw, snd (snd ca dt u raw) = snd (snd ca dt u' raw)) ->
  (forall X, In X names -> ~ In X D) -> heedless (fun _ => True) D (SpecLocal.called g cs).
Proof. exact @main_components_heedless. Qed.
Print Assumptions c88_components.

(** C88: a Stepper that computes the same whatever it remembers, and declares no input that is a diagnostic, is as c88_taken_up_partial asks. *)
Theorem c88_stepper : forall {T : Type} {A : Arith T} {R : Registry}, forall {U} D g c (ac : U -> dict (rval T) -> Z -> U * res (dict (nd T) * dict (nd T))) dt,
  (forall u u' raw, snd (ac u raw dt) = snd (ac u' raw dt)) ->
  (forall X, In X ("time" :: keys (s_inp c) ++ read_tracers g (s_packer c)) -> ~ In X D) ->
  memoryless (fun _ => True) D dt (stepper_process g c ac).
Proof. exact @main_stepper_memoryless. Qed.
Print Assumptions c88_stepper.

(** C88: the diagnostics of an AdamsBashforth stepper are those its components declare. *)
Theorem c88_euler_diagnostics : forall {T : Type} {A : Arith T} {R : Registry}, forall {U} cfg g (cs : list (tcomp * (Z -> U -> dict (rval T) -> U * res (dict (nd T) * dict (nd T))))) dt,
  ts_tid cfg = false -> (forall ca, In ca cs -> t_tid (fst ca) = false /\ t_added (fst ca) = []) ->
  diagnoses dt (adams_bashforth cfg (SpecLocal.called g cs)) (concat (map (fun ca => keys (t_diag (fst ca))) cs)).
Proof. exact @main_euler_diagnoses. Qed.
Print Assumptions c88_euler_diagnostics.

(** C88: the diagnostics of a Stepper are those it declares. *)
Theorem c88_stepper_diagnostics : forall {T : Type} {A : Arith T} {R : Registry}, forall {U} g c (ac : U -> dict (rval T) -> Z -> U * res (dict (nd T) * dict (nd T))) dt,
  diagnoses dt (stepper_process g c ac) (keys (s_diag c)).
Proof. exact @main_stepper_diagnoses. Qed.
Print Assumptions c88_stepper_diagnostics.

(** C88 does not hold for a component that reads a quantity which it also gives as a diagnostic: the run taken up reads the diagnostic of the stored state, the uninterrupted run reads the value it had before. *)
Theorem c88_reads_own_diagnostic_refuted : exists (prog : icaller (T:=Qc) unit) st fs1 u1 log1 st2 w X Y w' X' Y',
  reads_by_name prog /\ (forall u s dt u' t d, prog u s dt = (u', Ok (t, d)) -> keys t = ["w"] /\ keys d = ["depth"]) /\
  main_loop 1 (map beside [adams_bashforth cfg_0 prog]) (to_restart "r.nc") 20000000 1000000 ([], (mkab 1 None [], tt)) st = (((fs1, u1), log1), None) /\
  NetCDF.load "r.nc" fs1 = Ok st2 /\
  main_loop 2 [adams_bashforth cfg_0 prog] quiet 20000000 1000000 (mkab 1 None [], tt) st = ((w, [X; Y]), None) /\
  main_loop 2 [adams_bashforth cfg_0 prog] quiet 20000000 1000000 (mkab 1 None [], tt) st2 = ((w', [X'; Y']), None) /\
  dget "w" X = dget "w" X' /\ dget "depth" X = dget "depth" X' /\ dget "w" Y <> dget "w" Y'.
Proof. exact @ex_reads_own. Qed.
Print Assumptions c88_reads_own_diagnostic_refuted.

(** C88: an SSPRungeKutta stepper of components that remember nothing and do not read the diagnostics is as c88_taken_up_partial asks. *)
Theorem c88_runge_kutta : forall {T : Type} {A : Arith T} {R : Registry}, forall {U} Fit D stages cfg (prog : icaller (T:=T) U) dt, heedless Fit D prog -> ~ In "time" D ->
  (forall X, In X (keys (ts_out cfg)) -> ~ In X D) ->
  memoryless (fun w => rk_stages (fst w) = stages /\ euler_object dt (rk_euler (fst w)) /\ Fit (snd w)) D dt (ssp_rk cfg prog).
Proof. exact @main_rk_memoryless. Qed.
Print Assumptions c88_runge_kutta.

(** The loop of the quickstart with SSPRungeKutta of three stages meets what c88_taken_up_partial asks, and stores its first states. *)
Example c88_runge_kutta_case : exists fs1 u1 log1,
  Forall (memoryless rfit_d (concat given_d) 10000000) rprocs_d /\ Forall2 (diagnoses (T:=Qc) 10000000) rprocs_d given_d /\ ~ In "time" (concat given_d) /\
  rfit_d (rk3_d, 0) /\ rfit_d (rk3_d, 41) /\ tidy (concat given_d) st_f /\ plain_fit ex_lib /\
  rto_two = (((fs1, u1), log1), None) /\
  (forall Y, In Y (snd (fst rquiet_three)) -> restartable Lr Y) /\ dmem "r.nc" fs1 = true /\ length log1 = 2.
Proof. exact @ex_rk_dies. Qed.

(** C88: the diagnostics of an SSPRungeKutta stepper are those its components declare. *)
Theorem c88_runge_kutta_diagnostics : forall {T : Type} {A : Arith T} {R : Registry}, forall {U} cfg g (cs : list (tcomp * (Z -> U -> dict (rval T) -> U * res (dict (nd T) * dict (nd T))))) dt,
  ts_tid cfg = false -> (forall ca, In ca cs -> t_tid (fst ca) = false /\ t_added (fst ca) = []) ->
  diagnoses dt (ssp_rk cfg (SpecLocal.called g cs)) (concat (map (fun ca => keys (t_diag (fst ca))) cs)).
Proof. exact @main_rk_diagnoses. Qed.
Print Assumptions c88_runge_kutta_diagnostics.
