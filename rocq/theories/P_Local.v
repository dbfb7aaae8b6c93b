(** Property theorems about quantities that no component reads (C82). *)
From Coq Require Import String List Bool Arith ZArith QArith Qcanon.
From Verif Require Import Prelude ArithM NdArray Units DataArrayM ExampleRegistry Tracers Components Composite Steppers Basic MainLoop
  SpecComponents SpecCalls SpecSteppers SpecLocal LocalMain LeapLoop LocalRuns Ex_Arrays Ex_Components Ex_Steppers Ex_Local.
Import ListNotations.
Open Scope string_scope.
Open Scope nat_scope.
Open Scope list_scope.

#[local] Existing Instance ex_registry | 5.

(** C82: components, called through a composite, read nothing of the state but their declared inputs, their tracers and the time. *)
Theorem c82_components : forall {T : Type} {A : Arith T} {R : Registry}, forall {U} names g (cs : list (tcomp * (Z -> U -> dict (rval T) -> U * res (dict (nd T) * dict (nd T))))),
  (forall ca, In ca cs -> uses names g (fst ca)) -> reads names (called g cs) /\ changes names (called g cs).
Proof. exact @main_local_components. Qed.
Print Assumptions c82_components.

(**  *)
Example c82_components_hypotheses_met : forall ca, In ca cs_x -> uses names_x empty_treg (fst ca).
Proof. exact @ex_uses. Qed.

(** C82: over any history of calls, failing ones included, AdamsBashforth returns the same diagnostics and exceptions and the same values of the quantities read, whatever else the states hold. *)
Theorem c82_adams_bashforth : forall {T : Type} {A : Arith T} {R : Registry}, forall {U} names cfg (prog : icaller (T:=T) U) o a (u : U) calls calls',
  reads names prog -> changes names prog -> incl (keys (ts_out cfg)) names -> new_ab o = Ok a -> same_calls names calls calls' ->
  fst (trace (adams_bashforth cfg prog) (a, u) calls) = fst (trace (adams_bashforth cfg prog) (a, u) calls') /\
  Forall2 (same_result names) (snd (trace (adams_bashforth cfg prog) (a, u) calls)) (snd (trace (adams_bashforth cfg prog) (a, u) calls')).
Proof. exact @main_local_ab. Qed.
Print Assumptions c82_adams_bashforth.

(** C82: the same of SSPRungeKutta, if the states hold no datetime but the time. *)
Theorem c82_runge_kutta : forall {T : Type} {A : Arith T} {R : Registry}, forall {U} names cfg (prog : icaller (T:=T) U) z k (u : U) calls calls',
  reads names prog -> changes names prog -> incl (keys (ts_out cfg)) names -> new_rk z = Ok k ->
  (forall c, In c calls \/ In c calls' -> plain names (fst c)) -> same_calls names calls calls' ->
  fst (trace (ssp_rk cfg prog) (k, u) calls) = fst (trace (ssp_rk cfg prog) (k, u) calls') /\
  Forall2 (same_result names) (snd (trace (ssp_rk cfg prog) (k, u) calls)) (snd (trace (ssp_rk cfg prog) (k, u) calls')).
Proof. exact @main_local_rk. Qed.
Print Assumptions c82_runge_kutta.

(** C82: the same of Leapfrog, and of the states it filters. *)
Theorem c82_leapfrog : forall {T : Type} {A : Arith T} {R : Registry}, forall {U} names cfg (prog : icaller (T:=T) U) nu alpha (u : U) calls calls',
  reads names prog -> changes names prog -> incl (keys (ts_out cfg)) names -> same_calls names calls calls' ->
  let step := fun s st dt => let '(s', st', r) := leapfrog cfg prog s st dt in (s', (st', r)) in
  snd (fst (trace step (new_leap nu alpha, u) calls)) = snd (fst (trace step (new_leap nu alpha, u) calls')) /\
  Forall2 (fun o o' => agree_on names (fst o) (fst o') /\ same_result names (snd o) (snd o'))
  (snd (trace step (new_leap nu alpha, u) calls)) (snd (trace step (new_leap nu alpha, u) calls')).
Proof. exact @main_local_leap. Qed.
Print Assumptions c82_leapfrog.

(** The heater of Ex_Components, and a state with more quantities. *)
Example c82_hypotheses_met : reads names_x prog_x /\ changes names_x prog_x /\ incl (keys (ts_out cfg_x)) names_x.
Proof. exact @ex_x_local. Qed.

(**  *)
Example c82_states_agree : agree_on names_x st_c st_x /\ dget "extra" st_c = None.
Proof. exact @ex_x_agree. Qed.

(**  *)
Example c82_states_plain : plain names_x st_c /\ plain names_x st_x.
Proof. exact @ex_x_plain. Qed.

(**  *)
Example c82_calls_succeed : same_calls names_x (calls_x st_c) (calls_x st_x) /\
  map is_ok (snd (trace (adams_bashforth cfg_x prog_x) (mkab 3 None [], 0) (calls_x st_x))) = [true; true; true] /\
  map is_ok (snd (trace (ssp_rk cfg_x prog_x) (mkrk 3 (mkab 1 None []), 0) (calls_x st_x))) = [true; true; true] /\
  map (fun o => is_ok (snd o)) (snd (trace leap_x (new_leap nu_e half, 0) (calls_x st_x))) = [true; true; true].
Proof. exact @ex_x_calls. Qed.

(** C82: as a process of the main loop, AdamsBashforth does the same in both runs. *)
Theorem c82_process_adams_bashforth : forall {T : Type} {A : Arith T} {R : Registry}, forall {U} names cfg (prog : icaller (T:=T) U) o a (u : U),
  reads names prog -> changes names prog -> incl (keys (ts_out cfg)) names -> new_ab o = Ok a ->
  exists rel, rel (a, u) (a, u) /\ forall dt, respects (fun _ => True) rel names dt (adams_bashforth cfg prog).
Proof. exact @main_local_process_ab. Qed.
Print Assumptions c82_process_adams_bashforth.

(** C82: as a process of the main loop, SSPRungeKutta does the same in both runs. *)
Theorem c82_process_runge_kutta : forall {T : Type} {A : Arith T} {R : Registry}, forall {U} names cfg (prog : icaller (T:=T) U) z k (u : U),
  reads names prog -> changes names prog -> incl (keys (ts_out cfg)) names -> new_rk z = Ok k ->
  exists rel, rel (k, u) (k, u) /\ forall dt, respects (plain names) rel names dt (ssp_rk cfg prog).
Proof. exact @main_local_process_rk. Qed.
Print Assumptions c82_process_runge_kutta.

(** C82: a Stepper does and returns the very same, whatever else the state holds. *)
Theorem c82_stepper : forall {T : Type} {A : Arith T} {R : Registry}, forall {U} names g (c : scomp) (ac : U -> dict (rval T) -> Z -> U * res (dict (nd T) * dict (nd T))) (u : U) st st' dt,
  In "time" names -> incl (keys (s_inp c)) names -> incl (read_tracers g (s_packer c)) names -> agree_on names st st' ->
  stepper_process g c ac u st dt = stepper_process g c ac u st' dt.
Proof. exact @main_local_stepper. Qed.
Print Assumptions c82_stepper.

(** The Stepper of Ex_Components, and a state with one more quantity. *)
Example c82_stepper_case : In "time" ("q" :: names_x) /\ incl (keys (s_inp (c_s 1000000))) ("q" :: names_x) /\ incl (read_tracers empty_treg (s_packer (c_s 1000000))) ("q" :: names_x) /\
  agree_on ("q" :: names_x) st_s (dset "extra" (VDA (scalar 3 "m")) st_s) /\ dget "extra" st_s = None /\
  is_ok (snd (stepper_process empty_treg (c_s 1000000) ac_s 0 st_s 10000000%Z)) = true.
Proof. exact @ex_x_stepper. Qed.

(** C82: so as a process of the main loop it does the same in both runs. *)
Theorem c82_process_stepper : forall {T : Type} {A : Arith T} {R : Registry}, forall {U} (P : state T -> Prop) names g (c : scomp) (ac : U -> dict (rval T) -> Z -> U * res (dict (nd T) * dict (nd T))) dt,
  In "time" names -> incl (keys (s_inp c)) names -> incl (read_tracers g (s_packer c)) names ->
  (forall u st d new, snd (stepper_process g c ac u st dt) = Ok (d, new) -> P new) ->
  respects P eq names dt (stepper_process g c ac).
Proof. exact @main_local_process_stepper. Qed.
Print Assumptions c82_process_stepper.

(** C82: two runs of the main loop from states that agree on some quantities give the monitor states that agree on them, pass by pass, and end in the same way. *)
Theorem c82_loop : forall {T : Type}, forall {W} (P : state T -> Prop) (rel : W -> W -> Prop) names (ps : list (process (T:=T) W)) store stop dt,
  In "time" names -> (forall p, In p ps -> respects P rel names dt p) -> (forall t st, P st -> P (dset "time" (VTime t) st)) ->
  (forall w w' S S', rel w w' -> agree_on names S S' -> rel (fst (store w S)) (fst (store w' S')) /\ snd (store w S) = snd (store w' S')) ->
  forall n w w' st st', rel w w' -> P st -> P st' -> agree_on names st st' ->
  let run := main_loop n ps store stop dt w st in
  let run' := main_loop n ps store stop dt w' st' in
  rel (fst (fst run)) (fst (fst run')) /\ Forall2 (agree_on names) (snd (fst run)) (snd (fst run')) /\ same_end names (snd run) (snd run').
Proof. exact @main_local_loop. Qed.
Print Assumptions c82_loop.

(** C82: the same with monitors that store whatever they want and raise nothing. *)
Theorem c82_run : forall {T : Type}, forall {M W} (P : state T -> Prop) (rel : W -> W -> Prop) names (ps : list (process (T:=T) W)) (record : M -> state T -> M) stop dt,
  In "time" names -> (forall p, In p ps -> respects P rel names dt p) -> (forall t st, P st -> P (dset "time" (VTime t) st)) ->
  forall n m m' w w' st st', rel w w' -> P st -> P st' -> agree_on names st st' ->
  let store := fun (x : M * W) S => ((record (fst x) S, snd x), Ok tt) in
  let run := main_loop n (map beside ps) store stop dt (m, w) st in
  let run' := main_loop n (map beside ps) store stop dt (m', w') st' in
  Forall2 (agree_on names) (snd (fst run)) (snd (fst run')) /\ same_end names (snd run) (snd run') /\ rel (snd (fst (fst run))) (snd (fst (fst run'))).
Proof. exact @main_local_run. Qed.
Print Assumptions c82_run.

(** Three passes, with and without the other quantities. *)
Example c82_run_case : length (snd (fst (run_x st_c))) = 3 /\ length (snd (fst (run_x st_x))) = 3 /\
  option_map is_ok (snd (run_x st_c)) = Some true /\ option_map is_ok (snd (run_x st_x)) = Some true.
Proof. exact @ex_x_run. Qed.

(** C82: two runs of the main loop with a new Leapfrog object as the first process, from states that agree on some quantities, give the monitor states that agree on them and end in the same way. *)
Theorem c82_leapfrog_run : forall {T : Type} {A : Arith T} {R : Registry}, forall {U V} (P : state T -> Prop) (rel : V -> V -> Prop) names cfg (prog : icaller U) (qs : list (process (T:=T) V)) store stop dt nu alpha (u : U),
  reads names prog -> changes names prog -> incl (keys (ts_out cfg)) names -> In "time" names ->
  (forall p, In p qs -> respects P rel names dt p) -> (forall t st, P st -> P (dset "time" (VTime t) st)) ->
  (forall s st d new, P st -> snd (leapfrog cfg prog s st dt) = Ok (d, new) -> P new) ->
  (forall v v' S S', rel v v' -> agree_on names S S' -> rel (fst (store v S)) (fst (store v' S')) /\ snd (store v S) = snd (store v' S')) ->
  forall n v v' st st', rel v v' -> P st -> P st' -> agree_on names st st' ->
  let run := leap_main_loop n cfg prog qs store stop dt (new_leap nu alpha, u) v st in
  let run' := leap_main_loop n cfg prog qs store stop dt (new_leap nu alpha, u) v' st' in
  snd (fst (fst (fst run))) = snd (fst (fst (fst run'))) /\ rel (snd (fst (fst run))) (snd (fst (fst run'))) /\
  Forall2 (agree_on names) (snd (fst run)) (snd (fst run')) /\ same_end names (snd run) (snd run').
Proof. exact @main_local_leap_loop. Qed.
Print Assumptions c82_leapfrog_run.

(** Three passes of Leapfrog and AdamsBashforth, with and without the other quantities. *)
Example c82_leapfrog_run_case : (exists rel, rel (mkab 2 None [], 0) (mkab 2 None [], 0) /\
    forall p, In p [adams_bashforth cfg_x prog_x] -> respects (fun _ => True) rel names_x 1000000 p) /\
  length (snd (fst (lrun_x st_c))) = 3 /\ length (snd (fst (lrun_x st_x))) = 3 /\
  option_map is_ok (snd (lrun_x st_c)) = Some true /\ option_map is_ok (snd (lrun_x st_x)) = Some true.
Proof. exact @ex_x_leap_run. Qed.

(** C82, without the condition on datetimes: SSPRungeKutta raises on a state with one more datetime, although no component reads it. *)
Theorem c82_datetime_refuted : exists (prog : icaller (T:=Qc) nat) names k st X t dt e,
  new_rk (T:=Qc) 3 = Ok k /\ reads names prog /\ changes names prog /\ plain names st /\ ~ In X names /\ dget X st = None /\
  is_ok (snd (ssp_rk cfg_0 prog (k, 0) st dt)) = true /\ snd (ssp_rk cfg_0 prog (k, 0) (dset X (VTime t) st) dt) = Err e.
Proof. exact @datetime_breaks_rk. Qed.
Print Assumptions c82_datetime_refuted.
