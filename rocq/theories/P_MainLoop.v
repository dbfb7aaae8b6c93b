(** Property theorems about the main loop of a model (C75, C76). *)
From Coq Require Import String List Bool Arith ZArith QArith Qcanon.
From Verif Require Import Prelude ArithM NdArray Units DataArrayM ExampleRegistry Tracers Components SpecCalls Composite
  Steppers MainLoop SpecMainLoop MainLoopMain Ex_Components Ex_Steppers Ex_MainLoop.
Import ListNotations.
Open Scope string_scope.
Open Scope nat_scope.
Open Scope list_scope.

#[local] Existing Instance ex_registry | 5.

(** C75: the new state a Stepper returns has its declared outputs and the tracers it steps, and
    nothing else; so not the rest of the state, and not the time. *)
Theorem c75_new_state : forall {T : Type} {A : Arith T} {R : Registry}, forall {U} g c (ac : U -> dict (rval T) -> Z -> U * res (dict (nd T) * dict (nd T))) u (st : state T) dt u' d n,
  stepper_call g c ac u st dt = (u', Ok (d, n)) ->
  (forall X, In X (keys n) <-> In X (keys (s_out c)) \/ In X (read_tracers g (s_packer c))) /\
  (forall X, In X (keys d) <-> In X (keys (s_diag c))).
Proof. exact @main_new_state. Qed.
Print Assumptions c75_new_state.

(** C75: no component can be called with the new state of a Stepper (unless a quantity called
    'time' is declared as output). *)
Theorem c75_next_call_fails : forall {T : Type} {A : Arith T} {R : Registry}, forall {U} g c (ac : U -> dict (rval T) -> Z -> U * res (dict (nd T) * dict (nd T))) u (st : state T) dt u' d n,
  stepper_call g c ac u st dt = (u', Ok (d, n)) ->
  ~ In "time" (keys (s_out c)) -> ~ In "time" (read_tracers g (s_packer c)) ->
  (forall {U2} h c2 (ac2 : U2 -> dict (rval T) -> Z -> U2 * res (dict (nd T) * dict (nd T))) u2 dt2,
  exists e, stepper_call h c2 ac2 u2 (as_state n) dt2 = (u2, Err e)) /\
  (forall {U2} h c2 (ac2 : U2 -> dict (rval T) -> U2 * res (dict (nd T) * dict (nd T))) u2,
  exists e, tendency_call h c2 ac2 u2 (as_state n) = (u2, Err e)) /\
  (forall {U2} c2 (ac2 : U2 -> dict (rval T) -> U2 * res (dict (nd T))) u2,
  exists e, diagnostic_call c2 ac2 u2 (as_state n) = (u2, Err e)).
Proof. exact @main_time_lost. Qed.
Print Assumptions c75_next_call_fails.

(** C75 fails: the new state of a Stepper lacks quantities of the state, and the Stepper cannot be
    called with it. *)
Theorem c75_incomplete_refuted : exists (c : scomp) (ac : nat -> dict (rval Qc) -> Z -> nat * res (dict (nd Qc) * dict (nd Qc))) st dt u' d n,
  stepper_call empty_treg c ac 0 st dt = (u', Ok (d, n)) /\ (exists X, In X (keys st) /\ ~ In X (keys n)) /\
  exists e, stepper_call empty_treg c ac u' (as_state n) dt = (u', Err e).
Proof. exact @ex_cannot_continue. Qed.
Print Assumptions c75_incomplete_refuted.

(** The new state of a Stepper has T; wind and time are gone. *)
Example c75_new_state_hypotheses_met : exists u' d n, stepper_call empty_treg (c_s 1000000) ac_s 0 st_s 10000000%Z = (u', Ok (d, n)) /\
  In "wind" (keys st_s) /\ ~ In "wind" (keys n) /\ ~ In "time" (keys n) /\ In "T" (keys n).
Proof. exact @ex_new_state. Qed.

(** C75: a new state returned by AdamsBashforth, SSPRungeKutta or Leapfrog has all the quantities of
    the state (for Leapfrog, of the state before and after the filter).  Missing: Steppers, for which it is false. *)
Theorem c75_tendency_steppers_partial : forall {T : Type} {A : Arith T} {R : Registry}, forall {U} cfg (prog : icaller (T:=T) U),
  keeps_quantities (adams_bashforth cfg prog) /\ keeps_quantities (ssp_rk cfg prog) /\
  forall s st dt st' s' d new, leapfrog cfg prog s st dt = (s', st', Ok (d, new)) -> forall X, In X (keys st) -> In X (keys st') /\ In X (keys new).
Proof. exact @main_keeps. Qed.
Print Assumptions c75_tendency_steppers_partial.

(** C75: the main loop of the quickstart, where a Stepper comes last, ends in an exception in its
    second pass if any component of the first stepper needs a quantity the Stepper does not return. *)
Theorem c75_quickstart_stops : forall {T : Type} {A : Arith T} {R : Registry}, forall {U} n cfg (cs : list (icaller (T:=T) U + caller (T:=T) U)) g c ac g2 c2 ac2 X store stop dt w st w' log r t0,
  let physics := adams_bashforth cfg (fun u s dt => implicit_composite_call cs dt u s) in
  let dynamics := beside (stepper_process g2 c2 ac2) in
  main_loop n [physics; dynamics] store stop dt w st = ((w', log), r) ->
  has_time t0 st -> leaves_time physics -> leaves_time dynamics -> (t0 < stop)%Z -> (t0 + dt < stop)%Z ->
  In (inr (tendency_call g c ac)) cs -> In X (keys (t_inp c)) ->
  X <> "time" -> ~ In X (keys (s_out c2)) -> ~ In X (read_tracers g2 (s_packer c2)) ->
  length log <= 1 /\ forall fin, r <> Some (Ok fin).
Proof. exact @main_quickstart_stops. Qed.
Print Assumptions c75_quickstart_stops.

(** The physics needs wind, the Stepper returns T and q: one state is stored, then an exception. *)
Example c75_quickstart_stops_hypotheses_met : has_time 0 st_s /\ leaves_time physics_q /\ leaves_time dynamics_q /\
  In (inr (tendency_call empty_treg (c_t false) ac_t)) cs_q /\ In "wind" (keys (t_inp (c_t false))) /\
  ~ In "wind" (keys (s_out (c_s 1000000))) /\ ~ In "wind" (read_tracers empty_treg (s_packer (c_s 1000000))) /\
  outcome (main_loop 9 [physics_q; dynamics_q] store_q 30000000 10000000 (ab2, 0) st_s) = (1, Some false).
Proof. exact @ex_quickstart. Qed.

(** C75: if the Stepper outputs (or steps as tracers) all the quantities of the initial state, then
    each stored state and the last state have them.  Missing: Steppers that do not. *)
Theorem c75_complete_partial : forall {T : Type} {A : Arith T} {R : Registry}, forall {S U} n (pre : list (process (T:=T) (S * U))) g c ac store stop dt w st w' log r,
  main_loop n (pre ++ [beside (stepper_process g c ac)]) store stop dt w st = ((w', log), r) ->
  Forall keeps_quantities pre -> In "time" (keys st) ->
  (forall X, In X (keys st) -> X = "time" \/ In X (keys (s_out c)) \/ In X (read_tracers g (s_packer c))) ->
  forall X, In X (keys st) -> (forall S, In S log -> In X (keys S)) /\ (forall fin, r = Some (Ok fin) -> In X (keys fin)).
Proof. exact @main_complete. Qed.
Print Assumptions c75_complete_partial.

(** A Stepper that outputs T and wind: all three passes are done. *)
Example c75_complete_hypotheses_met : has_time 0 st_f /\ leaves_time physics_q /\ leaves_time dynamics_f /\ keeps_quantities physics_q /\ In "time" (keys st_f) /\
  (forall X, In X (keys st_f) -> X = "time" \/ In X (keys (s_out c_f)) \/ In X (read_tracers empty_treg (s_packer c_f))) /\
  outcome (main_loop 9 [physics_q; dynamics_f] store_q 30000000 10000000 (ab2, 0) st_f) = (3, Some true).
Proof. exact @ex_complete. Qed.

(** C76: the state stored in pass k has time t0 + k dt, and there is a pass k only if that is before
    the end; the loop returns a state only at the first of these times at or after the end. *)
Theorem c76_clock : forall {T : Type} {A : Arith T} {R : Registry}, forall {W} n (ps : list (process (T:=T) W)) store stop dt w st w' log r t0,
  has_time t0 st -> Forall leaves_time ps -> main_loop n ps store stop dt w st = ((w', log), r) ->
  (forall k S, nth_error log k = Some S -> has_time (t0 + Z.of_nat k * dt) S /\ (t0 + Z.of_nat k * dt < stop)%Z) /\
  (forall fin, r = Some (Ok fin) -> has_time (t0 + Z.of_nat (length log) * dt) fin /\ (stop <= t0 + Z.of_nat (length log) * dt)%Z) /\
  (r = None -> length log = n).
Proof. exact @main_clock. Qed.
Print Assumptions c76_clock.

(** C76: with a positive timestep the loop ends after at most (stop - t0) / dt passes, rounded up. *)
Theorem c76_terminates : forall {T : Type} {A : Arith T} {R : Registry}, forall {W} n (ps : list (process (T:=T) W)) store stop dt w st t0,
  has_time t0 st -> Forall leaves_time ps -> (stop <= t0 + Z.of_nat n * dt)%Z ->
  snd (main_loop (Datatypes.S n) ps store stop dt w st) <> None.
Proof. exact @main_terminates. Qed.
Print Assumptions c76_terminates.

(** C76: once the loop has ended, the limit on passes in the model makes no difference. *)
Theorem c76_more_passes : forall {T : Type}, forall {W} n m (ps : list (process (T:=T) W)) store stop dt w st x r,
  main_loop n ps store stop dt w st = (x, Some r) -> main_loop (n + m) ps store stop dt w st = (x, Some r).
Proof. exact @main_fuel. Qed.
Print Assumptions c76_more_passes.

(** C76: with a timestep that is zero or negative the loop never returns. *)
Theorem c76_backwards : forall {T : Type} {A : Arith T} {R : Registry}, forall {W} n (ps : list (process (T:=T) W)) store stop dt w st t0 x fin,
  has_time t0 st -> Forall leaves_time ps -> (dt <= 0)%Z -> (t0 < stop)%Z ->
  main_loop n ps store stop dt w st <> (x, Some (Ok fin)).
Proof. exact @main_backwards. Qed.
Print Assumptions c76_backwards.

(** With a negative timestep the loop is still running after nine passes. *)
Example c76_backwards_hypotheses_met : has_time 0 st_s /\ leaves_time physics_q /\
  outcome (main_loop 9 [physics_q] store_q 30000000 (-10000000) (ab2, 0) st_s) = (9, None).
Proof. exact @ex_endless. Qed.

(** C76: in each pass the processes are called in turn, each with the state the one before it
    returned.  What is stored is the state at the start of the pass, with the diagnostics of that
    pass; the next pass starts from the last new state with the time moved by dt. *)
Theorem c76_passes : forall {T : Type} {A : Arith T} {R : Registry}, forall {W} n (ps : list (process (T:=T) W)) store stop dt w st w' log r,
  main_loop n ps store stop dt w st = ((w', log), r) ->
  exists starts, length starts = length log /\
  (forall s0, nth_error starts 0 = Some s0 -> s0 = st) /\
  (forall k S, nth_error log k = Some S -> exists s ds next, nth_error starts k = Some s /\
  in_turn dt ps s ds next /\ completed s ds S /\
  forall s', nth_error starts (Datatypes.S k) = Some s' \/ length log = Datatypes.S k /\ r = Some (Ok s') ->
  exists t, has_time t S /\ has_time (t + dt) s' /\ forall X, X <> "time" -> dget X s' = dget X next) /\
  (log = [] -> forall s', r = Some (Ok s') -> s' = st).
Proof. exact @main_passes. Qed.
Print Assumptions c76_passes.

(** C76: processes made of components that do not declare a diagnostic 'time' leave the clock alone. *)
Theorem c76_leaves_time : forall {T : Type} {A : Arith T} {R : Registry}, forall {S U} cfg (cs : list (icaller (T:=T) U + caller (T:=T) U)),
  (forall c, In c cs -> exists g c0 ac, c = inr (tendency_call g c0 ac) /\ ~ In "time" (keys (t_diag c0))) ->
  leaves_time (adams_bashforth cfg (fun u s dt => implicit_composite_call cs dt u s)) /\
  forall g c ac, ~ In "time" (keys (s_diag c)) -> leaves_time (beside (S:=S) (stepper_process (U:=U) g c ac)).
Proof. exact @main_leaves_time. Qed.
Print Assumptions c76_leaves_time.

(** Three passes from 00:00:00 with a timestep of 10 seconds up to 00:00:30. *)
Example c76_clock_hypotheses_met : has_time 0 st_f /\ leaves_time physics_q /\ leaves_time dynamics_f /\ keeps_quantities physics_q /\ In "time" (keys st_f) /\
  (forall X, In X (keys st_f) -> X = "time" \/ In X (keys (s_out c_f)) \/ In X (read_tracers empty_treg (s_packer c_f))) /\
  outcome (main_loop 9 [physics_q; dynamics_f] store_q 30000000 10000000 (ab2, 0) st_f) = (3, Some true).
Proof. exact @ex_complete. Qed.

(** The processes of the examples. *)
Example c76_leaves_time_hypotheses_met : leaves_time physics_q /\ leaves_time dynamics_q /\ leaves_time dynamics_f.
Proof. exact @ex_leaves. Qed.

(** C76: whatever every process preserves holds of the state at the start of every pass. *)
Theorem c76_invariant : forall {T : Type} {A : Arith T} {R : Registry}, forall {W} n (ps : list (process (T:=T) W)) store stop dt w st w' log r (P : state T -> Prop),
  main_loop n ps store stop dt w st = ((w', log), r) ->
  P st -> Forall (preserves dt P) ps -> (forall s t, P s -> P (dset "time" (VTime t) s)) ->
  (forall S, In S log -> exists s ds next, P s /\ P next /\ in_turn dt ps s ds next /\ completed s ds S) /\
  (forall fin, r = Some (Ok fin) -> P fin).
Proof. exact @main_invariant. Qed.
Print Assumptions c76_invariant.

(** A quantity no component uses. *)
Example c76_invariant_hypotheses_met : preserves 10000000 (fun s : state Qc => In "unused" (keys s)) physics_q /\ In "unused" (keys st_s) /\
  (forall (s : state Qc) t, In "unused" (keys s) -> In "unused" (keys (dset "time" (VTime t) s))).
Proof. exact @ex_preserved. Qed.

(** C76: a loop over TendencySteppers loses no quantity of the initial state. *)
Theorem c76_nothing_lost : forall {T : Type} {A : Arith T} {R : Registry}, forall {W} n (ps : list (process (T:=T) W)) store stop dt w st w' log r,
  main_loop n ps store stop dt w st = ((w', log), r) -> Forall keeps_quantities ps ->
  forall X, In X (keys st) -> (forall S, In S log -> In X (keys S)) /\ (forall fin, r = Some (Ok fin) -> In X (keys fin)).
Proof. exact @main_nothing_lost. Qed.
Print Assumptions c76_nothing_lost.

(** An AdamsBashforth alone: three passes, no quantity is lost. *)
Example c76_nothing_lost_hypotheses_met : keeps_quantities physics_q /\ In "unused" (keys st_s) /\
  outcome (main_loop 9 [physics_q] store_q 30000000 10000000 (ab2, 0) st_s) = (3, Some true).
Proof. exact @ex_kept. Qed.
