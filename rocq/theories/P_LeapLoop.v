(** The documented main loop with a Leapfrog object (C80). *)
From Coq Require Import String List Bool Arith ZArith QArith Qcanon.
From Verif Require Import Prelude ArithM NdArray Units DataArrayM ExampleRegistry GetNp Components Composite Steppers SpecSteppers Basic MainLoop SpecMainLoop
  LeapLoop SpecLeapLoop LeapLoopMain Ex_Components Ex_Steppers Ex_LeapLoop.
Import ListNotations.
Open Scope string_scope.
Open Scope nat_scope.
Open Scope list_scope.

#[local] Existing Instance ex_registry | 5.


(** C80: the first pass is a forward Euler step and changes no value; every later pass steps from the
    filtered state of the pass before, with tendencies of the unfiltered state, and filters the state it
    was given once, before the monitor gets it.  Nothing filters the state the loop ends with. *)
Theorem c80_run : forall {T : Type} {A : Arith T} {R : Registry} {U V : Type}, forall n cfg (prog : icaller U) (qs : list (process (T:=T) V)) store stop dt nu alpha u v st s' v' log r,
  proper_state st -> proper_components prog -> Forall (preserves dt proper_state) qs ->
  leap_main_loop n cfg prog qs store stop dt (new_leap nu alpha, u) v st = ((s', v', log), r) ->
  exists es, passes qs dt st es log r /\
  (forall e post, es = e :: post -> l_after e = l_st e /\ euler_step dt (l_st e) (l_tend e) (l_new e)) /\
  (forall pre p e post, es = pre ++ p :: e :: post -> leap_step dt nu alpha (l_after p) (l_st e) (l_tend e) (l_after e) (l_new e)) /\
  (forall e, In e es -> exists u1 u2 pd, prog u1 (l_st e) dt = (u2, Ok (l_tend e, pd))).
Proof. exact @main_leap_run. Qed.
Print Assumptions c80_run.

(** Four passes, with another process after the Leapfrog object. *)
Example c80_run_hypotheses_met : has_time 0 st_l /\ proper_state st_l /\ proper_components prog_l /\ Forall (preserves 1000000 proper_state) [after_l] /\
  (forall u st u' t d, prog_l u st 1000000%Z = (u', Ok (t, d)) -> ~ In "time" (keys d)) /\ Forall leaves_time [after_l] /\ Forall keeps_quantities [after_l] /\
  outcome_l (run_l 4000000) = (4, Some true).
Proof. exact @ex_leap_loop. Qed.

(** The state at 00:00:02 at the end of a run differs from the state at 00:00:02 that a longer run
    gives to its monitor. *)
Example c80_run_case : exists fin S1,
  snd (run_l 2000000) = Some (Ok fin) /\ nth_error (snd (fst (run_l 3000000))) 2 = Some S1 /\
  has_time 2000000 fin /\ has_time 2000000 S1 /\ first_of "b" fin <> first_of "b" S1.
Proof. exact @ex_unfiltered_end. Qed.

(** C80: the k-th stored state has the initial time plus k timesteps, and the loop ends at the first
    such time that is not before the stop time. *)
Theorem c80_clock : forall {T : Type} {A : Arith T} {R : Registry} {U V : Type}, forall n cfg (prog : icaller U) (qs : list (process (T:=T) V)) store stop dt s v st s' v' log r t0,
  has_time t0 st -> (forall u st u' t d, prog u st dt = (u', Ok (t, d)) -> ~ In "time" (keys d)) -> Forall leaves_time qs ->
  leap_main_loop n cfg prog qs store stop dt s v st = ((s', v', log), r) ->
  (forall k S, nth_error log k = Some S -> has_time (t0 + Z.of_nat k * dt) S /\ (t0 + Z.of_nat k * dt < stop)%Z) /\
  (forall fin, r = Some (Ok fin) -> has_time (t0 + Z.of_nat (length log) * dt) fin /\ (stop <= t0 + Z.of_nat (length log) * dt)%Z) /\
  (r = None -> length log = n).
Proof. exact @main_leap_clock. Qed.
Print Assumptions c80_clock.

(** C80: the loop ends after at most (stop - t0) / dt passes, rounded up. *)
Theorem c80_terminates : forall {T : Type} {A : Arith T} {R : Registry} {U V : Type}, forall n cfg (prog : icaller U) (qs : list (process (T:=T) V)) store stop dt s v st t0,
  has_time t0 st -> (forall u st u' t d, prog u st dt = (u', Ok (t, d)) -> ~ In "time" (keys d)) -> Forall leaves_time qs ->
  (stop <= t0 + Z.of_nat n * dt)%Z -> snd (leap_main_loop (Datatypes.S n) cfg prog qs store stop dt s v st) <> None.
Proof. exact @main_leap_terminates. Qed.
Print Assumptions c80_terminates.

(** C80: no quantity of the initial state is lost if the other processes lose none. *)
Theorem c80_nothing_lost : forall {T : Type} {A : Arith T} {R : Registry} {U V : Type}, forall n cfg (prog : icaller U) (qs : list (process (T:=T) V)) store stop dt s v st s' v' log r,
  Forall keeps_quantities qs -> leap_main_loop n cfg prog qs store stop dt s v st = ((s', v', log), r) ->
  forall X, In X (keys st) -> (forall S, In S log -> In X (keys S)) /\ (forall fin, r = Some (Ok fin) -> In X (keys fin)).
Proof. exact @main_leap_nothing_lost. Qed.
Print Assumptions c80_nothing_lost.

(** C80: a run that is continued with the same objects gives the monitor the same states as one run,
    although the state between the two was not filtered when the first run ended. *)
Theorem c80_two_runs : forall {T : Type} {A : Arith T} {R : Registry} {U V : Type}, forall cfg (prog : icaller U) (qs : list (process (T:=T) V)) store stop stop1 dt m n s v st s1 v1 log1 st1, (stop1 <= stop)%Z ->
  leap_main_loop n cfg prog qs store stop1 dt s v st = ((s1, v1, log1), Some (Ok st1)) ->
  forall s2 v2 log2 r, leap_main_loop m cfg prog qs store stop dt s1 v1 st1 = ((s2, v2, log2), r) ->
  leap_main_loop (length log1 + m) cfg prog qs store stop dt s v st = ((s2, v2, log1 ++ log2), r).
Proof. exact @main_leap_two_runs. Qed.
Print Assumptions c80_two_runs.

(** Two passes, then two more. *)
Example c80_two_runs_hypotheses_met : exists s1 v1 log1 st1 s2 v2 log2 r,
  leap_main_loop 9 cfg_0 prog_l [after_l] store_l 2000000 1000000 (new_leap nu_e half, 0) 0 st_l = ((s1, v1, log1), Some (Ok st1)) /\
  leap_main_loop 9 cfg_0 prog_l [after_l] store_l 4000000 1000000 s1 v1 st1 = ((s2, v2, log2), r) /\ length log1 = 2 /\ length log2 = 2.
Proof. exact @ex_continue. Qed.
