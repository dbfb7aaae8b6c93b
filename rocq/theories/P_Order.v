(** Property theorems about the order of SSPRungeKutta (C90). *)
From Coq Require Import String List Bool Arith ZArith QArith Qcanon.
From Verif Require Import Prelude ArithM NdArray Units DataArrayM SpecUnits ExampleRegistry SpecDa Components Composite Steppers SpecSteppers
  Ex_Components Ex_Steppers SpecOrder SpecOrderPoly OrderMain OrderPoly Ex_Order Ex_OrderPoly.
Import ListNotations.
Open Scope string_scope.
Open Scope nat_scope.
Open Scope list_scope.

#[local] Existing Instance ex_registry | 5.

(** C90 for right-hand sides that are polynomials of any values at any points, and may depend on the time of the state: there is a curve that begins as the exact solution with the time held fixed, up to the power of the timestep that is the number of stages, on which every step lies, whatever the timestep. *)
Theorem c90_order_partial : forall {R : Registry}, forall z G F now v, z = 2%Z \/ z = 3%Z -> closed_system G F ->
  exists P, solves (Z.to_nat z) G F now v P /\
  forall {U} cfg (prog : icaller (T:=Qc) U) k0 u0 calls k u (st : state Qc) dt s' diag new,
  new_rk z = Ok k0 -> after (ssp_rk cfg prog) calls (k0, u0) = (k, u) ->
  proper_components prog -> proper_state st -> rates_from G F dt prog ->
  holds_points G st -> dget "time" st = Some (VTime now) -> (forall X c, G X c -> value st X c = v X c) ->
  ssp_rk cfg prog (k, u) st dt = (s', Ok (diag, new)) ->
  holds_points G new /\ dget "time" new = Some (VTime now) /\
  forall X c, G X c -> value new X c = peval (P X c) (Q2Qc (dt # 1000000)).
Proof. exact @rk_order. Qed.
Print Assumptions c90_order_partial.

(** C90: a curve that satisfies the equations to that order agrees with any other one up to that power. *)
Theorem c90_unique : forall n G F now v P Q, closed_system G F -> solves n G F now v P -> solves n G F now v Q ->
  forall X c k, G X c -> k <= n -> coef k (P X c) = coef k (Q X c).
Proof. exact @solves_unique. Qed.
Print Assumptions c90_unique.

(** C90 for tendencies linear in the quantities plus a forcing that depends on the time of the state, explicitly: one step gives the terms of the exact solution with the forcing held fixed, up to the second power of the timestep for two stages and to the third for three. *)
Theorem c90_linear_partial : forall {R : Registry}, forall {U} cfg (prog : icaller (T:=Qc) U) z k0 u0 calls k u (st : state Qc) dt s' diag new G forcing M now,
  new_rk z = Ok k0 -> after (ssp_rk cfg prog) calls (k0, u0) = (k, u) ->
  proper_components prog -> proper_state st ->
  ssp_rk cfg prog (k, u) st dt = (s', Ok (diag, new)) ->
  closed G M -> linear_rates G forcing M dt prog -> holds_points G st -> dget "time" st = Some (VTime now) ->
  holds_points G new /\ dget "time" new = Some (VTime now) /\
  forall X c, G X c -> value new X c = taylor (Z.to_nat z) (Q2Qc (dt # 1000000)) forcing M now (value st) X c.
Proof. exact @rk_linear. Qed.
Print Assumptions c90_linear_partial.

(** C90 over any number of steps, the caller setting the time between them as it likes. *)
Theorem c90_run_partial : forall {R : Registry}, forall {U} cfg (prog : icaller (T:=Qc) U) z k0 u0 calls k u dt G forcing M nows (st : state Qc) s' st',
  new_rk z = Ok k0 -> after (ssp_rk cfg prog) calls (k0, u0) = (k, u) ->
  proper_components prog -> proper_state st ->
  in_a_row (ssp_rk cfg prog) dt (k, u) st nows s' st' ->
  closed G M -> linear_rates G forcing M dt prog -> holds_points G st ->
  holds_points G st' /\
  forall X c, G X c -> value st' X c = taylors (Z.to_nat z) (Q2Qc (dt # 1000000)) forcing M nows (value st) X c.
Proof. exact @rk_linear_run. Qed.
Print Assumptions c90_run_partial.

(** C90: what the stages do for tendencies that depend on the time alone: nothing. Every stage sees the time at the start of the step, so the step is one of forward Euler. *)
Theorem c90_time_only : forall {R : Registry}, forall {U} cfg (prog : icaller (T:=Qc) U) z k0 u0 calls k u (st : state Qc) dt s' diag new (G : points) forcing now,
  new_rk z = Ok k0 -> after (ssp_rk cfg prog) calls (k0, u0) = (k, u) ->
  proper_components prog -> proper_state st ->
  ssp_rk cfg prog (k, u) st dt = (s', Ok (diag, new)) ->
  (forall X c, G X c -> X <> "time") -> linear_rates G forcing (fun _ _ => []) dt prog -> holds_points G st ->
  dget "time" st = Some (VTime now) ->
  forall X c, G X c -> value new X c = (value st X c + Q2Qc (dt # 1000000) * forcing now X c)%Qc.
Proof. exact @rk_time_only. Qed.
Print Assumptions c90_time_only.

(** Prey and predators, with a forcing. *)
Example c90_order_hyps : forall z dt, (z = 2 /\ dt = 500000 \/ z = 3 /\ dt = 500000 \/ z = 3 /\ dt = 100000)%Z -> exists k0 s' diag new,
  closed_system both prey /\ new_rk (T:=Qc) z = Ok k0 /\ after (ssp_rk cfg_0 prog_prey) [] (k0, 0) = (k0, 0) /\
  proper_components prog_prey /\ proper_state st_prey /\ rates_from both prey dt prog_prey /\
  holds_points both st_prey /\ dget "time" st_prey = Some (VTime 1000000) /\
  (forall X c, both X c -> value st_prey X c = v_prey X c) /\
  ssp_rk cfg_0 prog_prey (k0, 0) st_prey dt = (s', Ok (diag, new)).
Proof. exact @prey_hyps. Qed.

(** Their curves, by hand. *)
Example c90_order_case : forall P, solves 2 both prey 1000000 v_prey P ->
  coef 0 (P "a" here) = cz 2 /\ coef 1 (P "a" here) = cz (-3) /\ coef 2 (P "a" here) = cz 0 /\
  coef 0 (P "b" here) = cz 3 /\ coef 1 (P "b" here) = cz 3 /\ coef 2 (P "b" here) = cz (-3).
Proof. exact @prey_curve. Qed.

(** A forced oscillator on two points. The values are those of the expansion, computed by hand. *)
Example c90_linear_hyps : forall z, z = 2%Z \/ z = 3%Z -> exists k0 s' diag new,
  new_rk (T:=Qc) z = Ok k0 /\ after (ssp_rk cfg_0 prog_osc) [] (k0, 0) = (k0, 0) /\
  proper_components prog_osc /\ proper_state (st_osc 2000000) /\
  ssp_rk cfg_0 prog_osc (k0, 0) (st_osc 2000000) 500000 = (s', Ok (diag, new)) /\
  closed (at_x 2) osc_operator /\ linear_rates (at_x 2) osc_forcing osc_operator 500000 prog_osc /\
  holds_points (at_x 2) (st_osc 2000000) /\ dget "time" (st_osc 2000000) = Some (VTime 2000000) /\ at_x 2 "a" (fun _ => 0) /\
  value new "a" (fun _ => 0) = (cz 7 + Q2Qc (1 # 2) * cz 5 - Q2Qc (1 # 8) * cz 7 - match z with 3%Z => Q2Qc (1 # 48) * cz 5 | _ => 0 end)%Qc.
Proof. exact @osc_hyps. Qed.

(** Two steps of it. *)
Example c90_run_hyps : exists k0 s' st', new_rk (T:=Qc) 3 = Ok k0 /\
  in_a_row (ssp_rk cfg_0 prog_osc) 500000 (k0, 0) (st_osc 2000000) [2000000%Z; 2500000%Z] s' st'.
Proof. exact @osc_run. Qed.

(** C90 does not hold for tendencies that depend on the time: three stages do not integrate a quadratic polynomial of the time. *)
Theorem c90_time_dependent_refuted : exists (prog : icaller (T:=Qc) nat) k st s' diag new X c p,
  new_rk (T:=Qc) 3 = Ok k /\ proper_components prog /\ proper_state st /\ X <> "time" /\
  (exists G, G X c /\ holds_points G st /\
  forall dt, linear_rates G (fun now _ _ => peval (pderiv p) (seconds now)) (fun _ _ => []) dt prog) /\
  dget "time" st = Some (VTime 0) /\ ssp_rk cfg_0 prog (k, 0) st 1000000 = (s', Ok (diag, new)) /\
  length p = 3 /\ value st X c = peval p (seconds 0) /\ value new X c <> peval p (seconds 1000000).
Proof. exact @clock_late. Qed.
Print Assumptions c90_time_dependent_refuted.
