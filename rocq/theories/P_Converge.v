(** Property theorems about how far runs are from solutions (C95). *)
From Coq Require Import String List Bool Arith ZArith QArith Qcanon.
From Verif Require Import Prelude ArithM NdArray Units DataArrayM ExampleRegistry GetNp SpecDa Components Composite SpecComposite Steppers SpecSteppers SpecOrder
  SpecConverge Ex_Components Ex_Steppers Ex_Order Ex_Converge ConvergeAlg ConvergeMain ConvergeAB ConvergeLeap ConvergeRate.
Import ListNotations.
Open Scope string_scope.
Open Scope nat_scope.
Open Scope list_scope.

#[local] Existing Instance ex_registry | 5.

(** C95: after AdamsBashforth has stepped for a time T the values differ from a smooth solution by at most a constant times the error at the start and T times the timestep; the constant depends on T and on how fast the rates vary, not on the timestep. *)
Theorem c95_ab_converges : forall {R : Registry}, forall {U} cfg (prog : icaller (T:=Qc) U) dt o n a u log s G f L M t0 t1 Y e0 m,
  new_ab o = Ok a -> is_order o n ->
  history (adams_bashforth cfg prog) prog dt (a, u) log s -> wf_log log -> (0 <= dt)%Z ->
  handed_on G log -> (forall k e, nth_error log k = Some e -> dget "time" (e_st e) = Some (VTime (clock t0 dt k))) ->
  rates_by G f dt prog -> lipschitz G L f -> smooth_solution G f M t0 t1 Y -> (clock t0 dt (length log) <= t1)%Z -> (0 <= L)%Qc -> (0 <= M)%Qc -> (0 <= e0)%Qc ->
  (forall e post, log = e :: post -> holds_points G (e_st e) /\ near G e0 (value (e_st e)) (Y t0)) ->
  forall k e, nth_error log k = Some e -> (elapsed dt (S k) * (L * ab_size n) <= of_nat m)%Qc ->
  near G (Q2Qc (4 # 1) ^ m * (e0 + elapsed dt (S k) * (ab_defect n * M * Q2Qc (dt # 1000000))))%Qc
  (value (e_new e)) (Y (clock t0 dt (S k))).
Proof. exact @ab_converges. Qed.
Print Assumptions c95_ab_converges.

(** Four steps of order 3 of two coupled quantities at two points, from near the solution. *)
Example c95_ab_case : exists log s,
  history (adams_bashforth cfg_0 prog_par) prog_par 250000 (mkab 3 None [], 0) log s /\ wf_log log /\ length log = 4 /\
  new_ab (T:=Qc) (OInt 3) = Ok (mkab 3 None []) /\ is_order (OInt 3) 3 /\
  handed_on (at_x 2) log /\ (forall k e, nth_error log k = Some e -> dget "time" (e_st e) = Some (VTime (clock 0 250000 k))) /\
  rates_by (at_x 2) par_rhs 250000 prog_par /\ lipschitz (at_x 2) (Q2Qc (2 # 1)) par_rhs /\ smooth_solution (at_x 2) par_rhs 1%Qc 0 1000000 par_curve /\
  (clock 0 250000 (length log) <= 1000000)%Z /\ (forall e post, log = e :: post -> start_ok (e_st e)) /\
  (elapsed 250000 4 * (Q2Qc (2 # 1) * ab_size 3) <= of_nat 8)%Qc.
Proof. exact @par_ab_case. Qed.

(** C95: so it is for SSPRungeKutta, once the timestep is short for the rates. *)
Theorem c95_rk_converges : forall {R : Registry}, forall {U} cfg (prog : icaller (T:=Qc) U) z k0 u0 dt G f L M F n calls k u t0 t1 (st : state Qc) s' st' Y e0 m,
  new_rk z = Ok k0 -> after (ssp_rk cfg prog) calls (k0, u0) = (k, u) ->
  proper_components prog -> proper_state st -> (0 <= dt)%Z ->
  in_a_row (ssp_rk cfg prog) dt (k, u) st (times t0 dt n) s' st' ->
  rates_by G f dt prog -> lipschitz G L f -> smooth_solution G f M t0 t1 Y -> bounded_rates G f F t0 t1 Y -> (clock t0 dt n <= t1)%Z ->
  (0 <= L)%Qc -> (0 <= M)%Qc -> (0 <= F)%Qc -> (0 <= e0)%Qc -> (Q2Qc (dt # 1000000) * L <= 1)%Qc ->
  holds_points G st -> near G e0 (value st) (Y t0) ->
  (elapsed dt n * (Q2Qc (2 # 1) * L) <= of_nat m)%Qc ->
  near G (Q2Qc (4 # 1) ^ m * (e0 + elapsed dt n * ((M + L * F) * Q2Qc (dt # 1000000))))%Qc (value st') (Y (clock t0 dt n)).
Proof. exact @rk_converges. Qed.
Print Assumptions c95_rk_converges.

(** Two steps of three stages. *)
Example c95_rk_case : exists k0 s' st', new_rk (T:=Qc) 3 = Ok k0 /\ after (ssp_rk cfg_0 prog_par) [] (k0, 0) = (k0, 0) /\
  proper_components prog_par /\ proper_state st_par /\
  in_a_row (ssp_rk cfg_0 prog_par) 250000 (k0, 0) st_par (times 0 250000 2) s' st' /\
  rates_by (at_x 2) par_rhs 250000 prog_par /\ lipschitz (at_x 2) (Q2Qc (2 # 1)) par_rhs /\
  smooth_solution (at_x 2) par_rhs 1%Qc 0 2000000 par_curve /\ bounded_rates (at_x 2) par_rhs (Q2Qc (4 # 1)) 0 2000000 par_curve /\
  (clock 0 250000 2 <= 2000000)%Z /\ (Q2Qc (250000 # 1000000) * Q2Qc (2 # 1) <= 1)%Qc /\ start_ok st_par /\
  (elapsed 250000 2 * (Q2Qc (2 # 1) * Q2Qc (2 # 1)) <= of_nat 2)%Qc.
Proof. exact @par_rk_case. Qed.

(** C95: so it is for Leapfrog with a filter, for the filtered states and for the new ones. *)
Theorem c95_leap_converges : forall {R : Registry}, forall {U} cfg (prog : icaller (T:=Qc) U) dt nu alpha u log s G f L M t0 t1 Y e0 m,
  lhistory cfg prog dt (new_leap nu alpha, u) log s -> wf_llog log -> (0 <= dt)%Z ->
  (0 < nu)%Qc -> (nu <= 1)%Qc -> (0 <= alpha)%Qc -> (alpha <= 1)%Qc ->
  lhanded_on G log -> (forall k e, nth_error log k = Some e -> dget "time" (l_st e) = Some (VTime (clock t0 dt k))) ->
  rates_by G f dt prog -> lipschitz G L f -> smooth_solution G f M t0 t1 Y -> (clock t0 dt (length log) <= t1)%Z -> (0 <= L)%Qc -> (0 <= M)%Qc -> (0 <= e0)%Qc ->
  (forall e post, log = e :: post -> holds_points G (l_st e) /\ near G e0 (value (l_st e)) (Y t0)) ->
  forall k e, nth_error log k = Some e -> (elapsed dt (S k) * (Q2Qc (2 # 1) * L * / nu) <= of_nat m)%Qc ->
  let B := (Q2Qc (4 # 1) ^ m * (e0 + elapsed dt (S k) * ((/ nu + 1) * (Q2Qc (4 # 1) * M) * Q2Qc (dt # 1000000))))%Qc in
  near G B (value (l_after e)) (Y (clock t0 dt k)) /\ near G B (value (l_new e)) (Y (clock t0 dt (S k))).
Proof. exact @leap_converges. Qed.
Print Assumptions c95_leap_converges.

(** C95: and for Leapfrog without a filter. *)
Theorem c95_leap_plain_converges : forall {R : Registry}, forall {U} cfg (prog : icaller (T:=Qc) U) dt alpha u log s G f L M t0 t1 Y e0 m,
  lhistory cfg prog dt (new_leap 0%Qc alpha, u) log s -> wf_llog log -> (0 <= dt)%Z ->
  lhanded_on G log -> (forall k e, nth_error log k = Some e -> dget "time" (l_st e) = Some (VTime (clock t0 dt k))) ->
  rates_by G f dt prog -> lipschitz G L f -> smooth_solution G f M t0 t1 Y -> (clock t0 dt (length log) <= t1)%Z -> (0 <= L)%Qc -> (0 <= M)%Qc -> (0 <= e0)%Qc ->
  (forall e post, log = e :: post -> holds_points G (l_st e) /\ near G e0 (value (l_st e)) (Y t0)) ->
  forall k e, nth_error log k = Some e -> (elapsed dt (S k) * (Q2Qc (2 # 1) * L) <= of_nat m)%Qc ->
  let B := (Q2Qc (4 # 1) ^ m * (e0 + elapsed dt (S k) * (Q2Qc (4 # 1) * M * Q2Qc (dt # 1000000))))%Qc in
  near G B (value (l_after e)) (Y (clock t0 dt k)) /\ near G B (value (l_new e)) (Y (clock t0 dt (S k))).
Proof. exact @leap_plain_converges. Qed.
Print Assumptions c95_leap_plain_converges.

(** Four steps, with and without filter. *)
Example c95_leap_case : forall nu, nu = Q2Qc (1 # 2) \/ nu = 0%Qc -> exists log s,
  lhistory cfg_0 prog_par 250000 (new_leap nu (Q2Qc (1 # 2)), 0) log s /\ wf_llog log /\ length log = 4 /\
  lhanded_on (at_x 2) log /\ (forall k e, nth_error log k = Some e -> dget "time" (l_st e) = Some (VTime (clock 0 250000 k))) /\
  rates_by (at_x 2) par_rhs 250000 prog_par /\ lipschitz (at_x 2) (Q2Qc (2 # 1)) par_rhs /\ smooth_solution (at_x 2) par_rhs 1%Qc 0 1000000 par_curve /\
  (clock 0 250000 (length log) <= 1000000)%Z /\ (forall e post, log = e :: post -> start_ok (l_st e)) /\
  (elapsed 250000 4 * (Q2Qc (2 # 1) * Q2Qc (2 # 1) * / Q2Qc (1 # 2)) <= of_nat 8)%Qc.
Proof. exact @par_leap_case. Qed.

(** C95: any curve at all: if the formula of the scheme misses it by d k in step k, the run misses it by at most what these errors add up to, each step multiplying what is there by at most K. *)
Theorem c95_adams_bashforth : forall {R : Registry}, forall {U} cfg (prog : icaller (T:=Qc) U) dt o n a u log s G f L d t0 y e0,
  new_ab o = Ok a -> is_order o n ->
  history (adams_bashforth cfg prog) prog dt (a, u) log s -> wf_log log -> (0 <= dt)%Z ->
  handed_on G log -> (forall k e, nth_error log k = Some e -> dget "time" (e_st e) = Some (VTime (clock t0 dt k))) ->
  rates_by G f dt prog -> lipschitz G L f -> (0 <= L)%Qc -> (0 <= e0)%Qc -> (forall j, 0 <= d j)%Qc ->
  (forall e post, log = e :: post -> holds_points G (e_st e) /\ near G e0 (value (e_st e)) (y 0)) ->
  (forall j, j < length log -> near G (d j) (y (S j)) (fun X c => y j X c + Q2Qc (dt # 1000000) * ab_slope n f t0 dt y j X c)%Qc) ->
  forall k e, nth_error log k = Some e ->
  near G (bound (1 + Q2Qc (dt # 1000000) * L * ab_size n)%Qc d e0 (S k)) (value (e_new e)) (y (S k)).
Proof. exact @ab_any_run. Qed.
Print Assumptions c95_adams_bashforth.

(** C95: so for SSPRungeKutta, where K is the start of the exponential series. *)
Theorem c95_runge_kutta : forall {R : Registry}, forall {U} cfg (prog : icaller (T:=Qc) U) z k0 u0 dt G f L d n calls k u t0 (st : state Qc) s' st' y e0,
  new_rk z = Ok k0 -> after (ssp_rk cfg prog) calls (k0, u0) = (k, u) ->
  proper_components prog -> proper_state st -> (0 <= dt)%Z ->
  in_a_row (ssp_rk cfg prog) dt (k, u) st (times t0 dt n) s' st' ->
  rates_by G f dt prog -> lipschitz G L f -> holds_points G st ->
  near G e0 (value st) (y 0) ->
  (forall j, j < n -> near G (d j) (y (S j)) (shu_osher (Z.to_nat z) (Q2Qc (dt # 1000000)) f (clock t0 dt j) (y j))) ->
  near G (bound (rk_growth (Z.to_nat z) (Q2Qc (dt # 1000000) * L)) d e0 n) (value st') (y n).
Proof. exact @rk_run. Qed.
Print Assumptions c95_runge_kutta.

(** C95: so for Leapfrog with a filter, which also adds the curvature of the curve. *)
Theorem c95_leapfrog : forall {R : Registry}, forall {U} cfg (prog : icaller (T:=Qc) U) dt nu alpha u log s G f L d w t0 y e0,
  lhistory cfg prog dt (new_leap nu alpha, u) log s -> wf_llog log -> (0 <= dt)%Z ->
  (0 < nu)%Qc -> (nu <= 1)%Qc -> (0 <= alpha)%Qc -> (alpha <= 1)%Qc ->
  lhanded_on G log -> (forall k e, nth_error log k = Some e -> dget "time" (l_st e) = Some (VTime (clock t0 dt k))) ->
  rates_by G f dt prog -> lipschitz G L f -> (0 <= L)%Qc -> (0 <= e0)%Qc -> (forall j, 0 <= d j)%Qc -> (forall j, 0 <= w j)%Qc ->
  let h := Q2Qc (dt # 1000000) in
  (forall e post, log = e :: post -> holds_points G (l_st e) /\ near G e0 (value (l_st e)) (y 0) /\
  near G (d 0%nat) (y 1) (euler_of h f t0 (y 0))) ->
  (forall j, S j < length log ->
  near G (d (S j)) (y (S (S j))) (fun X c => y j X c + Q2Qc (2 # 1) * h * f (clock t0 dt (S j)) (y (S j)) X c)%Qc /\
  near G (w (S j)) (fun X c => y j X c + y (S (S j)) X c)%Qc (fun X c => Q2Qc (2 # 1) * y (S j) X c)%Qc) ->
  forall k e, nth_error log k = Some e ->
  let B := bound (1 + Q2Qc (2 # 1) * h * L * / nu)%Qc (fun j => / nu * d j + w j)%Qc e0 (S k) in
  near G B (value (l_after e)) (y k) /\ near G B (value (l_new e)) (y (S k)).
Proof. exact @leap_run. Qed.
Print Assumptions c95_leapfrog.

(** C95: so for Leapfrog without a filter. *)
Theorem c95_leapfrog_plain : forall {R : Registry}, forall {U} cfg (prog : icaller (T:=Qc) U) dt alpha u log s G f L d t0 y e0,
  lhistory cfg prog dt (new_leap 0%Qc alpha, u) log s -> wf_llog log -> (0 <= dt)%Z ->
  lhanded_on G log -> (forall k e, nth_error log k = Some e -> dget "time" (l_st e) = Some (VTime (clock t0 dt k))) ->
  rates_by G f dt prog -> lipschitz G L f -> (0 <= L)%Qc -> (0 <= e0)%Qc -> (forall j, 0 <= d j)%Qc ->
  let h := Q2Qc (dt # 1000000) in
  (forall e post, log = e :: post -> holds_points G (l_st e) /\ near G e0 (value (l_st e)) (y 0) /\
  near G (d 0%nat) (y 1) (euler_of h f t0 (y 0))) ->
  (forall j, S j < length log ->
  near G (d (S j)) (y (S (S j))) (fun X c => y j X c + Q2Qc (2 # 1) * h * f (clock t0 dt (S j)) (y (S j)) X c)%Qc) ->
  forall k e, nth_error log k = Some e ->
  let B := bound (1 + Q2Qc (2 # 1) * h * L)%Qc d e0 (S k) in
  near G B (value (l_after e)) (y k) /\ near G B (value (l_new e)) (y (S k)).
Proof. exact @leap_run_plain. Qed.
Print Assumptions c95_leapfrog_plain.

(** C95: what the errors add up to is at most a constant times their sum, when the number of steps times the growth per step is at most m. *)
Theorem c95_adds_up : forall K z d e0 n m, (1 <= K)%Qc -> (K <= 1 + z)%Qc -> (0 <= e0)%Qc -> (forall j, 0 <= d j)%Qc ->
  (of_nat n * z <= of_nat m)%Qc -> (bound K d e0 n <= Q2Qc (4 # 1) ^ m * (e0 + total_error d n))%Qc.
Proof. exact @bound_constant. Qed.
Print Assumptions c95_adds_up.

(** C95: linear systems have rates that vary no faster than the largest sum of the sizes of the coefficients in a row. *)
Theorem c95_linear : forall (G : points) forcing (Mat : operator) L, closed G Mat -> (forall X c, G X c -> (row_size (Mat X c) <= L)%Qc) ->
  lipschitz G L (fun now v X c => forcing now X c + apply Mat v X c)%Qc.
Proof. exact @linear_is_lipschitz. Qed.
Print Assumptions c95_linear.

(** C95: their components are those of C90. *)
Theorem c95_linear_rates : forall {R : Registry} {U} (G : points) forcing Mat dt (prog : icaller (T:=Qc) U), closed G Mat ->
  linear_rates G forcing Mat dt prog -> rates_by G (fun now v X c => forcing now X c + apply Mat v X c)%Qc dt prog.
Proof. exact @linear_has_rates. Qed.
Print Assumptions c95_linear_rates.

(** The system of the runs above. *)
Example c95_linear_case : closed (at_x 2) par_operator /\ linear_rates (at_x 2) par_forcing par_operator 250000 prog_par /\
  forall X c, at_x 2 X c -> (row_size (par_operator X c) <= Q2Qc (2 # 1))%Qc.
Proof. exact @par_linear_case. Qed.
