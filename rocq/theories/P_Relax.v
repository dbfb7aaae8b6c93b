(** Property theorems about runs of a RelaxationTendencyComponent (C97). *)
From Coq Require Import String List Bool Arith ZArith QArith Qcanon.
From Verif Require Import Prelude ArithM NdArray Units DataArrayM SpecUnits ExampleRegistry SpecArrays SpecDa Components Composite SpecComposite Steppers SpecSteppers SpecOrder
  Basic SpecBasic SpecRelax SpecRound Ex_Components Ex_Steppers Ex_Basic RelaxRuns RelaxAB RelaxLeap RelaxAway Ex_Relax.
Import ListNotations.
Open Scope string_scope.
Open Scope nat_scope.
Open Scope list_scope.

#[local] Existing Instance ex_registry | 5.

(** C97: n steps of AdamsBashforth of order 1 multiply the distance from the equilibrium by the n-th power of 1 - z, where z is the timestep over the timescale, in whatever units the state holds the values. *)
Theorem c97_euler : forall {R : Registry}, sane_registry R -> per_second_law R -> forall over_s q u tu name tid c, over_second_law R over_s -> over_s u = Ok tu -> new_relaxation over_s q u name tid = Ok c -> forall (prog : icaller (T:=Qc) unit), prog = (fun w (st : state Qc) d => implicit_composite_call [inr (stateless (relaxation_call c q))] d w st) -> forall cfg dt o a0 w0 calls a w p ve vs nows (st : state Qc) v s' st', new_ab o = Ok a0 -> is_order o 1 ->
  after (adams_bashforth cfg prog) calls (a0, w0) = (a, w) -> wf_state st -> NoDup (keys st) ->
  in_a_row (adams_bashforth cfg prog) dt (a, w) st nows s' st' -> relaxing q p ve vs v st -> vs <> 0%Qc ->
  relaxing q p ve vs (ve + decay 1 (Q2Qc (dt # 1000000) / vs) ^ length nows * (v - ve))%Qc st'.
Proof. exact @relax_ab. Qed.
Print Assumptions c97_euler.

(** C97: n steps of SSPRungeKutta multiply it by the n-th power of 1 - z + z^2/2, and of - z^3/6 more with three stages. *)
Theorem c97_runge_kutta : forall {R : Registry}, sane_registry R -> per_second_law R -> forall over_s q u tu name tid c, over_second_law R over_s -> over_s u = Ok tu -> new_relaxation over_s q u name tid = Ok c -> forall (prog : icaller (T:=Qc) unit), prog = (fun w (st : state Qc) d => implicit_composite_call [inr (stateless (relaxation_call c q))] d w st) -> forall cfg dt z k0 u0 p ve vs nows calls k w (st : state Qc) v s' st',
  new_rk z = Ok k0 -> after (ssp_rk cfg prog) calls (k0, u0) = (k, w) -> wf_state st -> NoDup (keys st) ->
  in_a_row (ssp_rk cfg prog) dt (k, w) st nows s' st' -> relaxing q p ve vs v st -> vs <> 0%Qc ->
  relaxing q p ve vs (ve + decay (Z.to_nat z) (Q2Qc (dt # 1000000) / vs) ^ length nows * (v - ve))%Qc st'.
Proof. exact @relax_rk. Qed.
Print Assumptions c97_runge_kutta.

(** C97: with a timestep up to the timescale every value stays between where it started and its equilibrium, and there is a number of steps after which it is within any distance of it. *)
Theorem c97_euler_near : forall {R : Registry}, sane_registry R -> per_second_law R -> forall over_s q u tu name tid c, over_second_law R over_s -> over_s u = Ok tu -> new_relaxation over_s q u name tid = Ok c -> forall (prog : icaller (T:=Qc) unit), prog = (fun w (st : state Qc) d => implicit_composite_call [inr (stateless (relaxation_call c q))] d w st) -> forall dt p ve vs v eps, (0 < dt)%Z -> (Q2Qc (dt # 1000000) <= vs)%Qc -> (0 < eps)%Qc ->
  exists N, forall cfg o a0 w0 calls a w nows (st : state Qc) s' st', new_ab o = Ok a0 -> is_order o 1 ->
  after (adams_bashforth cfg prog) calls (a0, w0) = (a, w) -> wf_state st -> NoDup (keys st) ->
  in_a_row (adams_bashforth cfg prog) dt (a, w) st nows s' st' -> relaxing q p ve vs v st ->
  exists v', relaxing q p ve vs v' st' /\ between v v' ve /\ (N <= length nows -> within eps v' ve).
Proof. exact @relax_ab_near. Qed.
Print Assumptions c97_euler_near.

(** C97: so for SSPRungeKutta. *)
Theorem c97_runge_kutta_near : forall {R : Registry}, sane_registry R -> per_second_law R -> forall over_s q u tu name tid c, over_second_law R over_s -> over_s u = Ok tu -> new_relaxation over_s q u name tid = Ok c -> forall (prog : icaller (T:=Qc) unit), prog = (fun w (st : state Qc) d => implicit_composite_call [inr (stateless (relaxation_call c q))] d w st) -> forall dt p ve vs v eps, (0 < dt)%Z -> (Q2Qc (dt # 1000000) <= vs)%Qc -> (0 < eps)%Qc ->
  exists N, forall cfg z k0 u0 calls k w nows (st : state Qc) s' st', new_rk z = Ok k0 ->
  after (ssp_rk cfg prog) calls (k0, u0) = (k, w) -> wf_state st -> NoDup (keys st) ->
  in_a_row (ssp_rk cfg prog) dt (k, w) st nows s' st' -> relaxing q p ve vs v st ->
  exists v', relaxing q p ve vs v' st' /\ between v v' ve /\ (N <= length nows -> within eps v' ve).
Proof. exact @relax_rk_near. Qed.
Print Assumptions c97_runge_kutta_near.

(** A depth in cm whose equilibrium is in m and whose timescale is in days, and a component that works in km. *)
Example c97_setting : sane_registry ex_registry /\ per_second_law ex_registry /\ over_second_law ex_registry over_ex /\
  over_ex "km" = Ok "km s^-1" /\ new_relaxation over_ex "w" "km" "relax" false = Ok comp_w /\
  wf_state st_w /\ NoDup (keys st_w) /\ relaxing "w" at_1 (cz 500) (secs 172800) (cz 100) st_w.
Proof. exact @w_setting. Qed.

(** Two steps of half a timescale. *)
Example c97_euler_case : exists s' st', new_ab (T:=Qc) (OInt 1) = Ok (mkab 1 None []) /\ is_order (OInt 1) 1 /\
  after (adams_bashforth cfg_w prog_w) [] (mkab 1 None [], tt) = (mkab 1 None [], tt) /\
  in_a_row (adams_bashforth cfg_w prog_w) day (mkab 1 None [], tt) st_w [0%Z; day] s' st' /\ value st' "w" at_1 = cz 400 /\
  (Q2Qc (day # 1000000) <= secs 172800)%Qc.
Proof. exact @w_ab_case. Qed.

(** The same with two and with three stages. *)
Example c97_runge_kutta_case : forall z, z = 2%Z \/ z = 3%Z -> exists k0 s' st', new_rk (T:=Qc) z = Ok k0 /\ after (ssp_rk cfg_w prog_w) [] (k0, tt) = (k0, tt) /\
  in_a_row (ssp_rk cfg_w prog_w) day (k0, tt) st_w [0%Z; day] s' st' /\
  value st' "w" at_1 = if Z.eqb z 2 then Q2Qc (1375 # 4) else Q2Qc (50975 # 144).
Proof. exact @w_rk_case. Qed.

(** C97: Leapfrog without a filter takes the distance through an Euler step and then d(k+2) = d(k) - 2 z d(k+1). *)
Theorem c97_leapfrog_unfiltered : forall {R : Registry}, sane_registry R -> per_second_law R -> forall over_s q u tu name tid c, over_second_law R over_s -> over_s u = Ok tu -> new_relaxation over_s q u name tid = Ok c -> forall (prog : icaller (T:=Qc) unit), prog = (fun w (st : state Qc) d => implicit_composite_call [inr (stateless (relaxation_call c q))] d w st) -> forall cfg dt alpha w log s p ve vs v,
  lhistory cfg prog dt (new_leap 0%Qc alpha, w) log s ->
  (forall e, In e log -> wf_state (l_st e) /\ NoDup (keys (l_st e))) ->
  (forall pre a b post, log = pre ++ a :: b :: post -> forall X, X <> "time" -> dget X (l_st b) = dget X (l_new a)) ->
  (forall e, In e log -> exists now, dget "time" (l_st e) = Some (VTime now)) ->
  (forall e post, log = e :: post -> relaxing q p ve vs v (l_st e)) -> vs <> 0%Qc ->
  forall k e, nth_error log k = Some e ->
  relaxing q p ve vs (ve + leap_off (Q2Qc (dt # 1000000) / vs) (v - ve) k)%Qc (l_st e) /\
  relaxing q p ve vs (ve + leap_off (Q2Qc (dt # 1000000) / vs) (v - ve) (S k))%Qc (l_new e).
Proof. exact @relax_leap. Qed.
Print Assumptions c97_leapfrog_unfiltered.

(** C97: so with any timestep and any starting value other than the equilibrium it ends beyond any bound. *)
Theorem c97_leapfrog_runs_away : forall {R : Registry}, sane_registry R -> per_second_law R -> forall over_s q u tu name tid c, over_second_law R over_s -> over_s u = Ok tu -> new_relaxation over_s q u name tid = Ok c -> forall (prog : icaller (T:=Qc) unit), prog = (fun w (st : state Qc) d => implicit_composite_call [inr (stateless (relaxation_call c q))] d w st) -> forall dt p ve vs v B, (0 < dt)%Z -> (0 < vs)%Qc -> v <> ve ->
  exists N, forall cfg alpha w log s, lhistory cfg prog dt (new_leap 0%Qc alpha, w) log s ->
  (forall e, In e log -> wf_state (l_st e) /\ NoDup (keys (l_st e))) ->
  (forall pre a b post, log = pre ++ a :: b :: post -> forall X, X <> "time" -> dget X (l_st b) = dget X (l_new a)) ->
  (forall e, In e log -> exists now, dget "time" (l_st e) = Some (VTime now)) ->
  (forall e post, log = e :: post -> relaxing q p ve vs v (l_st e)) ->
  forall k e, nth_error log k = Some e -> N <= k ->
  exists v', relaxing q p ve vs v' (l_st e) /\ ((B <= v' - ve)%Qc \/ (v' - ve <= - B)%Qc).
Proof. exact @relax_leap_away. Qed.
Print Assumptions c97_leapfrog_runs_away.

(** Four steps of it. *)
Example c97_leapfrog_case : exists log s, lhistory cfg_w prog_w day (new_leap 0%Qc (Q2Qc (1 # 2)), tt) log s /\ length log = 4 /\
  (forall e, In e log -> wf_state (l_st e) /\ NoDup (keys (l_st e))) /\
  (forall pre a b post, log = pre ++ a :: b :: post -> forall X, X <> "time" -> dget X (l_st b) = dget X (l_new a)) /\
  (forall e, In e log -> exists now, dget "time" (l_st e) = Some (VTime now)) /\
  (forall e post, log = e :: post -> relaxing "w" at_1 (cz 500) (secs 172800) (cz 100) (l_st e)) /\
  map (fun e => value (l_st e) "w" at_1) log = [cz 100; cz 300; cz 300; cz 500].
Proof. exact @w_leap_case. Qed.

(** C97: with any filter, the distances of the states that are given to Leapfrog, as its filter leaves them and as it returns them are those of the textbook formula. *)
Theorem c97_leapfrog : forall {R : Registry}, sane_registry R -> per_second_law R -> forall over_s q u tu name tid c, over_second_law R over_s -> over_s u = Ok tu -> new_relaxation over_s q u name tid = Ok c -> forall (prog : icaller (T:=Qc) unit), prog = (fun w (st : state Qc) d => implicit_composite_call [inr (stateless (relaxation_call c q))] d w st) -> forall cfg dt nu alpha w log s p ve vs v,
  lhistory cfg prog dt (new_leap nu alpha, w) log s ->
  (forall e, In e log -> wf_state (l_st e) /\ NoDup (keys (l_st e))) ->
  (forall pre a b post, log = pre ++ a :: b :: post -> forall X, X <> "time" -> dget X (l_st b) = dget X (l_new a)) ->
  (forall e, In e log -> exists now, dget "time" (l_st e) = Some (VTime now)) ->
  (forall e post, log = e :: post -> relaxing q p ve vs v (l_st e)) -> vs <> 0%Qc ->
  forall k e, nth_error log k = Some e ->
  relaxing q p ve vs (ve + leap_given nu alpha (Q2Qc (dt # 1000000) / vs) (v - ve) k)%Qc (l_st e) /\
  relaxing q p ve vs (ve + fst (leap_pair nu alpha (Q2Qc (dt # 1000000) / vs) (v - ve) k))%Qc (l_after e) /\
  relaxing q p ve vs (ve + leap_given nu alpha (Q2Qc (dt # 1000000) / vs) (v - ve) (S k))%Qc (l_new e).
Proof. exact @relax_leap_filter. Qed.
Print Assumptions c97_leapfrog.

(** C97: with a filter and a timestep of at most half the filter times the timescale, Leapfrog stays between its start and the equilibrium and comes within any distance of it. For the default filter that is a fortieth of the timescale. *)
Theorem c97_leapfrog_near : forall {R : Registry}, sane_registry R -> per_second_law R -> forall over_s q u tu name tid c, over_second_law R over_s -> over_s u = Ok tu -> new_relaxation over_s q u name tid = Ok c -> forall (prog : icaller (T:=Qc) unit), prog = (fun w (st : state Qc) d => implicit_composite_call [inr (stateless (relaxation_call c q))] d w st) -> forall dt nu alpha p ve vs v eps, (0 < dt)%Z -> (0 < nu)%Qc -> (nu <= 1)%Qc -> (0 <= alpha)%Qc -> (alpha <= 1)%Qc ->
  (Q2Qc (2 # 1) * Q2Qc (dt # 1000000) <= nu * vs)%Qc -> (0 < eps)%Qc ->
  exists N, forall cfg w log s, lhistory cfg prog dt (new_leap nu alpha, w) log s ->
  (forall e, In e log -> wf_state (l_st e) /\ NoDup (keys (l_st e))) ->
  (forall pre a b post, log = pre ++ a :: b :: post -> forall X, X <> "time" -> dget X (l_st b) = dget X (l_new a)) ->
  (forall e, In e log -> exists now, dget "time" (l_st e) = Some (VTime now)) ->
  (forall e post, log = e :: post -> relaxing q p ve vs v (l_st e)) ->
  forall k e, nth_error log k = Some e ->
  exists x y, relaxing q p ve vs x (l_st e) /\ relaxing q p ve vs y (l_new e) /\ between v x ve /\ between v y ve /\
  (N <= k -> within eps x ve /\ within eps y ve).
Proof. exact @relax_leap_near. Qed.
Print Assumptions c97_leapfrog_near.

(** C97: it still comes within any distance of the equilibrium with a timestep up to about twice that. For the default filter that is a twentieth of the timescale. *)
Theorem c97_leapfrog_limit : forall {R : Registry}, sane_registry R -> per_second_law R -> forall over_s q u tu name tid c, over_second_law R over_s -> over_s u = Ok tu -> new_relaxation over_s q u name tid = Ok c -> forall (prog : icaller (T:=Qc) unit), prog = (fun w (st : state Qc) d => implicit_composite_call [inr (stateless (relaxation_call c q))] d w st) -> forall dt nu alpha p ve vs v eps, (0 < dt)%Z -> (0 < vs)%Qc -> (0 < nu)%Qc -> (nu <= 1)%Qc -> (0 <= alpha)%Qc -> (alpha <= 1)%Qc ->
  (Q2Qc (dt # 1000000) * (Q2Qc (2 # 1) - nu + Q2Qc (2 # 1) * (alpha * nu)) < Q2Qc (2 # 1) * nu * vs)%Qc -> (0 < eps)%Qc ->
  exists N, forall cfg w log s, lhistory cfg prog dt (new_leap nu alpha, w) log s ->
  (forall e, In e log -> wf_state (l_st e) /\ NoDup (keys (l_st e))) ->
  (forall pre a b post, log = pre ++ a :: b :: post -> forall X, X <> "time" -> dget X (l_st b) = dget X (l_new a)) ->
  (forall e, In e log -> exists now, dget "time" (l_st e) = Some (VTime now)) ->
  (forall e post, log = e :: post -> relaxing q p ve vs v (l_st e)) ->
  forall k e, nth_error log k = Some e -> N <= k ->
  exists x y, relaxing q p ve vs x (l_st e) /\ relaxing q p ve vs y (l_new e) /\ within eps x ve /\ within eps y ve.
Proof. exact @relax_leap_limit. Qed.
Print Assumptions c97_leapfrog_limit.

(** Four steps of an hour with the default filter. *)
Example c97_leapfrog_near_case : exists log s, lhistory cfg_w prog_w hour (new_leap (Q2Qc (1 # 20)) (Q2Qc (1 # 2)), tt) log s /\ length log = 4 /\
  (forall e, In e log -> wf_state (l_st e) /\ NoDup (keys (l_st e))) /\
  (forall pre a b post, log = pre ++ a :: b :: post -> forall X, X <> "time" -> dget X (l_st b) = dget X (l_new a)) /\
  (forall e, In e log -> exists now, dget "time" (l_st e) = Some (VTime now)) /\
  (forall e post, log = e :: post -> relaxing "w" at_1 (cz 500) (secs 172800) (cz 100) (l_st e)) /\
  (Q2Qc (2 # 1) * Q2Qc (hour # 1000000) <= Q2Qc (1 # 20) * secs 172800)%Qc /\
  (Q2Qc (hour # 1000000) * (Q2Qc (2 # 1) - Q2Qc (1 # 20) + Q2Qc (2 # 1) * (Q2Qc (1 # 2) * Q2Qc (1 # 20))) < Q2Qc (2 # 1) * Q2Qc (1 # 20) * secs 172800)%Qc /\
  map (fun e => value (l_st e) "w" at_1) log = hours_w.
Proof. exact @w_filter_case. Qed.

(** C97: with any timestep beyond that it ends beyond any bound. So with the default filter Leapfrog comes to the equilibrium with timesteps below a twentieth of the timescale and runs away with timesteps above it. *)
Theorem c97_leapfrog_filter_runs_away : forall {R : Registry}, sane_registry R -> per_second_law R -> forall over_s q u tu name tid c, over_second_law R over_s -> over_s u = Ok tu -> new_relaxation over_s q u name tid = Ok c -> forall (prog : icaller (T:=Qc) unit), prog = (fun w (st : state Qc) d => implicit_composite_call [inr (stateless (relaxation_call c q))] d w st) -> forall dt nu alpha p ve vs v B, (0 < dt)%Z -> (0 < vs)%Qc -> v <> ve ->
  (0 <= nu)%Qc -> (nu < 1)%Qc -> (0 <= alpha)%Qc -> (alpha <= 1)%Qc ->
  (Q2Qc (2 # 1) * nu * vs < Q2Qc (dt # 1000000) * (Q2Qc (2 # 1) - nu + Q2Qc (2 # 1) * (alpha * nu)))%Qc ->
  exists N, forall cfg w log s, lhistory cfg prog dt (new_leap nu alpha, w) log s ->
  (forall e, In e log -> wf_state (l_st e) /\ NoDup (keys (l_st e))) ->
  (forall pre a b post, log = pre ++ a :: b :: post -> forall X, X <> "time" -> dget X (l_st b) = dget X (l_new a)) ->
  (forall e, In e log -> exists now, dget "time" (l_st e) = Some (VTime now)) ->
  (forall e post, log = e :: post -> relaxing q p ve vs v (l_st e)) ->
  forall k e, nth_error log k = Some e -> N <= k ->
  exists v', relaxing q p ve vs v' (l_st e) /\ ((B <= v' - ve)%Qc \/ (v' - ve <= - B)%Qc).
Proof. exact @relax_leap_filter_away. Qed.
Print Assumptions c97_leapfrog_filter_runs_away.

(** Six steps of half a timescale with the default filter. *)
Example c97_leapfrog_filter_runs_away_case : exists log s, lhistory cfg_w prog_w day (new_leap (Q2Qc (1 # 20)) (Q2Qc (1 # 2)), tt) log s /\ length log = 6 /\
  (forall e, In e log -> wf_state (l_st e) /\ NoDup (keys (l_st e))) /\
  (forall pre a b post, log = pre ++ a :: b :: post -> forall X, X <> "time" -> dget X (l_st b) = dget X (l_new a)) /\
  (forall e, In e log -> exists now, dget "time" (l_st e) = Some (VTime now)) /\
  (forall e post, log = e :: post -> relaxing "w" at_1 (cz 500) (secs 172800) (cz 100) (l_st e)) /\
  (Q2Qc (2 # 1) * Q2Qc (1 # 20) * secs 172800 < Q2Qc (day # 1000000) * (Q2Qc (2 # 1) - Q2Qc (1 # 20) + Q2Qc (2 # 1) * (Q2Qc (1 # 2) * Q2Qc (1 # 20))))%Qc /\
  map (fun e => value (l_st e) "w" at_1) log = days_w.
Proof. exact @w_away_case. Qed.

(** C97: with AdamsBashforth of any order the distance from the equilibrium goes by the formula of the textbook, whatever the units. *)
Theorem c97_adams_bashforth : forall {R : Registry}, sane_registry R -> per_second_law R -> forall over_s q u tu name tid c, over_second_law R over_s -> over_s u = Ok tu -> new_relaxation over_s q u name tid = Ok c -> forall (prog : icaller (T:=Qc) unit), prog = (fun w (st : state Qc) d => implicit_composite_call [inr (stateless (relaxation_call c q))] d w st) -> forall cfg dt o n a w log s p ve vs v, new_ab o = Ok a -> is_order o n ->
  history (adams_bashforth cfg prog) prog dt (a, w) log s ->
  (forall e, In e log -> wf_state (e_st e) /\ NoDup (keys (e_st e))) ->
  (forall pre a b post, log = pre ++ a :: b :: post -> forall X, X <> "time" -> dget X (e_st b) = dget X (e_new a)) ->
  (forall e, In e log -> exists now, dget "time" (e_st e) = Some (VTime now)) ->
  (forall e post, log = e :: post -> relaxing q p ve vs v (e_st e)) -> vs <> 0%Qc ->
  forall k e, nth_error log k = Some e ->
  relaxing q p ve vs (ve + ab_off n (Q2Qc (dt # 1000000) / vs) (v - ve) k)%Qc (e_st e) /\
  relaxing q p ve vs (ve + ab_off n (Q2Qc (dt # 1000000) / vs) (v - ve) (S k))%Qc (e_new e).
Proof. exact @relax_ab_order. Qed.
Print Assumptions c97_adams_bashforth.

(** Five steps of a tenth of the timescale with the orders 2 to 4. *)
Example c97_adams_bashforth_case : forall n, (n = 2%Z \/ n = 3%Z \/ n = 4%Z) -> exists a log s, new_ab (T:=Qc) (OInt n) = Ok a /\ is_order (OInt n) (Z.to_nat n) /\
  history (adams_bashforth cfg_w prog_w) prog_w tenth (a, tt) log s /\ length log = 5 /\
  (forall e, In e log -> wf_state (e_st e) /\ NoDup (keys (e_st e))) /\
  (forall pre a b post, log = pre ++ a :: b :: post -> forall X, X <> "time" -> dget X (e_st b) = dget X (e_new a)) /\
  (forall e, In e log -> exists now, dget "time" (e_st e) = Some (VTime now)) /\
  (forall e post, log = e :: post -> relaxing "w" at_1 (cz 500) (secs 172800) (cz 100) (e_st e)) /\
  (0 < tenth)%Z /\ (Q2Qc (5 # 1) * Q2Qc (tenth # 1000000) <= secs 172800)%Qc /\
  map (fun e => value (e_st e) "w" at_1) (firstn 3 log) = [cz 100; cz 140; cz 174].
Proof. exact @w_abs_case. Qed.

(** C97: with a timestep up to a fifth of the timescale AdamsBashforth of every order takes the value nearer to the equilibrium at each step, never past it, and within any distance of it after enough steps. *)
Theorem c97_adams_bashforth_near : forall {R : Registry}, sane_registry R -> per_second_law R -> forall over_s q u tu name tid c, over_second_law R over_s -> over_s u = Ok tu -> new_relaxation over_s q u name tid = Ok c -> forall (prog : icaller (T:=Qc) unit), prog = (fun w (st : state Qc) d => implicit_composite_call [inr (stateless (relaxation_call c q))] d w st) -> forall dt p ve vs v eps n, (0 < dt)%Z -> (Q2Qc (5 # 1) * Q2Qc (dt # 1000000) <= vs)%Qc -> (0 < eps)%Qc ->
  exists N, forall cfg o a w log s, new_ab o = Ok a -> is_order o n -> history (adams_bashforth cfg prog) prog dt (a, w) log s ->
  (forall e, In e log -> wf_state (e_st e) /\ NoDup (keys (e_st e))) ->
  (forall pre a b post, log = pre ++ a :: b :: post -> forall X, X <> "time" -> dget X (e_st b) = dget X (e_new a)) ->
  (forall e, In e log -> exists now, dget "time" (e_st e) = Some (VTime now)) ->
  (forall e post, log = e :: post -> relaxing q p ve vs v (e_st e)) ->
  forall k e, nth_error log k = Some e ->
  exists x y, relaxing q p ve vs x (e_st e) /\ relaxing q p ve vs y (e_new e) /\ between v x ve /\ between x y ve /\ (N <= k -> within eps x ve).
Proof. exact @relax_abs_near. Qed.
Print Assumptions c97_adams_bashforth_near.

(** C97 does not hold of AdamsBashforth of the orders 2 to 4: with a timestep of one timescale, three steps go past the equilibrium. *)
Theorem c97_adams_bashforth_refuted : forall n, (n = 2%Z \/ n = 3%Z \/ n = 4%Z) -> exists a0 s' st', new_ab (T:=Qc) (OInt n) = Ok a0 /\
  in_a_row (adams_bashforth cfg_w prog_w) day (a0, tt) st_b [0%Z; day; (2 * day)%Z] s' st' /\
  Q2Qc (day # 1000000) = secs 86400 /\ wf_state st_b /\ NoDup (keys st_b) /\ relaxing "w" at_1 (cz 500) (secs 86400) (cz 100) st_b /\
  exists x, dget "w" st' = Some (VDA x) /\ units_of x = Some "cm" /\ ~ between (cz 100) (da_at x at_1) (cz 500).
Proof. exact @b_ab_past. Qed.
Print Assumptions c97_adams_bashforth_refuted.

(** C97 does not hold of Leapfrog with its default filter either. *)
Theorem c97_leapfrog_refuted : exists log s e, lhistory cfg_w prog_w day (new_leap (Q2Qc (1 # 20)) (Q2Qc (1 # 2)), tt) log s /\
  (forall e, In e log -> wf_state (l_st e) /\ NoDup (keys (l_st e)) /\ exists now, dget "time" (l_st e) = Some (VTime now)) /\
  (forall pre a b post, log = pre ++ a :: b :: post -> forall X, X <> "time" -> dget X (l_st b) = dget X (l_new a)) /\
  Q2Qc (day # 1000000) = secs 86400 /\
  (forall e post, log = e :: post -> relaxing "w" at_1 (cz 500) (secs 86400) (cz 100) (l_st e)) /\
  nth_error log 2 = Some e /\ exists x, dget "w" (l_new e) = Some (VDA x) /\ units_of x = Some "cm" /\ ~ between (cz 100) (da_at x at_1) (cz 500).
Proof. exact @b_leap_past. Qed.
Print Assumptions c97_leapfrog_refuted.
