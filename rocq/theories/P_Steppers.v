(** Property theorems about the time steppers (C24-C36, C38). *)
From Coq Require Import String List Bool Arith ZArith QArith Qcanon PrimFloat.
From Verif Require Import Prelude ArithM NdArray Units DataArrayM GetNp SpecUnits ExampleRegistry SpecDa Tracers Components
  Composite SpecComposite Steppers SpecSteppers LeapFacts StepAlgebra StepRuns StepExact StepSteady StepUnits StepDiag SteppersMain Ex_Components Ex_Steppers.
Import ListNotations.
Open Scope string_scope.
Open Scope nat_scope.
Open Scope list_scope.

#[local] Existing Instance ex_registry | 5.

(** C24: an AdamsBashforth object is made for the orders 1 to 4, however given. *)
Theorem c24_orders : forall {T} o (a : ab T), new_ab o = Ok a <-> exists n, 1 <= n <= 4 /\ is_order o n /\ a = mkab n None [].
Proof. exact @new_ab_ok. Qed.
Print Assumptions c24_orders.

(** C24, any arithmetic: on every call of every run each stepped quantity becomes what
    the formula of order min(order, n) gives from the rates of the last calls. *)
Theorem c24_formula : forall {T : Type} {A : Arith T} {R : Registry}, forall {U} cfg (prog : icaller (T:=T) U) dt o n a u log s, new_ab o = Ok a -> is_order o n ->
  history (adams_bashforth cfg prog) prog dt (a, u) log s -> wf_log log ->
  forall pre e post, log = pre ++ e :: post -> let es := latest (Nat.min n (S (length pre))) pre e in
  forall X, (forall e', In e' es -> In X (keys (e_tend e'))) ->
  exists x ts r, dget X (e_st e) = Some (VDA x) /\ dget X (e_new e) = Some (VDA r) /\
  tendencies_of es X ts /\ extends x ts r /\
  forall c, in_grid r c -> in_grid x c /\ exists ys, rates_of es X c ys /\
  da_at r c = ab_formula (aofQ (dt # 1000000)) (da_at x c) ys.
Proof. exact @main_ab_formula. Qed.
Print Assumptions c24_formula.

(** C24, exact arithmetic: the textbook coefficients. *)
Theorem c24_textbook : forall {R : Registry}, forall {U} cfg (prog : icaller (T:=Qc) U) dt o n a u log s, new_ab o = Ok a -> is_order o n ->
  history (adams_bashforth cfg prog) prog dt (a, u) log s -> wf_log log ->
  forall pre e post, log = pre ++ e :: post -> let k := Nat.min n (S (length pre)) in let es := latest k pre e in
  forall X, (forall e', In e' es -> In X (keys (e_tend e'))) ->
  exists x ts r, dget X (e_st e) = Some (VDA x) /\ dget X (e_new e) = Some (VDA r) /\
  tendencies_of es X ts /\ extends x ts r /\
  forall c, in_grid r c -> exists ys, rates_of es X c ys /\
  da_at r c = (da_at x c + Q2Qc (dt # 1000000) * dot (ab_weights k) ys)%Qc.
Proof. exact @main_ab_textbook. Qed.
Print Assumptions c24_textbook.

(** C24: the step is taken whenever units and lengths allow it. *)
Theorem c24_returns : forall {T : Type} {A : Arith T} {R : Registry}, forall {U} cfg (prog : icaller (T:=T) U) dt o n a u log a1 u1, new_ab o = Ok a -> is_order o n ->
  ts_tid cfg = false -> history (adams_bashforth cfg prog) prog dt (a, u) log (a1, u1) -> wf_log log ->
  forall st u2 tend pdiag, proper_state st -> proper tend -> prog u1 st dt = (u2, Ok (tend, pdiag)) ->
  can_step st tend (map e_tend (firstn (n - 1) (rev log))) ->
  exists a' new, adams_bashforth cfg prog (a1, u1) st dt = ((a', u2), Ok (pdiag, new)).
Proof. exact @main_ab_returns. Qed.
Print Assumptions c24_returns.

(** C24 fails for a quantity that gets a tendency later than others: it is not stepped
    although its rate is not zero. *)
Theorem c24_late_quantity_refuted : exists (prog : icaller (T:=Qc) nat) dt pre e s X x t c y,
  history (adams_bashforth cfg_0 prog) prog dt (mkab 2 None [], 0) (pre ++ [e]) s /\ wf_log (pre ++ [e]) /\
  dget X (e_st e) = Some (VDA x) /\ dget X (e_tend e) = Some t /\ in_grid t c /\ rate (e_st e) X t c y /\ y <> 0%Qc /\
  dget X (e_new e) = dget X (e_st e).
Proof. exact @late_quantity. Qed.
Print Assumptions c24_late_quantity_refuted.

(** A run of five calls of order 3, with unit conversion. *)
Example c24_hypotheses_met : forall tid, exists e0 log s,
  history (adams_bashforth (cfg_e tid) (ex_prog "kg" "g")) (ex_prog "kg" "g") 1000000 (mkab 3 None [], 0) (e0 :: log) s /\
  wf_log (e0 :: log) /\ chained (e0 :: log) /\ length log = 4 /\ e_st e0 = st_e "kg" "g" /\
  forall e, In e (e0 :: log) -> keys (e_tend e) = ["T"; "a"; "b"; "w"].
Proof. exact @ex_ab_run. Qed.

(** C25: if the rates at the last k calls are those of a polynomial of degree at most k
    at their times, the step adds its exact increment. *)
Theorem c25_polynomial : forall {R : Registry}, forall {U} cfg (prog : icaller (T:=Qc) U) dt o n a u log s, new_ab o = Ok a -> is_order o n ->
  history (adams_bashforth cfg prog) prog dt (a, u) log s -> wf_log log ->
  forall pre e post, log = pre ++ e :: post ->
  forall X x c (P : list Qc) t, let k := Nat.min n (S (length pre)) in let h := Q2Qc (dt # 1000000) in
  length P <= S k -> rates_of (latest k pre e) X c (map (peval (pderiv P)) (times_back k t h)) ->
  dget X (e_st e) = Some (VDA x) -> in_grid x c ->
  exists r, dget X (e_new e) = Some (VDA r) /\ in_grid r c /\
  da_at r c = (da_at x c + (peval P (t + h) - peval P t))%Qc.
Proof. exact @main_ab_polynomial. Qed.
Print Assumptions c25_polynomial.

(** Two calls of order 2; the quantity is 3 t + t^2. *)
Example c25_hypotheses_met : exists pre e s x, let c := fun _ : string => 1 in
  history (adams_bashforth (cfg_e false) (ex_prog "kg" "g")) (ex_prog "kg" "g") 1000000 (mkab 2 None [], 0) (pre ++ [e]) s /\
  wf_log (pre ++ [e]) /\ Nat.min 2 (S (length pre)) = 2 /\
  rates_of (latest 2 pre e) "a" c (map (peval (pderiv [0; cz 3; 1]%Qc)) (times_back 2 1%Qc (Q2Qc (1000000 # 1000000)))) /\
  dget "a" (e_st e) = Some (VDA x) /\ in_grid x c.
Proof. exact @ex_polynomial. Qed.

(** C26: a changed timestep is refused and changes nothing. *)
Theorem c26_ab_refuses : forall {T : Type} {A : Arith T} {R : Registry}, forall {U} cfg (prog : icaller (T:=T) U) o a0 u0 st0 dt0 calls a u (st : state T) dt,
  new_ab o = Ok a0 -> after (adams_bashforth cfg prog) ((st0, dt0) :: calls) (a0, u0) = (a, u) -> dt <> dt0 ->
  adams_bashforth cfg prog (a, u) st dt = ((a, u), Err EValue).
Proof. exact @ab_refuses. Qed.
Print Assumptions c26_ab_refuses.

(** C26: the same for Leapfrog; the state given is not touched either. *)
Theorem c26_leapfrog_refuses : forall {T : Type} {A : Arith T} {R : Registry}, forall {U} cfg (prog : icaller (T:=T) U) nu alpha u0 st0 dt0 calls l u (st : state T) dt,
  lafter (leapfrog cfg prog) ((st0, dt0) :: calls) (new_leap nu alpha, u0) = (l, u) -> dt <> dt0 ->
  leapfrog cfg prog (l, u) st dt = ((l, u), st, Err EValue).
Proof. exact @leap_refuses. Qed.
Print Assumptions c26_leapfrog_refuses.

(** C26: after any successful run at most order-1 tendency sets are stored. *)
Theorem c26_bounded_history : forall {T : Type} {A : Arith T} {R : Registry}, forall {U} cfg (prog : icaller (T:=T) U) dt o (a0 : ab T) u log a u', new_ab o = Ok a0 ->
  history (adams_bashforth cfg prog) prog dt (a0, u) log (a, u') -> length (ab_hist a) = Nat.min (ab_order a0 - 1) (length log).
Proof. exact @ab_memory. Qed.
Print Assumptions c26_bounded_history.

(** C27, what holds: when the components raise, or a tendency cannot be converted,
    the stored tendencies are untouched (the timestep is still recorded). *)
Theorem c27_early_failure_partial : forall {T : Type} {A : Arith T} {R : Registry}, forall {U} cfg (prog : icaller (T:=T) U) a u (st : state T) dt u1 r, prog u st dt = (u1, r) ->
  (ab_dt a = None \/ ab_dt a = Some dt) ->
  match r with
  | Err _ => True
  | Ok (tend, _) => exists X t, In (X, t) tend /\ ~ has_rate st X t
  end ->
  exists e, adams_bashforth cfg prog (a, u) st dt = ((mkab (ab_order a) (Some dt) (ab_hist a), u1), Err e).
Proof. exact @ab_early_failure. Qed.
Print Assumptions c27_early_failure_partial.

(** C27 fails: after a call that raised, the same good call gives another result. *)
Theorem c27_retry_refuted : exists (prog : icaller (T:=Qc) unit) (a a1 : ab Qc) bad st dt e r1 r2 x1 x2 X c,
  new_ab (OInt 2) = Ok a /\ adams_bashforth cfg_0 prog (a, tt) bad dt = ((a1, tt), Err e) /\
  snd (adams_bashforth cfg_0 prog (a, tt) st dt) = Ok r1 /\ snd (adams_bashforth cfg_0 prog (a1, tt) st dt) = Ok r2 /\
  dget X (snd r1) = Some (VDA x1) /\ dget X (snd r2) = Some (VDA x2) /\ in_grid x1 c /\ in_grid x2 c /\ da_at x1 c <> da_at x2 c.
Proof. exact @failed_step_remembered. Qed.
Print Assumptions c27_retry_refuted.

(** C27 fails: after a call that raised, the stored history grows with every call. *)
Theorem c27_history_refuted : exists (prog : icaller (T:=Qc) unit) (a a1 : ab Qc) bad dt e,
  new_ab (OInt 1) = Ok a /\ adams_bashforth cfg_0 prog (a, tt) bad dt = ((a1, tt), Err e) /\
  forall m, exists log a', history (adams_bashforth cfg_0 prog) prog dt (a1, tt) log (a', tt) /\
  length log = m /\ m <= length (ab_hist a').
Proof. exact @history_unbounded. Qed.
Print Assumptions c27_history_refuted.

(** C28: the first call is a forward Euler step that leaves the state alone; each later
    one is a filtered leapfrog step from the filtered previous state. *)
Theorem c28_leapfrog : forall {T : Type} {A : Arith T} {R : Registry}, forall {U} cfg (prog : icaller (T:=T) U) dt nu alpha u log s,
  lhistory cfg prog dt (new_leap nu alpha, u) log s -> wf_llog log ->
  (forall e post, log = e :: post -> l_after e = l_st e /\ euler_step dt (l_st e) (l_tend e) (l_new e)) /\
  (forall pre p e post, log = pre ++ p :: e :: post ->
  leap_step dt nu alpha (l_after p) (l_st e) (l_tend e) (l_after e) (l_new e)).
Proof. exact @leap_formula_lemma. Qed.
Print Assumptions c28_leapfrog.

(** C28: the step is taken whenever units and lengths allow it. *)
Theorem c28_returns : forall {T : Type} {A : Arith T} {R : Registry}, forall {U} cfg (prog : icaller (T:=T) U) dt nu alpha u log p l u1, ts_tid cfg = false ->
  lhistory cfg prog dt (new_leap nu alpha, u) (log ++ [p]) (l, u1) -> wf_llog (log ++ [p]) ->
  forall st u2 tend pdiag, proper_state st -> proper tend -> prog u1 st dt = (u2, Ok (tend, pdiag)) ->
  can_leap alpha (l_after p) st tend ->
  exists l' st' new, leapfrog cfg prog (l, u1) st dt = ((l', u2), st', Ok (pdiag, new)).
Proof. exact @leap_returns. Qed.
Print Assumptions c28_returns.

(** A run of five calls, with the two usual parameters of the filter. *)
Example c28_hypotheses_met : forall tid alpha, alpha = half \/ alpha = 1%Qc -> exists e0 log s,
  lhistory (cfg_e tid) (ex_prog "kg" "g") 1000000 (new_leap nu_e alpha, 0) (e0 :: log) s /\
  wf_llog (e0 :: log) /\ lchained (e0 :: log) /\ length log = 4 /\ l_st e0 = st_e "kg" "g".
Proof. exact @ex_leap_run. Qed.

(** C29: at alpha = 1/2 the sum over the three times is what it is without filter; at
    alpha = 1 the new value is not filtered; with strength 0 nothing is. *)
Theorem c29_filter : forall {R : Registry}, forall {U} cfg (prog : icaller (T:=Qc) U) dt nu alpha u log s,
  lhistory cfg prog dt (new_leap nu alpha, u) log s -> wf_llog log ->
  forall pre p e post X t, log = pre ++ p :: e :: post -> dget X (l_tend e) = Some t ->
  exists o x x' n, dget X (l_after p) = Some (VDA o) /\ dget X (l_st e) = Some (VDA x) /\
  dget X (l_after e) = Some (VDA x') /\ dget X (l_new e) = Some (VDA n) /\
  forall c, in_grid x c -> in_grid x' c /\ in_grid n c /\ exists y, rate (l_st e) X t c y /\
  let plain := (da_at o c + Q2Qc (2 # 1) * y * Q2Qc (dt # 1000000))%Qc in
  (alpha = Q2Qc (1 # 2) -> (da_at o c + da_at x' c + da_at n c = da_at o c + da_at x c + plain)%Qc) /\
  (alpha = 1%Qc -> da_at n c = plain) /\
  (nu = 0%Qc -> da_at x' c = da_at x c /\ da_at n c = plain).
Proof. exact @main_leap_filter. Qed.
Print Assumptions c29_filter.

(** C29, any arithmetic: at alpha = 1 the new value is not filtered. *)
Theorem c29_alpha_one : forall {T} {A : Arith T} (sec nu alpha o x y : T), aeqb alpha (aofQ (1 # 1)) = true ->
  snd (leapfrog_values sec nu alpha o x y) = aadd o (amul (amul (aofQ (2 # 1)) y) sec).
Proof. exact @leap_alpha1. Qed.
Print Assumptions c29_alpha_one.

(** C30: three stages, any arithmetic, on any call. *)
Theorem c30_three_stages : forall {T : Type} {A : Arith T} {R : Registry}, forall {U} cfg (prog : icaller (T:=T) U) k0 u0 calls k u st dt s' diag new,
  new_rk 3 = Ok k0 -> after (ssp_rk cfg prog) calls (k0, u0) = (k, u) ->
  proper_components prog -> proper_state st -> ssp_rk cfg prog (k, u) st dt = (s', Ok (diag, new)) ->
  exists u1 u2 u3 tend1 tend2 tend3 diag1 diag2 diag3 st1 st15 st2 st25,
  prog u st dt = (u1, Ok (tend1, diag1)) /\ euler_step dt st tend1 st1 /\
  prog u1 st1 dt = (u2, Ok (tend2, diag2)) /\ euler_step dt st1 tend2 st15 /\
  combination (fun x y => aadd (amul (aofQ (3 # 4)) x) (amul (aofQ (1 # 4)) y)) st st15 st2 /\
  prog u2 st2 dt = (u3, Ok (tend3, diag3)) /\ euler_step dt st2 tend3 st25 /\
  combination (fun x y => aadd (amul (aofQ (1 # 3)) x) (amul (aofQ (2 # 3)) y)) st st25 new /\ snd s' = u3.
Proof. exact @main_rk3. Qed.
Print Assumptions c30_three_stages.

(** C30: two stages. *)
Theorem c30_two_stages : forall {T : Type} {A : Arith T} {R : Registry}, forall {U} cfg (prog : icaller (T:=T) U) k0 u0 calls k u st dt s' diag new,
  new_rk 2 = Ok k0 -> after (ssp_rk cfg prog) calls (k0, u0) = (k, u) ->
  proper_components prog -> proper_state st -> ssp_rk cfg prog (k, u) st dt = (s', Ok (diag, new)) ->
  exists u1 u2 tend1 tend2 diag1 diag2 st1 st2,
  prog u st dt = (u1, Ok (tend1, diag1)) /\ euler_step dt st tend1 st1 /\
  prog u1 st1 dt = (u2, Ok (tend2, diag2)) /\ euler_step dt st1 tend2 st2 /\
  combination (fun x y => amul (aofQ (1 # 2)) (aadd x y)) st st2 new /\ snd s' = u2.
Proof. exact @main_rk2. Qed.
Print Assumptions c30_two_stages.

(** Two successive calls of both schemes. *)
Example c30_hypotheses_met : forall tid z, z = 2%Z \/ z = 3%Z -> exists k0 k u s' diag new s'' diag2 new2,
  new_rk z = Ok k0 /\ ssp_rk (cfg_e tid) (ex_prog "kg" "g") (k0, 0) (st_e "kg" "g") 1000000 = (s', Ok (diag, new)) /\
  after (ssp_rk (cfg_e tid) (ex_prog "kg" "g")) [(st_e "kg" "g", 1000000%Z)] (k0, 0) = (k, u) /\
  ssp_rk (cfg_e tid) (ex_prog "kg" "g") (k, u) new 1000000 = (s'', Ok (diag2, new2)) /\
  proper_components (ex_prog "kg" "g") /\ proper_state (st_e "kg" "g") /\ proper_state new.
Proof. exact @ex_rk_run. Qed.

(** C31: a convex set of states that forward Euler steps do not leave. *)
Theorem c31_convex : forall {R : Registry}, forall {U} cfg (prog : icaller (T:=Qc) U) z k0 u0 calls k u (st : state Qc) dt s' diag new K,
  new_rk z = Ok k0 -> after (ssp_rk cfg prog) calls (k0, u0) = (k, u) ->
  proper_components prog -> proper_state st ->
  ssp_rk cfg prog (k, u) st dt = (s', Ok (diag, new)) ->
  convex_set K -> K st ->
  (forall u st u' tend diag st', prog u st dt = (u', Ok (tend, diag)) -> proper_state st -> euler_step dt st tend st' -> K st -> K st') ->
  K new.
Proof. exact @rk_convex. Qed.
Print Assumptions c31_convex.

(** C31: bounds on a quantity. *)
Theorem c31_bounds : forall {R : Registry}, forall {U} cfg (prog : icaller (T:=Qc) U) z k0 u0 calls k u st dt s' diag new X lo hi,
  new_rk z = Ok k0 -> after (ssp_rk cfg prog) calls (k0, u0) = (k, u) ->
  proper_components prog -> proper_state st -> ssp_rk cfg prog (k, u) st dt = (s', Ok (diag, new)) ->
  X <> "time" -> within X lo hi st ->
  (forall u st u' tend diag st', prog u st dt = (u', Ok (tend, diag)) -> proper_state st -> euler_step dt st tend st' ->
  within X lo hi st -> within X lo hi st') ->
  within X lo hi new.
Proof. exact @main_rk_bounds. Qed.
Print Assumptions c31_bounds.

(** Decay by a thousandth per second keeps T between its bounds for timesteps below 1000 s. *)
Example c31_hypotheses_met : forall ua ub dt hi u st u' tend diag st', (0 <= dt <= 1000000000)%Z ->
  ex_prog ua ub u st dt = (u', Ok (tend, diag)) -> euler_step dt st tend st' -> within "T" 0%Qc hi st -> within "T" 0%Qc hi st'.
Proof. exact @ex_decay. Qed.

(** C32: what has no tendency stays (AdamsBashforth); this includes the time. *)
Theorem c32_adams_bashforth : forall {T : Type} {A : Arith T} {R : Registry}, forall {U} cfg (prog : icaller (T:=T) U) dt o n a u log s, new_ab o = Ok a -> is_order o n ->
  history (adams_bashforth cfg prog) prog dt (a, u) log s ->
  forall pre e post, log = pre ++ e :: post -> forall X,
  (forall e', In e' (latest (Nat.min n (S (length pre))) pre e) -> ~ In X (keys (e_tend e'))) ->
  dget X (e_new e) = dget X (e_st e).
Proof. exact @main_ab_untouched. Qed.
Print Assumptions c32_adams_bashforth.

(** C32 for Leapfrog, which does not filter it either. *)
Theorem c32_leapfrog : forall {T : Type} {A : Arith T} {R : Registry}, forall {U} cfg (prog : icaller (T:=T) U) dt nu alpha u log s,
  lhistory cfg prog dt (new_leap nu alpha, u) log s -> wf_llog log ->
  forall e X, In e log -> ~ In X (keys (l_tend e)) ->
  dget X (l_after e) = dget X (l_st e) /\ dget X (l_new e) = dget X (l_st e).
Proof. exact @main_leap_untouched. Qed.
Print Assumptions c32_leapfrog.

(** C32 for SSPRungeKutta, in exact arithmetic. *)
Theorem c32_runge_kutta : forall {R : Registry}, forall {U} cfg (prog : icaller (T:=Qc) U) z k0 u0 calls k u st dt s' diag new X,
  new_rk z = Ok k0 -> after (ssp_rk cfg prog) calls (k0, u0) = (k, u) ->
  proper_components prog -> proper_state st -> ssp_rk cfg prog (k, u) st dt = (s', Ok (diag, new)) ->
  (forall u st u' tend diag, prog u st dt = (u', Ok (tend, diag)) -> ~ In X (keys tend)) ->
  dget X new = dget X st.
Proof. exact @main_rk_untouched. Qed.
Print Assumptions c32_runge_kutta.

(** C32 fails for SSPRungeKutta in binary64: 7/3 + 2*7/3 is not 7. *)
Theorem c32_runge_kutta_float_refuted : exists (prog : icaller (T:=float) unit) k st dt s' diag new X x r,
  new_rk 3 = Ok k /\ proper_state st /\ (forall u st dt, snd (prog u st dt) = Ok ([], [])) /\
  ssp_rk cfg_0 prog (k, tt) st dt = (s', Ok (diag, new)) /\
  dget X st = Some (VDA x) /\ dget X new = Some (VDA r) /\ dims x = [] /\ PrimFloat.eqb (da_at r (fun _ => 0)) (da_at x (fun _ => 0)) = false.
Proof. exact @untouched_changes. Qed.
Print Assumptions c32_runge_kutta_float_refuted.

(** C33: attrs kept, dims kept and extended by those of tendencies only. *)
Theorem c33_adams_bashforth : forall {T : Type} {A : Arith T} {R : Registry}, forall {U} cfg (prog : icaller (T:=T) U) dt o a u log s, new_ab o = Ok a ->
  history (adams_bashforth cfg prog) prog dt (a, u) log s -> wf_log log ->
  forall pre e post, log = pre ++ e :: post -> forall X,
  dget X (e_new e) = dget X (e_st e) \/
  exists x ts r, dget X (e_st e) = Some (VDA x) /\ dget X (e_new e) = Some (VDA r) /\ extends x ts r /\
  forall t, In t ts -> exists e' t0, In e' (pre ++ [e]) /\ dget X (e_tend e') = Some t0 /\ dims t = dims t0.
Proof. exact @main_ab_described. Qed.
Print Assumptions c33_adams_bashforth.

(** C33 for SSPRungeKutta, and C32: the time and the set of keys. *)
Theorem c33_runge_kutta : forall {T : Type} {A : Arith T} {R : Registry}, forall {U} cfg (prog : icaller (T:=T) U) z k0 u0 calls k u st dt s' diag new,
  new_rk z = Ok k0 -> after (ssp_rk cfg prog) calls (k0, u0) = (k, u) ->
  proper_components prog -> proper_state st -> ssp_rk cfg prog (k, u) st dt = (s', Ok (diag, new)) ->
  dget "time" new = dget "time" st /\
  forall X, X <> "time" ->
  match dget X st with
  | None => dget X new = None
  | Some (VTime _) => False
  | Some (VDA x) => exists r extra, dget X new = Some (VDA r) /\ wf_da r /\ attrs r = attrs x /\ dims r = dims x ++ extra /\
  forall d, In d extra -> exists u1 st1 u2 tend diag1 t, prog u1 st1 dt = (u2, Ok (tend, diag1)) /\
  dget X tend = Some t /\ In d (dims t)
  end.
Proof. exact @main_rk_described. Qed.
Print Assumptions c33_runge_kutta.

(** C33 for Leapfrog: the filtered state is described as the state given, the new
    state as the previous one. *)
Theorem c33_leapfrog : forall {T : Type} {A : Arith T} {R : Registry}, forall {U} cfg (prog : icaller (T:=T) U) dt nu alpha u log s,
  lhistory cfg prog dt (new_leap nu alpha, u) log s -> wf_llog log ->
  (forall e post X t, log = e :: post -> dget X (l_tend e) = Some t -> exists x r,
  dget X (l_st e) = Some (VDA x) /\ dget X (l_after e) = Some (VDA x) /\ dget X (l_new e) = Some (VDA r) /\ extends x [t] r) /\
  (forall pre p e post X t, log = pre ++ p :: e :: post -> dget X (l_tend e) = Some t -> exists o x x' r,
  dget X (l_after p) = Some (VDA o) /\ dget X (l_st e) = Some (VDA x) /\ dget X (l_after e) = Some (VDA x') /\
  dget X (l_new e) = Some (VDA r) /\ extends x [] x' /\ extends o [t] r).
Proof. exact @main_leap_described. Qed.
Print Assumptions c33_leapfrog.

(** C34: the step adds up physical amounts, whatever the units. *)
Theorem c34_physical : forall {R : Registry}, sane_registry R -> per_second_law R -> forall {U} cfg (prog : icaller (T:=Qc) U) dt o n a u log s, new_ab o = Ok a -> is_order o n ->
  history (adams_bashforth cfg prog) prog dt (a, u) log s -> wf_log log ->
  forall pre e post, log = pre ++ e :: post -> let k := Nat.min n (S (length pre)) in let es := latest k pre e in
  forall X, same_units X (map e_st es) -> (forall e', In e' es -> In X (keys (e_tend e'))) ->
  exists x ts r, dget X (e_st e) = Some (VDA x) /\ dget X (e_new e) = Some (VDA r) /\ tendencies_of es X ts /\ extends x ts r /\
  forall c b bs, in_grid r c -> amount x c = Some b -> Forall2 (fun t v => amount t c = Some v) ts bs ->
  amount r c = Some (b + Q2Qc (dt # 1000000) * dot (ab_weights k) bs)%Qc.
Proof. exact @main_ab_physical. Qed.
Print Assumptions c34_physical.

(** C34: two runs from physically equal states, each in its own units, with components
    that agree physically, stay physically equal. *)
Theorem c34_adams_bashforth : forall {R : Registry}, sane_registry R -> per_second_law R -> forall {U} cfg1 cfg2 (prog1 prog2 : icaller (T:=Qc) U) dt o a u ks log1 log2 a1 v1 a2 v2, new_ab o = Ok a ->
  (forall u st1 st2 u1 u2 tend1 tend2 diag1 diag2, alike_states st1 st2 ->
  prog1 u st1 dt = (u1, Ok (tend1, diag1)) -> prog2 u st2 dt = (u2, Ok (tend2, diag2)) ->
  u1 = u2 /\ alike_tendencies tend1 tend2 /\ forall X, In X (keys tend1) <-> In X ks) ->
  history (adams_bashforth cfg1 prog1) prog1 dt (a, u) log1 (a1, v1) -> wf_log log1 -> chained log1 ->
  history (adams_bashforth cfg2 prog2) prog2 dt (a, u) log2 (a2, v2) -> wf_log log2 -> chained log2 ->
  length log1 = length log2 ->
  (forall e1 e2 l1 l2, log1 = e1 :: l1 -> log2 = e2 :: l2 -> alike_states (e_st e1) (e_st e2)) ->
  Forall2 (fun e1 e2 => alike_states (e_st e1) (e_st e2) /\ alike_tendencies (e_tend e1) (e_tend e2) /\
  alike_states (e_new e1) (e_new e2)) log1 log2.
Proof. exact @main_ab_alike. Qed.
Print Assumptions c34_adams_bashforth.

(** C34 for SSPRungeKutta. *)
Theorem c34_runge_kutta : forall {R : Registry}, sane_registry R -> per_second_law R -> forall {U} cfg1 cfg2 (prog1 prog2 : icaller (T:=Qc) U) z k0 u01 u02 calls1 calls2 k1 k2 u (st1 st2 : state Qc) dt s1 s2 diag1 diag2 new1 new2,
  new_rk z = Ok k0 ->
  after (ssp_rk cfg1 prog1) calls1 (k0, u01) = (k1, u) -> after (ssp_rk cfg2 prog2) calls2 (k0, u02) = (k2, u) ->
  proper_components prog1 -> proper_components prog2 -> proper_state st1 -> proper_state st2 ->
  ssp_rk cfg1 prog1 (k1, u) st1 dt = (s1, Ok (diag1, new1)) -> ssp_rk cfg2 prog2 (k2, u) st2 dt = (s2, Ok (diag2, new2)) ->
  (forall u st1 st2 u1 u2 tend1 tend2 diag1 diag2, alike_states st1 st2 ->
  prog1 u st1 dt = (u1, Ok (tend1, diag1)) -> prog2 u st2 dt = (u2, Ok (tend2, diag2)) ->
  u1 = u2 /\ alike_tendencies tend1 tend2) ->
  alike_states st1 st2 -> alike_states new1 new2.
Proof. exact @rk_alike. Qed.
Print Assumptions c34_runge_kutta.

(** C34 for Leapfrog. *)
Theorem c34_leapfrog : forall {R : Registry}, sane_registry R -> per_second_law R -> forall {U} cfg1 cfg2 (prog1 prog2 : icaller (T:=Qc) U) dt (nu alpha : Qc) u log1 log2 a1 v1 a2 v2,
  (forall u st1 st2 u1 u2 tend1 tend2 diag1 diag2, alike_states st1 st2 ->
  prog1 u st1 dt = (u1, Ok (tend1, diag1)) -> prog2 u st2 dt = (u2, Ok (tend2, diag2)) ->
  u1 = u2 /\ alike_tendencies tend1 tend2) ->
  lhistory cfg1 prog1 dt (new_leap nu alpha, u) log1 (a1, v1) -> wf_llog log1 -> lchained log1 ->
  lhistory cfg2 prog2 dt (new_leap nu alpha, u) log2 (a2, v2) -> wf_llog log2 -> lchained log2 ->
  length log1 = length log2 ->
  (forall e1 e2 l1 l2, log1 = e1 :: l1 -> log2 = e2 :: l2 -> alike_states (l_st e1) (l_st e2)) ->
  Forall2 (fun e1 e2 => alike_states (l_st e1) (l_st e2) /\ alike_tendencies (l_tend e1) (l_tend e2) /\
  alike_states (l_after e1) (l_after e2) /\ alike_states (l_new e1) (l_new e2)) log1 log2.
Proof. exact @main_leap_alike. Qed.
Print Assumptions c34_leapfrog.

(** C34 fails when the units change between calls: units are mixed silently. *)
Theorem c34_unit_change_refuted : exists (prog : icaller (T:=Qc) nat) dt d1 d2 e1 e2 s1 s2,
  let call := adams_bashforth cfg_0 prog in
  history call prog dt (mkab 2 None [], 0) [d1; e1] s1 /\ history call prog dt (mkab 2 None [], 0) [d2; e2] s2 /\
  alike_states (e_st d1) (e_st d2) /\ alike_states (e_st e1) (e_st e2) /\
  alike_tendencies (e_tend d1) (e_tend d2) /\ alike_tendencies (e_tend e1) (e_tend e2) /\
  ~ alike_states (e_new e1) (e_new e2).
Proof. exact @ab_unit_change. Qed.
Print Assumptions c34_unit_change_refuted.

(** The same for Leapfrog (also C33: the new state has the units of the old one). *)
Theorem c34_leapfrog_unit_change_refuted : exists (prog : icaller (T:=Qc) nat) dt (nu alpha : Qc) d1 d2 e1 e2 s1 s2,
  lhistory cfg_0 prog dt (new_leap nu alpha, 0) [d1; e1] s1 /\ lhistory cfg_0 prog dt (new_leap nu alpha, 0) [d2; e2] s2 /\
  alike_states (l_st d1) (l_st d2) /\ alike_states (l_st e1) (l_st e2) /\
  alike_tendencies (l_tend d1) (l_tend d2) /\ alike_tendencies (l_tend e1) (l_tend e2) /\
  ~ alike_states (l_new e1) (l_new e2) /\
  exists x r, dget "w" (l_st e2) = Some (VDA x) /\ dget "w" (l_new e2) = Some (VDA r) /\ units_of x = Some "km" /\ units_of r = Some "m".
Proof. exact @leap_unit_change. Qed.
Print Assumptions c34_leapfrog_unit_change_refuted.

(** The example registry measures rates per second. *)
Example c34_registry_met : per_second_law ex_registry.
Proof. exact @ex_registry_per_second. Qed.

(** Two physically equal states in different units. *)
Example c34_states_met : alike_states (st_e "kg" "g") (st_e "g" "kg").
Proof. exact @ex_states_alike. Qed.

(** The example program agrees on them. *)
Example c34_program_met : forall dt u st1 st2 u1 u2 tend1 tend2 diag1 diag2, alike_states st1 st2 ->
  ex_prog "kg" "g" u st1 dt = (u1, Ok (tend1, diag1)) -> ex_prog "g" "kg" u st2 dt = (u2, Ok (tend2, diag2)) ->
  u1 = u2 /\ alike_tendencies tend1 tend2 /\ forall X, In X (keys tend1) <-> In X ["T"; "a"; "b"; "w"].
Proof. exact @ex_alike. Qed.

(** Its run in the other units, as long as that of c24_hypotheses_met. *)
Example c34_run_met : exists e0 log s,
  history (adams_bashforth (cfg_e false) (ex_prog "g" "kg")) (ex_prog "g" "kg") 1000000 (mkab 3 None [], 0) (e0 :: log) s /\
  wf_log (e0 :: log) /\ chained (e0 :: log) /\ length log = 4 /\ e_st e0 = st_e "g" "kg" /\
  forall e, In e (e0 :: log) -> keys (e_tend e) = ["T"; "a"; "b"; "w"].
Proof. exact @ex_ab_run'. Qed.

(** The same for Leapfrog. *)
Example c34_leapfrog_run_met : exists e0 log s,
  lhistory (cfg_e false) (ex_prog "g" "kg") 1000000 (new_leap nu_e half, 0) (e0 :: log) s /\
  wf_llog (e0 :: log) /\ lchained (e0 :: log) /\ length log = 4 /\ l_st e0 = st_e "g" "kg".
Proof. exact @ex_leap_run'. Qed.

(** C35: the diagnostics are those of the components and the finite differences. *)
Theorem c35_adams_bashforth : forall {T : Type} {A : Arith T} {R : Registry}, forall {U} cfg (prog : icaller (T:=T) U) dt o a u log s, new_ab o = Ok a ->
  history (adams_bashforth cfg prog) prog dt (a, u) log s -> wf_log log -> NoDup (keys (ts_out cfg)) ->
  forall pre e post, log = pre ++ e :: post -> exists u1 u2 pdiag,
  prog u1 (e_st e) dt = (u2, Ok (e_tend e, pdiag)) /\
  if ts_tid cfg then with_differences cfg dt (e_st e) (e_new e) pdiag (e_diag e) else e_diag e = pdiag.
Proof. exact @main_ab_diagnostics. Qed.
Print Assumptions c35_adams_bashforth.

(** C35 for SSPRungeKutta. *)
Theorem c35_runge_kutta : forall {T : Type} {A : Arith T} {R : Registry}, forall {U} cfg (prog : icaller (T:=T) U) z k0 u0 calls k u (st : state T) dt s' diag new,
  new_rk z = Ok k0 -> after (ssp_rk cfg prog) calls (k0, u0) = (k, u) ->
  proper_components prog -> proper_state st -> NoDup (keys (ts_out cfg)) ->
  ssp_rk cfg prog (k, u) st dt = (s', Ok (diag, new)) ->
  exists u1 tend pdiag, prog u st dt = (u1, Ok (tend, pdiag)) /\
  if ts_tid cfg then with_differences cfg dt st new pdiag diag else diag = pdiag.
Proof. exact @rk_diagnostics. Qed.
Print Assumptions c35_runge_kutta.

(** C35 for Leapfrog; the difference is to the filtered state. *)
Theorem c35_leapfrog : forall {T : Type} {A : Arith T} {R : Registry}, forall {U} cfg (prog : icaller (T:=T) U) dt nu alpha u log s,
  lhistory cfg prog dt (new_leap nu alpha, u) log s -> wf_llog log -> NoDup (keys (ts_out cfg)) ->
  forall pre e post, log = pre ++ e :: post -> exists u1 u2 pdiag,
  prog u1 (l_st e) dt = (u2, Ok (l_tend e, pdiag)) /\
  if ts_tid cfg then with_differences cfg dt (l_after e) (l_new e) pdiag (l_diag e) else l_diag e = pdiag.
Proof. exact @leap_diagnostics. Qed.
Print Assumptions c35_leapfrog.

(** C35: RuntimeError on a name clash. *)
Theorem c35_clash : forall {T : Type} {A : Arith T} {R : Registry}, forall cfg dt (st new : state T) pre X p post diag diag1, ts_out cfg = pre ++ (X, p) :: post ->
  foldM (insert_one cfg dt st new) pre diag = Ok diag1 -> In (tendency_name (ts_name cfg) X) (keys diag) ->
  insert_differences cfg dt st new diag = Err ERuntime.
Proof. exact @insert_clash. Qed.
Print Assumptions c35_clash.

(** C35: physically, the diagnostic times the timestep is the change. *)
Theorem c35_physical_rate : forall {R : Registry}, sane_registry R -> per_second_law R ->
  forall dt base (old new d : da Qc) c u vo vn, difference dt base old new d -> in_grid d c -> dt <> 0%Z ->
  amount d c = Some u -> amount old c = Some vo -> amount new c = Some vn ->
  (u * Q2Qc (dt # 1000000) = vn - vo)%Qc.
Proof. exact @difference_amount. Qed.
Print Assumptions c35_physical_rate.

(** C35: at order 1 it is the tendency of the components. *)
Theorem c35_euler : forall {R : Registry}, sane_registry R -> per_second_law R -> forall {U} cfg (prog : icaller (T:=Qc) U) dt o a u log s, new_ab o = Ok a -> is_order o 1 ->
  history (adams_bashforth cfg prog) prog dt (a, u) log s -> wf_log log -> NoDup (keys (ts_out cfg)) -> ts_tid cfg = true -> dt <> 0%Z ->
  forall e X t, In e log -> In X (keys (ts_out cfg)) -> dget X (e_tend e) = Some t ->
  exists x r d, dget X (e_st e) = Some (VDA x) /\ dget X (e_new e) = Some (VDA r) /\
  dget (tendency_name (ts_name cfg) X) (e_diag e) = Some d /\
  forall c w v b, in_grid d c -> in_grid r c -> amount x c = Some b -> amount t c = Some v -> amount d c = Some w -> w = v.
Proof. exact @main_euler_difference. Qed.
Print Assumptions c35_euler.

(** C35 fails for components whose units are not spelled as base units: such a stepper
    cannot be made. *)
Theorem c35_construction_refuted : exists cp, forall clean : string -> res string, clean "g s^-1 s" = Ok "kg" ->
  (exists cfg, make_tstep (fun l => l) clean empty_treg [(true, cp)] "step" false = Ok cfg) /\
  make_tstep (fun l => l) clean empty_treg [(true, cp)] "step" true = Err EInvalidProps.
Proof. exact @construction_refused. Qed.
Print Assumptions c35_construction_refuted.

(** A stepper made from properties, with and without tendencies in diagnostics. *)
Example c35_stepper_met : forall tid, make_tstep (fun l => l) ex_clean empty_treg [(true, cp_e)] "step" tid = Ok (cfg_e tid).
Proof. exact @ex_made. Qed.

(** C36: a weighted sum without tendency is conserved over any run. *)
Theorem c36_adams_bashforth : forall {R : Registry}, forall {U} cfg (prog : icaller (T:=Qc) U) dt o a u e0 log s, new_ab o = Ok a ->
  history (adams_bashforth cfg prog) prog dt (a, u) (e0 :: log) s -> wf_log (e0 :: log) -> chained (e0 :: log) ->
  forall terms, on_grid terms (e_st e0) ->
  (forall e, In e (e0 :: log) -> on_grid terms (e_st e) -> balanced terms (e_st e) (e_tend e)) ->
  forall e, In e (e0 :: log) -> total terms (e_st e) = total terms (e_st e0) /\ total terms (e_new e) = total terms (e_st e0).
Proof. exact @main_ab_conserved. Qed.
Print Assumptions c36_adams_bashforth.

(** C36 for SSPRungeKutta. *)
Theorem c36_runge_kutta : forall {R : Registry}, forall {U} cfg (prog : icaller (T:=Qc) U) z k0 u0 calls k u (st : state Qc) dt s' diag new terms,
  new_rk z = Ok k0 -> after (ssp_rk cfg prog) calls (k0, u0) = (k, u) ->
  proper_components prog -> proper_state st ->
  ssp_rk cfg prog (k, u) st dt = (s', Ok (diag, new)) ->
  (forall X c w, In (X, c, w) terms -> X <> "time") -> on_grid terms st ->
  (forall u st u' tend diag, prog u st dt = (u', Ok (tend, diag)) -> on_grid terms st -> balanced terms st tend) ->
  total terms new = total terms st /\ on_grid terms new.
Proof. exact @rk_conserved. Qed.
Print Assumptions c36_runge_kutta.

(** C36 for Leapfrog, including the filtered states. *)
Theorem c36_leapfrog : forall {R : Registry}, forall {U} cfg (prog : icaller (T:=Qc) U) dt nu alpha u e0 log s,
  lhistory cfg prog dt (new_leap nu alpha, u) (e0 :: log) s -> wf_llog (e0 :: log) -> lchained (e0 :: log) ->
  forall terms, on_grid terms (l_st e0) ->
  (forall e, In e (e0 :: log) -> on_grid terms (l_st e) -> balanced terms (l_st e) (l_tend e)) ->
  forall e, In e (e0 :: log) -> total terms (l_st e) = total terms (l_st e0) /\
  total terms (l_after e) = total terms (l_st e0) /\ total terms (l_new e) = total terms (l_st e0).
Proof. exact @leap_conserved. Qed.
Print Assumptions c36_leapfrog.

(** C36: zero tendencies change nothing. *)
Theorem c36_adams_bashforth_steady : forall {R : Registry}, forall {U} cfg (prog : icaller (T:=Qc) U) dt o a u e0 log s X, new_ab o = Ok a ->
  history (adams_bashforth cfg prog) prog dt (a, u) (e0 :: log) s -> wf_log (e0 :: log) -> chained (e0 :: log) ->
  (forall e, In e (e0 :: log) -> exists t, dget X (e_tend e) = Some t /\ no_change (e_st e) X t) ->
  forall e, In e (e0 :: log) -> dget X (e_st e) = dget X (e_st e0) /\ dget X (e_new e) = dget X (e_st e0).
Proof. exact @main_ab_steady. Qed.
Print Assumptions c36_adams_bashforth_steady.

(** C36: the same for SSPRungeKutta. *)
Theorem c36_runge_kutta_steady : forall {R : Registry}, forall {U} cfg (prog : icaller (T:=Qc) U) z k0 u0 calls k u (st : state Qc) dt s' diag new X,
  new_rk z = Ok k0 -> after (ssp_rk cfg prog) calls (k0, u0) = (k, u) ->
  proper_components prog -> proper_state st ->
  ssp_rk cfg prog (k, u) st dt = (s', Ok (diag, new)) ->
  (forall u st u' tend diag t, prog u st dt = (u', Ok (tend, diag)) -> dget X tend = Some t -> no_change st X t) ->
  dget X new = dget X st.
Proof. exact @rk_steady. Qed.
Print Assumptions c36_runge_kutta_steady.

(** C36: the same for Leapfrog. *)
Theorem c36_leapfrog_steady : forall {R : Registry}, forall {U} cfg (prog : icaller (T:=Qc) U) dt nu alpha u e0 log s X,
  lhistory cfg prog dt (new_leap nu alpha, u) (e0 :: log) s -> wf_llog (e0 :: log) -> lchained (e0 :: log) ->
  (forall e t, In e (e0 :: log) -> dget X (l_tend e) = Some t -> no_change (l_st e) X t) ->
  forall e, In e (e0 :: log) -> dget X (l_st e) = dget X (l_st e0) /\ dget X (l_after e) = dget X (l_st e0) /\
  dget X (l_new e) = dget X (l_st e0).
Proof. exact @main_leap_steady. Qed.
Print Assumptions c36_leapfrog_steady.

(** The example program moves mass from b to a. *)
Example c36_balance_met : forall c u st dt u' tend diag, ex_prog "kg" "g" u st dt = (u', Ok (tend, diag)) ->
  on_grid (ex_terms c) st -> balanced (ex_terms c) st tend.
Proof. exact @ex_balanced. Qed.

(** Its w has a zero tendency. *)
Example c36_steady_met : forall ua ub u st dt u' tend diag t, ex_prog ua ub u st dt = (u', Ok (tend, diag)) ->
  dget "w" tend = Some t -> no_change st "w" t.
Proof. exact @ex_no_change. Qed.

(** C38, what happens instead: a changed timestep is refused and changes nothing. *)
Theorem c38_changed_timestep_partial : forall {T : Type} {A : Arith T} {R : Registry}, forall {U} cfg (prog : icaller (T:=T) U) z k0 u0 st0 dt0 calls k u (st : state T) dt,
  new_rk z = Ok k0 -> after (ssp_rk cfg prog) ((st0, dt0) :: calls) (k0, u0) = (k, u) -> dt <> dt0 ->
  ssp_rk cfg prog (k, u) st dt = ((k, u), Err EValue).
Proof. exact @rk_refuses. Qed.
Print Assumptions c38_changed_timestep_partial.

(** C38 fails: a timestep fine for a new object is refused by a used one. *)
Theorem c38_any_timestep_refuted : exists (prog : icaller (T:=Qc) unit) k st dt dt' s' r r',
  new_rk 3 = Ok k /\ ssp_rk cfg_0 prog (k, tt) st dt = (s', Ok r) /\ snd (ssp_rk cfg_0 prog (k, tt) st dt') = Ok r' /\
  snd (ssp_rk cfg_0 prog s' st dt') = Err EValue.
Proof. exact @timestep_change_refused. Qed.
Print Assumptions c38_any_timestep_refuted.
