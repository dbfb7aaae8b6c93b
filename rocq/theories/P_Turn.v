(** Property theorems about states that are moved over the grid and rescaled (C101). *)
From Coq Require Import String List Bool Arith ZArith QArith Qcanon.
From Verif Require Import Prelude ArithM NdArray Units DataArrayM ExampleRegistry SpecArrays Tracers Components SpecComponents SpecCalls SpecColumns Composite Steppers MainLoop LeapLoop
  RegionFacts SpecTurn TurnMain Ex_Region Ex_Turn.
Import ListNotations.
Open Scope string_scope.
Open Scope nat_scope.
Open Scope list_scope.

#[local] Existing Instance ex_registry | 5.

(** C101: a main loop whose processes take turned states to turned states: the run from the turned state stores and ends with the turned states of the other run. *)
Theorem c101_run : forall {R : Registry} (g : turn), forall {W W'} (same : W -> W' -> Prop) ps ps' (store : W -> state Qc -> W * res unit) (store' : W' -> state Qc -> W' * res unit),
  Forall2 (turning_step g same) ps ps' ->
  (forall u v st st' u' v', same u v -> turned_record g st st' -> store u st = (u', Ok tt) -> store' v st' = (v', Ok tt) -> same u' v') ->
  forall n stop dt w w' st st' w1 w1' log log' e e', same w w' -> turned_state g st st' ->
  main_loop n ps store stop dt w st = ((w1, log), Some (Ok e)) -> main_loop n ps' store' stop dt w' st' = ((w1', log'), Some (Ok e')) ->
  Forall2 (turned_record g) log log' /\ turned_state g e e'.
Proof. exact @turn_loop. Qed.
Print Assumptions c101_run.

(** C101: so with AdamsBashforth of every order, whatever the monitors are. *)
Theorem c101_adams_bashforth : forall {R : Registry} (g : turn) {U V} (same : U -> V -> Prop) (p : icaller (T:=Qc) U) (q : icaller (T:=Qc) V), turning g same p q -> forall {M N} (mon : M -> state Qc -> M * res unit) (mon' : N -> state Qc -> N * res unit) cfg o a0 u v, factors_fit g cfg -> new_ab (T:=Qc) o = Ok a0 -> same u v ->
  forall n stop dt m m' st st' w w' log log' e e', turned_state g st st' ->
  main_loop n [beside (adams_bashforth cfg p)] (fun w st => let (m1, r) := mon (fst w) st in ((m1, snd w), r)) stop dt (m, (a0, u)) st = ((w, log), Some (Ok e)) ->
  main_loop n [beside (adams_bashforth cfg q)] (fun w st => let (m1, r) := mon' (fst w) st in ((m1, snd w), r)) stop dt (m', (a0, v)) st' = ((w', log'), Some (Ok e')) ->
  Forall2 (turned_record g) log log' /\ turned_state g e e'.
Proof. exact @turn_ab_loop. Qed.
Print Assumptions c101_adams_bashforth.

(** C101: so with SSPRungeKutta. *)
Theorem c101_runge_kutta : forall {R : Registry} (g : turn) {U V} (same : U -> V -> Prop) (p : icaller (T:=Qc) U) (q : icaller (T:=Qc) V), turning g same p q -> forall {M N} (mon : M -> state Qc -> M * res unit) (mon' : N -> state Qc -> N * res unit) cfg z k0 u v, factors_fit g cfg -> new_rk (T:=Qc) z = Ok k0 -> same u v ->
  forall n stop dt m m' st st' w w' log log' e e', turned_state g st st' ->
  main_loop n [beside (ssp_rk cfg p)] (fun w st => let (m1, r) := mon (fst w) st in ((m1, snd w), r)) stop dt (m, (k0, u)) st = ((w, log), Some (Ok e)) ->
  main_loop n [beside (ssp_rk cfg q)] (fun w st => let (m1, r) := mon' (fst w) st in ((m1, snd w), r)) stop dt (m', (k0, v)) st' = ((w', log'), Some (Ok e')) ->
  Forall2 (turned_record g) log log' /\ turned_state g e e'.
Proof. exact @turn_rk_loop. Qed.
Print Assumptions c101_runge_kutta.

(** C101: so with Leapfrog, whose filter corrects the stored states of the step before, and any processes after it. *)
Theorem c101_leapfrog : forall {R : Registry} (g : turn) {U V} (same : U -> V -> Prop) (p : icaller (T:=Qc) U) (q : icaller (T:=Qc) V), turning g same p q -> forall {W W'} (rest : W -> W' -> Prop) qs qs' (store : W -> state Qc -> W * res unit) (store' : W' -> state Qc -> W' * res unit) cfg nu alpha, factors_fit g cfg ->
  Forall2 (turning_step g rest) qs qs' ->
  (forall u v st st' u' v', rest u v -> turned_record g st st' -> store u st = (u', Ok tt) -> store' v st' = (v', Ok tt) -> rest u' v') ->
  forall n stop dt u u' w w' st st' s1 s1' w1 w1' log log' e e', same u u' -> rest w w' -> turned_state g st st' ->
  leap_main_loop n cfg p qs store stop dt (new_leap nu alpha, u) w st = ((s1, w1, log), Some (Ok e)) ->
  leap_main_loop n cfg q qs' store' stop dt (new_leap nu alpha, u') w' st' = ((s1', w1', log'), Some (Ok e')) ->
  Forall2 (turned_record g) log log' /\ turned_state g e e'.
Proof. exact @turn_leap_loop. Qed.
Print Assumptions c101_leapfrog.

(** C101: composites of components that take turned states to turned outputs do so. *)
Theorem c101_composite : forall {R : Registry} (g : turn), forall {U V} (same : U -> V -> Prop) (cs : list (icaller (T:=Qc) U + caller (T:=Qc) U)) (cs' : list (icaller (T:=Qc) V + caller (T:=Qc) V)),
  Forall2 (fun c c' => match c, c' with
  | inl p, inl q => turning g same p q
  | inr p, inr q => turning g same (fun u st _ => p u st) (fun v st _ => q v st)
  | _, _ => False
  end) cs cs' ->
  turning g same (fun u st dt => implicit_composite_call cs dt u st) (fun v st dt => implicit_composite_call cs' dt v st).
Proof. exact @turn_composite. Qed.
Print Assumptions c101_composite.

(** C101: a run from a state that turns into itself stores and ends with such states. *)
Theorem c101_balanced_run : forall {R : Registry} (g : turn), forall {W} ps (store : W -> state Qc -> W * res unit), Forall (fun p => turning_step g eq p p) ps ->
  (forall w w' st st', turned_record g st st' -> store w st = (w', Ok tt) -> store w st' = (w', Ok tt)) ->
  forall n stop dt w st w1 log e, fit_state g st -> balanced g st -> main_loop n ps store stop dt w st = ((w1, log), Some (Ok e)) ->
  forall S, In S (log ++ [e]) -> balanced g S.
Proof. exact @balanced_loop. Qed.
Print Assumptions c101_balanced_run.

(** C101: so with AdamsBashforth. *)
Theorem c101_balanced_adams_bashforth : forall {R : Registry} (g : turn) {U} (p : icaller (T:=Qc) U), turning g eq p p -> forall {M} (mon : M -> state Qc -> M * res unit) cfg o a0 u, factors_fit g cfg -> new_ab (T:=Qc) o = Ok a0 ->
  forall n stop dt m st w log e, fit_state g st -> balanced g st ->
  main_loop n [beside (adams_bashforth cfg p)] (fun w st => let (m1, r) := mon (fst w) st in ((m1, snd w), r)) stop dt (m, (a0, u)) st = ((w, log), Some (Ok e)) ->
  forall S, In S (log ++ [e]) -> balanced g S.
Proof. exact @balanced_ab_loop. Qed.
Print Assumptions c101_balanced_adams_bashforth.

(** C101: so with SSPRungeKutta. *)
Theorem c101_balanced_runge_kutta : forall {R : Registry} (g : turn) {U} (p : icaller (T:=Qc) U), turning g eq p p -> forall {M} (mon : M -> state Qc -> M * res unit) cfg z k0 u, factors_fit g cfg -> new_rk (T:=Qc) z = Ok k0 ->
  forall n stop dt m st w log e, fit_state g st -> balanced g st ->
  main_loop n [beside (ssp_rk cfg p)] (fun w st => let (m1, r) := mon (fst w) st in ((m1, snd w), r)) stop dt (m, (k0, u)) st = ((w, log), Some (Ok e)) ->
  forall S, In S (log ++ [e]) -> balanced g S.
Proof. exact @balanced_rk_loop. Qed.
Print Assumptions c101_balanced_runge_kutta.

(** C101: so with Leapfrog. *)
Theorem c101_balanced_leapfrog : forall {R : Registry} (g : turn) {U} (p : icaller (T:=Qc) U), turning g eq p p -> forall {W} qs (store : W -> state Qc -> W * res unit) cfg nu alpha, factors_fit g cfg -> Forall (fun q => turning_step g eq q q) qs ->
  (forall w w' st st', turned_record g st st' -> store w st = (w', Ok tt) -> store w st' = (w', Ok tt)) ->
  forall n stop dt u w st s1 w1 log e, fit_state g st -> balanced g st ->
  leap_main_loop n cfg p qs store stop dt (new_leap nu alpha, u) w st = ((s1, w1, log), Some (Ok e)) ->
  forall S, In S (log ++ [e]) -> balanced g S.
Proof. exact @balanced_leap_loop. Qed.
Print Assumptions c101_balanced_leapfrog.

(** A reflection that changes the sign of the wind, a component with cubic drag, and a state that turns into itself. *)
Example c101_setting : turning g_t eq prog_t prog_t /\ factors_fit g_t cfg_t /\ fit_state g_t st_t /\ balanced g_t st_t.
Proof. exact @t_setting. Qed.

(** Three steps of AdamsBashforth of order 3 from it. *)
Example c101_adams_bashforth_case : exists w log e, length log = 3 /\
  main_loop 4 [beside (adams_bashforth cfg_t prog_t)] (fun w st => let (m1, r) := mon_r (fst w) st in ((m1, snd w), r)) (3 * sec_r) sec_r (0, (mkab 3 None [], 0)) st_t = ((w, log), Some (Ok e)).
Proof. exact @t_ab_case. Qed.

(** Three steps of SSPRungeKutta with two stages from it. *)
Example c101_runge_kutta_case : exists w log e, length log = 3 /\
  main_loop 4 [beside (ssp_rk cfg_t prog_t)] (fun w st => let (m1, r) := mon_r (fst w) st in ((m1, snd w), r)) (3 * sec_r) sec_r (0, (mkrk 2 (mkab 1 None []), 0)) st_t = ((w, log), Some (Ok e)).
Proof. exact @t_rk_case. Qed.

(** Three steps of Leapfrog from it. *)
Example c101_leapfrog_case : exists s1 w1 log e, length log = 3 /\
  leap_main_loop 4 cfg_t prog_t [] mon_r (3 * sec_r) sec_r (new_leap (Q2Qc (1 # 20)) (Q2Qc (1 # 2)), 0) 0 st_t = ((s1, w1, log), Some (Ok e)).
Proof. exact @t_leap_case. Qed.

(** Linear drag from a state and from its double: both runs return, and the second is the double of the first. *)
Example c101_double_case : turning g_d eq prog_d prog_d /\ factors_fit g_d cfg_t /\ turned_state g_d st_n st_2 /\
  exists w w' log log' e e', length log = 3 /\
  main_loop 4 [beside (adams_bashforth cfg_t prog_d)] (fun w st => let (m1, r) := mon_r (fst w) st in ((m1, snd w), r)) (3 * sec_r) sec_r (0, (mkab 3 None [], 0)) st_n = ((w, log), Some (Ok e)) /\
  main_loop 4 [beside (adams_bashforth cfg_t prog_d)] (fun w st => let (m1, r) := mon_r (fst w) st in ((m1, snd w), r)) (3 * sec_r) sec_r (0, (mkab 3 None [], 0)) st_2 = ((w', log'), Some (Ok e')) /\
  Forall2 (turned_record g_d) log log' /\ turned_state g_d e e'.
Proof. exact @d_case. Qed.
