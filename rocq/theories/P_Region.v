(** Property theorems about running part of a grid (C98). *)
From Coq Require Import String List Bool Arith ZArith QArith Qcanon.
From Verif Require Import Prelude ArithM NdArray Units DataArrayM ExampleRegistry SpecArrays Tracers Components SpecComponents SpecCalls SpecColumns Composite Steppers MainLoop LeapLoop
  SpecRegion RegionMain RegionCalls Ex_Region.
Import ListNotations.
Open Scope string_scope.
Open Scope nat_scope.
Open Scope list_scope.

#[local] Existing Instance ex_registry | 5.

(** C98: a TendencyComponent or ImplicitTendencyComponent that works column by column, called on part of the grid, returns the part of what it returns on the whole. *)
Theorem c98_component : forall {T} {A : Arith T} {R : Registry} (g : cut), whole_kept g -> forall {U} tg c (ac : U -> dict (rval T) -> Z -> U * res (dict (nd T) * dict (nd T))),
  t_packer c = None -> proper_inputs (t_inp c) ->
  NoDup (keys (t_tend c)) -> stars_ok (t_tend c) (t_inp c) -> NoDup (keys (t_diag c)) -> stars_ok (t_diag c) (t_inp c) ->
  column_physics g (t_inp c) (t_tend c) -> may_output g (t_inp c) (t_tend c) -> ~ In "time" (keys (t_tend c)) -> column_physics g (t_inp c) (t_diag c) ->
  (forall u dt, columnwise (t_inp c) (t_tend c) (fun raw out => exists v d, ac u raw dt = (v, Ok (out, d)))) ->
  (forall u dt, columnwise (t_inp c) (t_diag c) (fun raw out => exists v t, ac u raw dt = (v, Ok (t, out)))) ->
  (forall u raw dt v t d, ac u raw dt = (v, Ok (t, d)) -> forall k a, In (k, a) t \/ In (k, a) d -> wf_nd a) ->
  (forall u raw raw' dt, fst (ac u raw dt) = fst (ac u raw' dt)) ->
  local g eq (fun u st dt => tendency_call tg c (fun u raw => ac u raw dt) u st) (fun u st dt => tendency_call tg c (fun u raw => ac u raw dt) u st).
Proof. exact @region_component. Qed.
Print Assumptions c98_component.

(** C98: so does a Stepper that works column by column, in its diagnostics and its new state. *)
Theorem c98_stepper : forall {T} {A : Arith T} {R : Registry} (g : cut), whole_kept g -> forall {U} tg c (ac : U -> dict (rval T) -> Z -> U * res (dict (nd T) * dict (nd T))),
  s_packer c = None -> s_tid c = false -> proper_inputs (s_inp c) ->
  NoDup (keys (s_out c)) -> stars_ok (s_out c) (s_inp c) -> NoDup (keys (s_diag c)) -> stars_ok (s_diag c) (s_inp c) ->
  column_physics g (s_inp c) (s_out c) -> may_output g (s_inp c) (s_out c) -> ~ In "time" (keys (s_out c)) -> column_physics g (s_inp c) (s_diag c) ->
  (forall u dt, columnwise (s_inp c) (s_out c) (fun raw out => exists v d, ac u raw dt = (v, Ok (d, out)))) ->
  (forall u dt, columnwise (s_inp c) (s_diag c) (fun raw out => exists v n, ac u raw dt = (v, Ok (out, n)))) ->
  (forall u raw dt v d n, ac u raw dt = (v, Ok (d, n)) -> forall k a, In (k, a) d \/ In (k, a) n -> wf_nd a) ->
  (forall u raw raw' dt, fst (ac u raw dt) = fst (ac u raw' dt)) ->
  local_step g eq (stepper_process tg c ac) (stepper_process tg c ac).
Proof. exact @region_stepper. Qed.
Print Assumptions c98_stepper.

(** C98: so does a composite of such components. *)
Theorem c98_composite : forall {T} {A : Arith T} {R : Registry} (g : cut), forall {U V} (same : U -> V -> Prop) (cs : list (icaller (T:=T) U + caller (T:=T) U)) (cs' : list (icaller (T:=T) V + caller (T:=T) V)),
  Forall2 (fun c c' => match c, c' with
  | inl p, inl q => local g same p q
  | inr p, inr q => local_call g same p q
  | _, _ => False
  end) cs cs' ->
  local g same (fun u st dt => implicit_composite_call cs dt u st) (fun v st dt => implicit_composite_call cs' dt v st).
Proof. exact @region_composite. Qed.
Print Assumptions c98_composite.

(** A component with profiles and a column sum meets the conditions. *)
Example c98_component_case : whole_kept g_r /\
  t_packer c_r = None /\ proper_inputs (t_inp c_r) /\
  NoDup (keys (t_tend c_r)) /\ stars_ok (t_tend c_r) (t_inp c_r) /\ NoDup (keys (t_diag c_r)) /\ stars_ok (t_diag c_r) (t_inp c_r) /\
  column_physics g_r (t_inp c_r) (t_tend c_r) /\ may_output g_r (t_inp c_r) (t_tend c_r) /\ ~ In "time" (keys (t_tend c_r)) /\ column_physics g_r (t_inp c_r) (t_diag c_r) /\
  (forall u dt, columnwise (t_inp c_r) (t_tend c_r) (fun raw out => exists v d, ac_r u raw dt = (v, Ok (out, d)))) /\
  (forall u dt, columnwise (t_inp c_r) (t_diag c_r) (fun raw out => exists v t, ac_r u raw dt = (v, Ok (t, out)))) /\
  (forall u raw dt v t d, ac_r u raw dt = (v, Ok (t, d)) -> forall k a, In (k, a) t \/ In (k, a) d -> wf_nd a) /\
  (forall u raw raw' dt, fst (ac_r u raw dt) = fst (ac_r u raw' dt)).
Proof. exact @r_setting. Qed.

(** A Stepper of the same kind, with a call on the whole and one on the part. *)
Example c98_stepper_case : whole_kept g_r /\
  s_packer s_r = None /\ s_tid s_r = false /\ proper_inputs (s_inp s_r) /\
  NoDup (keys (s_out s_r)) /\ stars_ok (s_out s_r) (s_inp s_r) /\ NoDup (keys (s_diag s_r)) /\ stars_ok (s_diag s_r) (s_inp s_r) /\
  column_physics g_r (s_inp s_r) (s_out s_r) /\ may_output g_r (s_inp s_r) (s_out s_r) /\ ~ In "time" (keys (s_out s_r)) /\ column_physics g_r (s_inp s_r) (s_diag s_r) /\
  (forall u dt, columnwise (s_inp s_r) (s_out s_r) (fun raw out => exists v d, ac_rs u raw dt = (v, Ok (d, out)))) /\
  (forall u dt, columnwise (s_inp s_r) (s_diag s_r) (fun raw out => exists v n, ac_rs u raw dt = (v, Ok (out, n)))) /\
  (forall u raw dt v d n, ac_rs u raw dt = (v, Ok (d, n)) -> forall k a, In (k, a) d \/ In (k, a) n -> wf_nd a) /\
  (forall u raw raw' dt, fst (ac_rs u raw dt) = fst (ac_rs u raw' dt)) /\
  (exists u' d n, stepper_process empty_treg s_r ac_rs 0 st_r sec_r = (u', Ok (d, n))) /\ (exists u' d n, stepper_process empty_treg s_r ac_rs 0 st_p sec_r = (u', Ok (d, n))).
Proof. exact @s_setting. Qed.

(** A composite of two such components. *)
Example c98_composite_case : Forall2 (fun c c' => match c, c' with
  | inl p, inl q => local g_r eq p q
  | inr p, inr q => local_call g_r eq p q
  | _, _ => False
  end) both_r both_r.
Proof. exact @both_local. Qed.

(** C98: any calls of an AdamsBashforth object on the part return the part of what the same calls on the whole return, diagnostics and new states alike. *)
Theorem c98_adams_bashforth : forall {T} {A : Arith T} {R : Registry} (g : cut) {U V} (same : U -> V -> Prop) (p : icaller (T:=T) U) (q : icaller (T:=T) V), local g same p q -> forall cfg o a0 u v log log', new_ab (T:=T) o = Ok a0 -> same u v ->
  returned (adams_bashforth cfg p) (a0, u) log -> returned (adams_bashforth cfg q) (a0, v) log' ->
  Forall2 (fun x y => part_state g (fst (fst x)) (fst (fst y)) /\ snd (fst x) = snd (fst y)) log log' ->
  Forall2 (fun x y => part_diags g (fst (snd x)) (fst (snd y)) /\ part_state g (snd (snd x)) (snd (snd y))) log log'.
Proof. exact @region_ab. Qed.
Print Assumptions c98_adams_bashforth.

(** C98: so for SSPRungeKutta. *)
Theorem c98_runge_kutta : forall {T} {A : Arith T} {R : Registry} (g : cut) {U V} (same : U -> V -> Prop) (p : icaller (T:=T) U) (q : icaller (T:=T) V), local g same p q -> forall cfg z k0 u v log log', new_rk (T:=T) z = Ok k0 -> same u v ->
  returned (ssp_rk cfg p) (k0, u) log -> returned (ssp_rk cfg q) (k0, v) log' ->
  Forall2 (fun x y => part_state g (fst (fst x)) (fst (fst y)) /\ snd (fst x) = snd (fst y)) log log' ->
  Forall2 (fun x y => part_diags g (fst (snd x)) (fst (snd y)) /\ part_state g (snd (snd x)) (snd (snd y))) log log'.
Proof. exact @region_rk. Qed.
Print Assumptions c98_runge_kutta.

(** C98: so for Leapfrog, and for the states it filters. *)
Theorem c98_leapfrog : forall {T} {A : Arith T} {R : Registry} (g : cut) {U V} (same : U -> V -> Prop) (p : icaller (T:=T) U) (q : icaller (T:=T) V), local g same p q -> forall cfg nu alpha u v log log', same u v ->
  returned (with_filtered cfg p) (new_leap nu alpha, u) log -> returned (with_filtered cfg q) (new_leap nu alpha, v) log' ->
  Forall2 (fun x y => part_state g (fst (fst x)) (fst (fst y)) /\ snd (fst x) = snd (fst y)) log log' ->
  Forall2 (fun x y => part_state g (fst (snd x)) (fst (snd y)) /\
  part_diags g (fst (snd (snd x))) (fst (snd (snd y))) /\ part_state g (snd (snd (snd x))) (snd (snd (snd y)))) log log'.
Proof. exact @region_leap. Qed.
Print Assumptions c98_leapfrog.

(** A state on a 2 by 3 grid, and the same at two of its columns. *)
Example c98_part : part_state g_r st_r st_p.
Proof. exact @r_part. Qed.

(** Two calls on each, at order 2. *)
Example c98_adams_bashforth_case : exists a0 log log', new_ab (T:=Qc) (OInt 2) = Ok a0 /\ returned (adams_bashforth cfg_r prog2_r) (a0, 0) log /\ returned (adams_bashforth cfg_r prog2_r) (a0, 0) log' /\ length log = 2 /\
  Forall2 (fun x y => part_state g_r (fst (fst x)) (fst (fst y)) /\ snd (fst x) = snd (fst y)) log log'.
Proof. exact @r_ab_case. Qed.

(** Two calls on each, with three stages. *)
Example c98_runge_kutta_case : exists k0 log log', new_rk (T:=Qc) 3 = Ok k0 /\ returned (ssp_rk cfg_r prog2_r) (k0, 0) log /\ returned (ssp_rk cfg_r prog2_r) (k0, 0) log' /\ length log = 2 /\
  Forall2 (fun x y => part_state g_r (fst (fst x)) (fst (fst y)) /\ snd (fst x) = snd (fst y)) log log'.
Proof. exact @r_rk_case. Qed.

(** Two calls on each, with the default filter. *)
Example c98_leapfrog_case : exists log log', returned (with_filtered cfg_r prog2_r) (new_leap (Q2Qc (1 # 20)) (Q2Qc (1 # 2)), 0) log /\
  returned (with_filtered cfg_r prog2_r) (new_leap (Q2Qc (1 # 20)) (Q2Qc (1 # 2)), 0) log' /\ length log = 2 /\
  Forall2 (fun x y => part_state g_r (fst (fst x)) (fst (fst y)) /\ snd (fst x) = snd (fst y)) log log'.
Proof. exact @r_leap_case. Qed.

(** C98: a main loop on the part stores and ends with the part of what the main loop on the whole stores and ends with, whatever the monitors are. *)
Theorem c98_adams_bashforth_run : forall {T} {A : Arith T} {R : Registry} (g : cut) {U V} (same : U -> V -> Prop) (p : icaller (T:=T) U) (q : icaller (T:=T) V), local g same p q -> forall {M N} (mon : M -> state T -> M * res unit) (mon' : N -> state T -> N * res unit) cfg o a0 u v, new_ab (T:=T) o = Ok a0 -> same u v ->
  forall n stop dt m m' st st' w w' log log' e e', part_state g st st' ->
  main_loop n [beside (adams_bashforth cfg p)] (fun w st => let (m1, r) := mon (fst w) st in ((m1, snd w), r)) stop dt (m, (a0, u)) st = ((w, log), Some (Ok e)) ->
  main_loop n [beside (adams_bashforth cfg q)] (fun w st => let (m1, r) := mon' (fst w) st in ((m1, snd w), r)) stop dt (m', (a0, v)) st' = ((w', log'), Some (Ok e')) ->
  Forall2 (part_record g) log log' /\ part_state g e e'.
Proof. exact @region_ab_loop. Qed.
Print Assumptions c98_adams_bashforth_run.

(** C98: so with SSPRungeKutta. *)
Theorem c98_runge_kutta_run : forall {T} {A : Arith T} {R : Registry} (g : cut) {U V} (same : U -> V -> Prop) (p : icaller (T:=T) U) (q : icaller (T:=T) V), local g same p q -> forall {M N} (mon : M -> state T -> M * res unit) (mon' : N -> state T -> N * res unit) cfg z k0 u v, new_rk (T:=T) z = Ok k0 -> same u v ->
  forall n stop dt m m' st st' w w' log log' e e', part_state g st st' ->
  main_loop n [beside (ssp_rk cfg p)] (fun w st => let (m1, r) := mon (fst w) st in ((m1, snd w), r)) stop dt (m, (k0, u)) st = ((w, log), Some (Ok e)) ->
  main_loop n [beside (ssp_rk cfg q)] (fun w st => let (m1, r) := mon' (fst w) st in ((m1, snd w), r)) stop dt (m', (k0, v)) st' = ((w', log'), Some (Ok e')) ->
  Forall2 (part_record g) log log' /\ part_state g e e'.
Proof. exact @region_rk_loop. Qed.
Print Assumptions c98_runge_kutta_run.

(** C98: so with Leapfrog, whose filter corrects the stored states of the step before. *)
Theorem c98_leapfrog_run : forall {T} {A : Arith T} {R : Registry} (g : cut), forall {U V W W'} (same : U -> V -> Prop) (rest : W -> W' -> Prop) (p : icaller (T:=T) U) (q : icaller (T:=T) V) qs qs'
  (store : W -> state T -> W * res unit) (store' : W' -> state T -> W' * res unit) cfg nu alpha,
  local g same p q -> Forall2 (local_step g rest) qs qs' ->
  (forall u v st st' u' v', rest u v -> part_record g st st' -> store u st = (u', Ok tt) -> store' v st' = (v', Ok tt) -> rest u' v') ->
  forall n stop dt u u' w w' st st' s1 s1' w1 w1' log log' e e', same u u' -> rest w w' -> part_state g st st' ->
  leap_main_loop n cfg p qs store stop dt (new_leap nu alpha, u) w st = ((s1, w1, log), Some (Ok e)) ->
  leap_main_loop n cfg q qs' store' stop dt (new_leap nu alpha, u') w' st' = ((s1', w1', log'), Some (Ok e')) ->
  Forall2 (part_record g) log log' /\ part_state g e e'.
Proof. exact @region_leap_loop. Qed.
Print Assumptions c98_leapfrog_run.

(** C98: so with any processes that act in this way. *)
Theorem c98_run : forall {T} {A : Arith T} (g : cut), forall {W W'} (same : W -> W' -> Prop) ps ps' (store : W -> state T -> W * res unit) (store' : W' -> state T -> W' * res unit),
  Forall2 (local_step g same) ps ps' ->
  (forall u v st st' u' v', same u v -> part_record g st st' -> store u st = (u', Ok tt) -> store' v st' = (v', Ok tt) -> same u' v') ->
  forall n stop dt w w' st st' w1 w1' log log' e e', same w w' -> part_state g st st' ->
  main_loop n ps store stop dt w st = ((w1, log), Some (Ok e)) -> main_loop n ps' store' stop dt w' st' = ((w1', log'), Some (Ok e')) ->
  Forall2 (part_record g) log log' /\ part_state g e e'.
Proof. exact @region_loop. Qed.
Print Assumptions c98_run.

(** Three steps on each. *)
Example c98_adams_bashforth_run_case : exists a0 w log e w' log' e', new_ab (T:=Qc) (OInt 2) = Ok a0 /\ part_state g_r st_r st_p /\ length log = 3 /\
  main_loop 4 [beside (adams_bashforth cfg_r prog2_r)] (fun w st => let (m1, r) := mon_r (fst w) st in ((m1, snd w), r)) (3 * sec_r) sec_r (0, (a0, 0)) st_r = ((w, log), Some (Ok e)) /\
  main_loop 4 [beside (adams_bashforth cfg_r prog2_r)] (fun w st => let (m1, r) := mon_p (fst w) st in ((m1, snd w), r)) (3 * sec_r) sec_r (tt, (a0, 0)) st_p = ((w', log'), Some (Ok e')).
Proof. exact @r_ab_loop_case. Qed.

(** Three steps on each, with two stages. *)
Example c98_runge_kutta_run_case : exists k0 w log e w' log' e', new_rk (T:=Qc) 2 = Ok k0 /\ part_state g_r st_r st_p /\ length log = 3 /\
  main_loop 4 [beside (ssp_rk cfg_r prog2_r)] (fun w st => let (m1, r) := mon_r (fst w) st in ((m1, snd w), r)) (3 * sec_r) sec_r (0, (k0, 0)) st_r = ((w, log), Some (Ok e)) /\
  main_loop 4 [beside (ssp_rk cfg_r prog2_r)] (fun w st => let (m1, r) := mon_p (fst w) st in ((m1, snd w), r)) (3 * sec_r) sec_r (tt, (k0, 0)) st_p = ((w', log'), Some (Ok e')).
Proof. exact @r_rk_loop_case. Qed.

(** Three steps on each, with the default filter. *)
Example c98_leapfrog_run_case : exists s1 w1 log e s1' w1' log' e', part_state g_r st_r st_p /\ length log = 3 /\
  leap_main_loop 4 cfg_r prog2_r [] mon_r (3 * sec_r) sec_r (new_leap (Q2Qc (1 # 20)) (Q2Qc (1 # 2)), 0) 0 st_r = ((s1, w1, log), Some (Ok e)) /\
  leap_main_loop 4 cfg_r prog2_r [] mon_p (3 * sec_r) sec_r (new_leap (Q2Qc (1 # 20)) (Q2Qc (1 # 2)), 0) tt st_p = ((s1', w1', log'), Some (Ok e')).
Proof. exact @r_leap_loop_case. Qed.

(** One column of the grid as a state without horizontal dims. *)
Example c98_single_column : part_state g_1 st_r st_1 /\ map (fun kv => dims_of (snd kv)) st_1 = [[]; ["z"]; []].
Proof. exact @column_part. Qed.

(** The components of the cases above, for that column. *)
Example c98_single_column_components : whole_kept g_1 /\ local g_1 eq prog_r prog_r /\ local g_1 eq prog2_r prog2_r.
Proof. exact @column_local. Qed.

(** Three steps with three stages on the grid and on the column alone, compared by the theorem. *)
Example c98_single_column_run : exists w log e w' log' e', length log = 3 /\
  main_loop 4 [beside (ssp_rk cfg_1 prog2_r)] (fun w st => let (m1, r) := mon_r (fst w) st in ((m1, snd w), r)) (3 * sec_r) sec_r (0, (mkrk 3 (mkab 1 None []), 0)) st_r = ((w, log), Some (Ok e)) /\
  main_loop 4 [beside (ssp_rk cfg_1 prog2_r)] (fun w st => let (m1, r) := mon_p (fst w) st in ((m1, snd w), r)) (3 * sec_r) sec_r (tt, (mkrk 3 (mkab 1 None []), 0)) st_1 = ((w', log'), Some (Ok e')) /\
  Forall2 (part_record g_1) log log' /\ part_state g_1 e e'.
Proof. exact @column_run. Qed.

(** The state with its dims held in another order. *)
Example c98_stored_order : part_state g_o st_r st_o.
Proof. exact @order_part. Qed.

(** The component, for states whose dims are held in another order. *)
Example c98_stored_order_component : whole_kept g_o /\ local g_o eq prog_r prog_r.
Proof. exact @order_local. Qed.
