(** Property theorems about states that a move of the grid leaves as they are (C100). *)
From Coq Require Import String List Bool Arith ZArith QArith Qcanon.
From Verif Require Import Prelude ArithM NdArray Units DataArrayM ExampleRegistry SpecArrays Tracers Components SpecComponents SpecCalls SpecColumns Composite Steppers MainLoop LeapLoop
  SpecRegion RegionSym Ex_Region Ex_RegionSym.
Import ListNotations.
Open Scope string_scope.
Open Scope nat_scope.
Open Scope list_scope.

#[local] Existing Instance ex_registry | 5.

(** C100: a main loop whose processes act alike at the points that are moved to one another, from a state that the move leaves as it is, stores and ends with such states. *)
Theorem c100_run : forall {T} {A : Arith T} (g : cut), (forall d, fixed g d = None) -> forall {W} ps (store : W -> state T -> W * res unit), Forall (fun p => local_step g eq p p) ps ->
  (forall w w' st st', part_record g st st' -> store w st = (w', Ok tt) -> store w st' = (w', Ok tt)) ->
  forall n stop dt w st w1 log e, proper_state g st -> unmoved g st -> main_loop n ps store stop dt w st = ((w1, log), Some (Ok e)) ->
  forall S, In S (log ++ [e]) -> unmoved g S.
Proof. exact @sym_loop. Qed.
Print Assumptions c100_run.

(** C100: so with AdamsBashforth of every order, whatever the monitors are. *)
Theorem c100_adams_bashforth : forall {T} {A : Arith T} {R : Registry} (g : cut), (forall d, fixed g d = None) -> forall {U} (p : icaller (T:=T) U), local g eq p p -> forall {M} (mon : M -> state T -> M * res unit) cfg o a0 u, new_ab (T:=T) o = Ok a0 ->
  forall n stop dt m st w log e, proper_state g st -> unmoved g st ->
  main_loop n [beside (adams_bashforth cfg p)] (fun w st => let (m1, r) := mon (fst w) st in ((m1, snd w), r)) stop dt (m, (a0, u)) st = ((w, log), Some (Ok e)) ->
  forall S, In S (log ++ [e]) -> unmoved g S.
Proof. exact @sym_ab_loop. Qed.
Print Assumptions c100_adams_bashforth.

(** C100: so with SSPRungeKutta. *)
Theorem c100_runge_kutta : forall {T} {A : Arith T} {R : Registry} (g : cut), (forall d, fixed g d = None) -> forall {U} (p : icaller (T:=T) U), local g eq p p -> forall {M} (mon : M -> state T -> M * res unit) cfg z k0 u, new_rk (T:=T) z = Ok k0 ->
  forall n stop dt m st w log e, proper_state g st -> unmoved g st ->
  main_loop n [beside (ssp_rk cfg p)] (fun w st => let (m1, r) := mon (fst w) st in ((m1, snd w), r)) stop dt (m, (k0, u)) st = ((w, log), Some (Ok e)) ->
  forall S, In S (log ++ [e]) -> unmoved g S.
Proof. exact @sym_rk_loop. Qed.
Print Assumptions c100_runge_kutta.

(** C100: so with Leapfrog, whose filter corrects the stored states of the step before. *)
Theorem c100_leapfrog : forall {T} {A : Arith T} {R : Registry} (g : cut), (forall d, fixed g d = None) -> forall {U} (p : icaller (T:=T) U), local g eq p p -> forall {W} qs (store : W -> state T -> W * res unit) cfg nu alpha, Forall (fun q => local_step g eq q q) qs ->
  (forall w w' st st', part_record g st st' -> store w st = (w', Ok tt) -> store w st' = (w', Ok tt)) ->
  forall n stop dt u w st s1 w1 log e, proper_state g st -> unmoved g st ->
  leap_main_loop n cfg p qs store stop dt (new_leap nu alpha, u) w st = ((s1, w1, log), Some (Ok e)) ->
  forall S, In S (log ++ [e]) -> unmoved g S.
Proof. exact @sym_leap_loop. Qed.
Print Assumptions c100_leapfrog.

(** C100: the states that moving every point to the first of its level leaves as they are, are those with the same values all over each level. *)
Theorem c100_level : forall {T} {A : Arith T} whole may (st : state T), unmoved (to_first whole may) st <-> level (fun d => whole d = true) st.
Proof. exact @level_unmoved. Qed.
Print Assumptions c100_level.

(** A reflection, a state that it leaves as it is, and components that work column by column. *)
Example c100_setting : (forall d, fixed g_m d = None) /\ local g_m eq prog2_r prog2_r /\ proper_state g_m st_m /\ unmoved g_m st_m.
Proof. exact @m_setting. Qed.

(** Three steps at order 3. *)
Example c100_adams_bashforth_case : exists w log e, length log = 3 /\
  main_loop 4 [beside (adams_bashforth cfg_r prog2_r)] (fun w st => let (m1, r) := mon_r (fst w) st in ((m1, snd w), r)) (3 * sec_r) sec_r (0, (mkab 3 None [], 0)) st_m = ((w, log), Some (Ok e)).
Proof. exact @m_ab_case. Qed.

(** Three steps with three stages. *)
Example c100_runge_kutta_case : exists w log e, length log = 3 /\
  main_loop 4 [beside (ssp_rk cfg_r prog2_r)] (fun w st => let (m1, r) := mon_r (fst w) st in ((m1, snd w), r)) (3 * sec_r) sec_r (0, (mkrk 3 (mkab 1 None []), 0)) st_m = ((w, log), Some (Ok e)).
Proof. exact @m_rk_case. Qed.

(** Three steps with the default filter. *)
Example c100_leapfrog_case : exists s1 w1 log e, length log = 3 /\
  leap_main_loop 4 cfg_r prog2_r [] mon_r (3 * sec_r) sec_r (new_leap (Q2Qc (1 # 20)) (Q2Qc (1 # 2)), 0) 0 st_m = ((s1, w1, log), Some (Ok e)).
Proof. exact @m_leap_case. Qed.

(** A run that stays level. *)
Example c100_level_case : exists w log e, length log = 3 /\
  main_loop 4 [beside (adams_bashforth cfg_r prog2_r)] (fun w st => let (m1, r) := mon_r (fst w) st in ((m1, snd w), r)) (3 * sec_r) sec_r (0, (mkab 3 None [], 0)) st_u = ((w, log), Some (Ok e)) /\
  forall S, In S (log ++ [e]) -> level (fun d => String.eqb d "z" = true) S.
Proof. exact @u_run. Qed.
