(** Property theorems about the ends of runs from moved and rescaled states (C101). *)
From Coq Require Import String List Bool Arith ZArith QArith Qcanon.
From Verif Require Import Prelude ArithM NdArray Units DataArrayM ExampleRegistry Tracers Components Composite Steppers MainLoop LeapLoop Ex_Region SpecTurn Ex_Turn SpecFrame SpecTurnEnds TurnEnds Ex_TurnEnds.
Import ListNotations.
Open Scope string_scope.
Open Scope nat_scope.
Open Scope list_scope.

#[local] Existing Instance ex_registry | 5.

(** C101: if, besides, the processes and the monitor raise or return whatever the values are, and the two states have the same shapes: the run from the turned state returns if the other does, with turned states, raises the same if the other raises, and goes on if the other does. *)
Theorem c101_run_ends : forall {R : Registry} (g : turn) {W W'} (same : W -> W' -> Prop) (ps : list (process (T:=Qc) W)) (ps' : list (process (T:=Qc) W')) (store : W -> state Qc -> W * res unit) (store' : W' -> state Qc -> W' * res unit),
  Forall2 (turning_step g same) ps ps' -> Forall2 (blind_step same) ps ps' ->
  (forall u v st st' u' v', same u v -> turned_record g st st' -> store u st = (u', Ok tt) -> store' v st' = (v', Ok tt) -> same u' v') -> blind_store same store store' ->
  forall n stop dt w w' st st', same w w' -> turned_state g st st' -> alike_state st st' ->
  turned_end g (main_loop n ps store stop dt w st) (main_loop n ps' store' stop dt w' st').
Proof. exact @turn_ends_run. Qed.
Print Assumptions c101_run_ends.

(** C101: so with AdamsBashforth. *)
Theorem c101_adams_bashforth_ends : forall {R : Registry} (g : turn) {U V} (same : U -> V -> Prop) (p : icaller (T:=Qc) U) (q : icaller (T:=Qc) V),
  turning g same p q -> blind same p q ->
  forall {M N} (sm : M -> N -> Prop) (mon : M -> state Qc -> M * res unit) (mon' : N -> state Qc -> N * res unit), blind_store sm mon mon' ->
  forall cfg o a0 u v, factors_fit g cfg -> new_ab (T:=Qc) o = Ok a0 -> same u v ->
  forall n stop dt m m' st st', sm m m' -> turned_state g st st' -> alike_state st st' ->
  turned_end g (main_loop n [beside (adams_bashforth cfg p)] (fun w st => let (m1, r) := mon (fst w) st in ((m1, snd w), r)) stop dt (m, (a0, u)) st)
  (main_loop n [beside (adams_bashforth cfg q)] (fun w st => let (m1, r) := mon' (fst w) st in ((m1, snd w), r)) stop dt (m', (a0, v)) st').
Proof. exact @turn_ends_adams_bashforth. Qed.
Print Assumptions c101_adams_bashforth_ends.

(** C101: so with SSPRungeKutta. *)
Theorem c101_runge_kutta_ends : forall {R : Registry} (g : turn) {U V} (same : U -> V -> Prop) (p : icaller (T:=Qc) U) (q : icaller (T:=Qc) V),
  turning g same p q -> blind same p q ->
  forall {M N} (sm : M -> N -> Prop) (mon : M -> state Qc -> M * res unit) (mon' : N -> state Qc -> N * res unit), blind_store sm mon mon' ->
  forall cfg z k0 u v, factors_fit g cfg -> new_rk (T:=Qc) z = Ok k0 -> same u v ->
  forall n stop dt m m' st st', sm m m' -> turned_state g st st' -> alike_state st st' ->
  turned_end g (main_loop n [beside (ssp_rk cfg p)] (fun w st => let (m1, r) := mon (fst w) st in ((m1, snd w), r)) stop dt (m, (k0, u)) st)
  (main_loop n [beside (ssp_rk cfg q)] (fun w st => let (m1, r) := mon' (fst w) st in ((m1, snd w), r)) stop dt (m', (k0, v)) st').
Proof. exact @turn_ends_runge_kutta. Qed.
Print Assumptions c101_runge_kutta_ends.

(** C101: so with Leapfrog. *)
Theorem c101_leapfrog_ends : forall {R : Registry} (g : turn) {U V} (same : U -> V -> Prop) (p : icaller (T:=Qc) U) (q : icaller (T:=Qc) V),
  turning g same p q -> blind same p q ->
  forall {W W'} (rest : W -> W' -> Prop) (qs : list (process (T:=Qc) W)) (qs' : list (process (T:=Qc) W')) (store : W -> state Qc -> W * res unit) (store' : W' -> state Qc -> W' * res unit) cfg nu alpha, factors_fit g cfg ->
  Forall2 (turning_step g rest) qs qs' -> Forall2 (blind_step rest) qs qs' ->
  (forall u v st st' u' v', rest u v -> turned_record g st st' -> store u st = (u', Ok tt) -> store' v st' = (v', Ok tt) -> rest u' v') -> blind_store rest store store' ->
  forall n stop dt u u' w w' st st', same u u' -> rest w w' -> turned_state g st st' -> alike_state st st' ->
  turned_end g (leap_main_loop n cfg p qs store stop dt (new_leap nu alpha, u) w st)
  (leap_main_loop n cfg q qs' store' stop dt (new_leap nu alpha, u') w' st').
Proof. exact @turn_ends_leapfrog. Qed.
Print Assumptions c101_leapfrog_ends.

(** Linear drag on a state and its double; cubic drag and the reflection. *)
Example c101_ends_setting : turning g_d eq prog_d prog_d /\ blind eq prog_d prog_d /\ factors_fit g_d cfg_t /\ turned_state g_d st_n st_2 /\ alike_state st_n st_2 /\
  turning g_t eq prog_t prog_t /\ blind eq prog_t prog_t.
Proof. exact te_setting. Qed.

(** The run from the double returns after three steps, because the other does. *)
Example c101_ends_case : exists w' log' e', length log' = 3 /\
  main_loop 4 [beside (adams_bashforth cfg_t prog_d)] (fun w st => let (m1, r) := loud (fst w) st in ((m1, snd w), r)) (3 * sec_r) sec_r (0, (mkab 3 None [], 0)) st_2 = ((w', log'), Some (Ok e')).
Proof. exact te_case. Qed.
