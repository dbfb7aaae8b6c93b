(** Property theorems about runs on part of the grid that return (C98). *)
From Coq Require Import String List Bool Arith ZArith QArith Qcanon.
From Verif Require Import Prelude ArithM NdArray Units DataArrayM ExampleRegistry Tracers Components Composite Steppers MainLoop LeapLoop SpecRegion Ex_Region SpecFollow FollowMain FollowEnds Ex_Follow.
Import ListNotations.
Open Scope string_scope.
Open Scope nat_scope.
Open Scope list_scope.

#[local] Existing Instance ex_registry | 5.

(** C98: if, besides, the processes and the monitor return on the small grid whenever they return on the large one, and the arrays of each state have the sizes of its grid: the run on the part returns when the run on the whole state does, and its states are the part of those. *)
Theorem c98_run_returns : forall {T : Type} {A : Arith T} (g : cut) (big small : string -> nat) {W W'} (same near : W -> W' -> Prop) (ps : list (process (T:=T) W)) (ps' : list (process (T:=T) W')) (store : W -> state T -> W * res unit) (store' : W' -> state T -> W' * res unit),
  Forall2 (local_step g same) ps ps' -> Forall2 (follows_step g big small near) ps ps' ->
  (forall u v st st' u' v', same u v -> part_record g st st' -> store u st = (u', Ok tt) -> store' v st' = (v', Ok tt) -> same u' v') -> follows_store g big small near store store' ->
  forall n stop dt w w' st st' w1 log e, same w w' -> near w w' -> part_state g st st' -> sized_state g big small st st' ->
  main_loop n ps store stop dt w st = ((w1, log), Some (Ok e)) ->
  exists w1' log' e', main_loop n ps' store' stop dt w' st' = ((w1', log'), Some (Ok e')) /\ Forall2 (part_record g) log log' /\ part_state g e e'.
Proof. exact @follow_ends_run. Qed.
Print Assumptions c98_run_returns.

(** C98: so with AdamsBashforth. *)
Theorem c98_adams_bashforth_returns : forall {T : Type} {A : Arith T} {R : Registry} (g : cut) (big small : string -> nat) {U V} (same near : U -> V -> Prop) (p : icaller (T:=T) U) (q : icaller (T:=T) V),
  local g same p q -> follows g big small near p q ->
  forall {M N} (sm : M -> N -> Prop) (mon : M -> state T -> M * res unit) (mon' : N -> state T -> N * res unit), follows_store g big small sm mon mon' ->
  forall cfg o a0 u v, new_ab (T:=T) o = Ok a0 -> same u v -> near u v ->
  forall n stop dt m m' st st' w log e, sm m m' -> part_state g st st' -> sized_state g big small st st' ->
  main_loop n [beside (adams_bashforth cfg p)] (fun w st => let (m1, r) := mon (fst w) st in ((m1, snd w), r)) stop dt (m, (a0, u)) st = ((w, log), Some (Ok e)) ->
  exists w' log' e',
  main_loop n [beside (adams_bashforth cfg q)] (fun w st => let (m1, r) := mon' (fst w) st in ((m1, snd w), r)) stop dt (m', (a0, v)) st' = ((w', log'), Some (Ok e')) /\
  Forall2 (part_record g) log log' /\ part_state g e e'.
Proof. exact @follow_ends_adams_bashforth. Qed.
Print Assumptions c98_adams_bashforth_returns.

(** C98: so with SSPRungeKutta. *)
Theorem c98_runge_kutta_returns : forall {T : Type} {A : Arith T} {R : Registry} (g : cut) (big small : string -> nat) {U V} (same near : U -> V -> Prop) (p : icaller (T:=T) U) (q : icaller (T:=T) V),
  local g same p q -> follows g big small near p q ->
  forall {M N} (sm : M -> N -> Prop) (mon : M -> state T -> M * res unit) (mon' : N -> state T -> N * res unit), follows_store g big small sm mon mon' ->
  forall cfg z k0 u v, new_rk (T:=T) z = Ok k0 -> same u v -> near u v ->
  forall n stop dt m m' st st' w log e, sm m m' -> part_state g st st' -> sized_state g big small st st' ->
  main_loop n [beside (ssp_rk cfg p)] (fun w st => let (m1, r) := mon (fst w) st in ((m1, snd w), r)) stop dt (m, (k0, u)) st = ((w, log), Some (Ok e)) ->
  exists w' log' e',
  main_loop n [beside (ssp_rk cfg q)] (fun w st => let (m1, r) := mon' (fst w) st in ((m1, snd w), r)) stop dt (m', (k0, v)) st' = ((w', log'), Some (Ok e')) /\
  Forall2 (part_record g) log log' /\ part_state g e e'.
Proof. exact @follow_ends_runge_kutta. Qed.
Print Assumptions c98_runge_kutta_returns.

(** C98: so with Leapfrog. *)
Theorem c98_leapfrog_returns : forall {T : Type} {A : Arith T} {R : Registry} (g : cut) (big small : string -> nat) {U V W W'} (same near : U -> V -> Prop) (rest rest' : W -> W' -> Prop) (p : icaller (T:=T) U) (q : icaller (T:=T) V) (qs : list (process (T:=T) W)) (qs' : list (process (T:=T) W')) (store : W -> state T -> W * res unit) (store' : W' -> state T -> W' * res unit) cfg nu alpha,
  local g same p q -> follows g big small near p q -> Forall2 (local_step g rest) qs qs' -> Forall2 (follows_step g big small rest') qs qs' ->
  (forall u v st st' u' v', rest u v -> part_record g st st' -> store u st = (u', Ok tt) -> store' v st' = (v', Ok tt) -> rest u' v') -> follows_store g big small rest' store store' ->
  forall n stop dt u u' w w' st st' s1 w1 log e, same u u' -> near u u' -> rest w w' -> rest' w w' -> part_state g st st' -> sized_state g big small st st' ->
  leap_main_loop n cfg p qs store stop dt (new_leap nu alpha, u) w st = ((s1, w1, log), Some (Ok e)) ->
  exists s1' w1' log' e', leap_main_loop n cfg q qs' store' stop dt (new_leap nu alpha, u') w' st' = ((s1', w1', log'), Some (Ok e')) /\
  Forall2 (part_record g) log log' /\ part_state g e e'.
Proof. exact @follow_ends_leapfrog. Qed.
Print Assumptions c98_leapfrog_returns.

(** C98: a composite returns on the small grid whenever it returns on the large one, if its components do. *)
Theorem c98_composite_returns : forall {T : Type} {A : Arith T} {R : Registry} (g : cut) (big small : string -> nat) {U V} (same : U -> V -> Prop) (cs : list (icaller (T:=T) U + caller (T:=T) U)) (cs' : list (icaller (T:=T) V + caller (T:=T) V)),
  Forall2 (follows_any g big small same) cs cs' ->
  follows g big small same (fun u st dt => implicit_composite_call cs dt u st) (fun v st dt => implicit_composite_call cs' dt v st).
Proof. exact @follow_implicit_composite. Qed.
Print Assumptions c98_composite_returns.

(** Cooling, on a 2 by 3 grid of columns and on one of its columns. *)
Example c98_returns_setting : local g_1 eq cool cool /\ follows g_1 big_r small_1 eq cool cool /\ follows_store g_1 big_r small_1 (fun _ _ => True) mon_r mon_p /\
  part_state g_1 st_r st_1 /\ sized_state g_1 big_r small_1 st_r st_1.
Proof. exact fo_setting. Qed.

(** The run on the column returns after three steps, because the other does. *)
Example c98_returns_case : exists w' log' e', length log' = 3 /\
  main_loop 4 [beside (adams_bashforth cfg_r cool)] (fun w st => let (m1, r) := mon_p (fst w) st in ((m1, snd w), r)) (3 * sec_r) sec_r (tt, (mkab 3 None [], 0)) st_1 = ((w', log'), Some (Ok e')).
Proof. exact fo_case. Qed.
