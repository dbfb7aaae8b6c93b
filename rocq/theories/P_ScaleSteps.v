(** Property theorems about rescaled runs with several processes (C103). *)
From Coq Require Import String List Bool Arith ZArith QArith Qcanon.
From Verif Require Import Prelude ArithM NdArray Units DataArrayM ExampleRegistry SpecArrays Tracers Components Composite Steppers MainLoop LeapLoop SpecFrame SpecScale SpecScaleSteps ScaleSteps Ex_Scale Ex_ScaleSteps.
From Verif Require Ex_Region.
Import ListNotations.
Open Scope string_scope.
Open Scope nat_scope.
Open Scope list_scope.

#[local] Existing Instance ex_registry | 5.

(** C103: any processes that answer rescaled states with rescaled states: the run from the rescaled state stores and ends with the rescaled states of the original run. *)
Theorem c103_run : forall {R : Registry} (f : string -> Qc) {W W'} (rest : W -> W' -> Prop) ps ps' (store : W -> state Qc -> W * res unit) (store' : W' -> state Qc -> W' * res unit),
  Forall2 (scales_step f rest) ps ps' -> scales_store f rest store store' ->
  forall n stop dt w w' st w1 w1' log log' e e', rest w w' -> linear_state f st ->
  main_loop n ps store stop dt w st = ((w1, log), Some (Ok e)) ->
  main_loop n ps' store' stop dt w' (by_name times_value f st) = ((w1', log'), Some (Ok e')) ->
  log' = map (by_name times_value f) log /\ e' = by_name times_value f e.
Proof. exact @scale_run. Qed.
Print Assumptions c103_run.

(** C103 with C102: and, when they raise by shapes and units only, the run from the rescaled state ends in the way of the original one. *)
Theorem c103_run_ends : forall {R : Registry} (f : string -> Qc) {W W'} (rest : W -> W' -> Prop) ps ps' (store : W -> state Qc -> W * res unit) (store' : W' -> state Qc -> W' * res unit),
  Forall2 (scales_step f rest) ps ps' -> Forall2 (blind_step rest) ps ps' -> scales_store f rest store store' -> blind_store rest store store' ->
  forall n stop dt w w' st, rest w w' -> linear_state f st ->
  scaled_end f (main_loop n ps store stop dt w st) (main_loop n ps' store' stop dt w' (by_name times_value f st)).
Proof. exact @scale_run_ends. Qed.
Print Assumptions c103_run_ends.

(** C103: a Stepper whose array_call answers rescaled inputs with rescaled outputs is such a process. *)
Theorem c103_stepper_process : forall {R : Registry} (f : string -> Qc) {U} tg (fi f1 f2 : string -> Qc) c (ac : U -> dict (rval Qc) -> Z -> U * res (dict (nd Qc) * dict (nd Qc))),
  s_packer c = None -> homogeneous fi f1 f2 ac -> input_factors f fi (s_inp c) -> output_factors f f1 (s_diag c) (s_inp c) -> output_factors f f2 (s_out c) (s_inp c) ->
  change_factors fi f1 f2 c -> linear_props f (s_out c) ->
  scales_step f eq (stepper_process tg c ac) (stepper_process tg c ac).
Proof. exact @scale_stepper_process. Qed.
Print Assumptions c103_stepper_process.

(** C103: AdamsBashforth followed by such processes. *)
Theorem c103_adams_bashforth_then : forall {R : Registry} (f : string -> Qc) {U : Type} (p : icaller (T:=Qc) U) (Hp : scales f p) {V V' : Type} (rest : V -> V' -> Prop) (qs : list (process (T:=Qc) V)) (qs' : list (process (T:=Qc) V')) (Hq : Forall2 (scales_step f rest) qs qs') (mon : V -> state Qc -> V * res unit) (mon' : V' -> state Qc -> V' * res unit) cfg o a0 u,
  scales_store f rest mon mon' -> rates_fit f cfg -> new_ab (T:=Qc) o = Ok a0 ->
  forall n stop dt m m' st w w' log log' e e', rest m m' -> linear_state f st ->
  main_loop n (beside (adams_bashforth cfg p) :: map aside qs) (fun w st => let (m1, r) := mon (fst w) st in ((m1, snd w), r)) stop dt (m, (a0, u)) st = ((w, log), Some (Ok e)) ->
  main_loop n (beside (adams_bashforth cfg p) :: map aside qs') (fun w st => let (m1, r) := mon' (fst w) st in ((m1, snd w), r)) stop dt (m', (a0, u)) (by_name times_value f st) = ((w', log'), Some (Ok e')) ->
  log' = map (by_name times_value f) log /\ e' = by_name times_value f e.
Proof. exact @scale_adams_bashforth_then. Qed.
Print Assumptions c103_adams_bashforth_then.

(** C103: SSPRungeKutta followed by such processes. *)
Theorem c103_runge_kutta_then : forall {R : Registry} (f : string -> Qc) {U : Type} (p : icaller (T:=Qc) U) (Hp : scales f p) {V V' : Type} (rest : V -> V' -> Prop) (qs : list (process (T:=Qc) V)) (qs' : list (process (T:=Qc) V')) (Hq : Forall2 (scales_step f rest) qs qs') (mon : V -> state Qc -> V * res unit) (mon' : V' -> state Qc -> V' * res unit) cfg z k0 u,
  scales_store f rest mon mon' -> rates_fit f cfg -> new_rk (T:=Qc) z = Ok k0 ->
  forall n stop dt m m' st w w' log log' e e', rest m m' -> linear_state f st ->
  main_loop n (beside (ssp_rk cfg p) :: map aside qs) (fun w st => let (m1, r) := mon (fst w) st in ((m1, snd w), r)) stop dt (m, (k0, u)) st = ((w, log), Some (Ok e)) ->
  main_loop n (beside (ssp_rk cfg p) :: map aside qs') (fun w st => let (m1, r) := mon' (fst w) st in ((m1, snd w), r)) stop dt (m', (k0, u)) (by_name times_value f st) = ((w', log'), Some (Ok e')) ->
  log' = map (by_name times_value f) log /\ e' = by_name times_value f e.
Proof. exact @scale_runge_kutta_then. Qed.
Print Assumptions c103_runge_kutta_then.

(** C103: Leapfrog followed by such processes. *)
Theorem c103_leapfrog_then : forall {R : Registry} (f : string -> Qc) {U : Type} (p : icaller (T:=Qc) U) (Hp : scales f p) {V V' : Type} (rest : V -> V' -> Prop) (qs : list (process (T:=Qc) V)) (qs' : list (process (T:=Qc) V')) (Hq : Forall2 (scales_step f rest) qs qs') (mon : V -> state Qc -> V * res unit) (mon' : V' -> state Qc -> V' * res unit) cfg nu alpha u,
  scales_store f rest mon mon' -> rates_fit f cfg ->
  forall n stop dt m m' st s1 s1' w w' log log' e e', rest m m' -> linear_state f st ->
  leap_main_loop n cfg p qs mon stop dt (new_leap nu alpha, u) m st = ((s1, w, log), Some (Ok e)) ->
  leap_main_loop n cfg p qs' mon' stop dt (new_leap nu alpha, u) m' (by_name times_value f st) = ((s1', w', log'), Some (Ok e')) ->
  log' = map (by_name times_value f) log /\ e' = by_name times_value f e.
Proof. exact @scale_leapfrog_then. Qed.
Print Assumptions c103_leapfrog_then.

(** C103 with C102: how the run with AdamsBashforth and other processes ends. *)
Theorem c103_adams_bashforth_then_ends : forall {R : Registry} (f : string -> Qc) {U : Type} (p : icaller (T:=Qc) U) (Hp : scales f p) {V V' : Type} (rest : V -> V' -> Prop) (qs : list (process (T:=Qc) V)) (qs' : list (process (T:=Qc) V')) (Hq : Forall2 (scales_step f rest) qs qs') (mon : V -> state Qc -> V * res unit) (mon' : V' -> state Qc -> V' * res unit) cfg o a0 u,
  blind eq p p -> Forall2 (blind_step rest) qs qs' -> blind_store rest mon mon' ->
  scales_store f rest mon mon' -> rates_fit f cfg -> new_ab (T:=Qc) o = Ok a0 ->
  forall n stop dt m m' st, rest m m' -> linear_state f st ->
  scaled_end f (main_loop n (beside (adams_bashforth cfg p) :: map aside qs) (fun w st => let (m1, r) := mon (fst w) st in ((m1, snd w), r)) stop dt (m, (a0, u)) st)
  (main_loop n (beside (adams_bashforth cfg p) :: map aside qs') (fun w st => let (m1, r) := mon' (fst w) st in ((m1, snd w), r)) stop dt (m', (a0, u)) (by_name times_value f st)).
Proof. exact @scale_adams_bashforth_then_ends. Qed.
Print Assumptions c103_adams_bashforth_then_ends.

(** C103 with C102: so with SSPRungeKutta. *)
Theorem c103_runge_kutta_then_ends : forall {R : Registry} (f : string -> Qc) {U : Type} (p : icaller (T:=Qc) U) (Hp : scales f p) {V V' : Type} (rest : V -> V' -> Prop) (qs : list (process (T:=Qc) V)) (qs' : list (process (T:=Qc) V')) (Hq : Forall2 (scales_step f rest) qs qs') (mon : V -> state Qc -> V * res unit) (mon' : V' -> state Qc -> V' * res unit) cfg z k0 u,
  blind eq p p -> Forall2 (blind_step rest) qs qs' -> blind_store rest mon mon' ->
  scales_store f rest mon mon' -> rates_fit f cfg -> new_rk (T:=Qc) z = Ok k0 ->
  forall n stop dt m m' st, rest m m' -> linear_state f st ->
  scaled_end f (main_loop n (beside (ssp_rk cfg p) :: map aside qs) (fun w st => let (m1, r) := mon (fst w) st in ((m1, snd w), r)) stop dt (m, (k0, u)) st)
  (main_loop n (beside (ssp_rk cfg p) :: map aside qs') (fun w st => let (m1, r) := mon' (fst w) st in ((m1, snd w), r)) stop dt (m', (k0, u)) (by_name times_value f st)).
Proof. exact @scale_runge_kutta_then_ends. Qed.
Print Assumptions c103_runge_kutta_then_ends.

(** C103 with C102: so with Leapfrog. *)
Theorem c103_leapfrog_then_ends : forall {R : Registry} (f : string -> Qc) {U : Type} (p : icaller (T:=Qc) U) (Hp : scales f p) {V V' : Type} (rest : V -> V' -> Prop) (qs : list (process (T:=Qc) V)) (qs' : list (process (T:=Qc) V')) (Hq : Forall2 (scales_step f rest) qs qs') (mon : V -> state Qc -> V * res unit) (mon' : V' -> state Qc -> V' * res unit) cfg nu alpha u,
  blind eq p p -> Forall2 (blind_step rest) qs qs' -> blind_store rest mon mon' ->
  scales_store f rest mon mon' -> rates_fit f cfg ->
  forall n stop dt m m' st, rest m m' -> linear_state f st ->
  scaled_end f (leap_main_loop n cfg p qs mon stop dt (new_leap nu alpha, u) m st)
  (leap_main_loop n cfg p qs' mon' stop dt (new_leap nu alpha, u) m' (by_name times_value f st)).
Proof. exact @scale_leapfrog_then_ends. Qed.
Print Assumptions c103_leapfrog_then_ends.

(** A stepper that halves the wind and sets the depth to the square of the wind. *)
Example c103_mix_setting : s_packer w_f = None /\ homogeneous fac fac fac wac_f /\ input_factors fac fac (s_inp w_f) /\ output_factors fac fac (s_diag w_f) (s_inp w_f) /\ output_factors fac fac (s_out w_f) (s_inp w_f) /\
  change_factors fac fac fac w_f /\ linear_props fac (s_out w_f) /\ scales_step fac eq mix_f mix_f.
Proof. exact scales_mix. Qed.

(** It follows the drag of the other cases. *)
Example c103_then_setting : scales fac prog_f /\ blind eq prog_f prog_f /\ scales_step fac eq mix_f mix_f /\ blind_step (T:=Qc) (T':=Qc) eq mix_f mix_f /\
  scales_store fac eq Ex_Region.mon_r Ex_Region.mon_r /\ blind_store (T:=Qc) (T':=Qc) eq Ex_Region.mon_r Ex_Region.mon_r /\ rates_fit fac cfg_f /\ linear_state fac st_f.
Proof. exact st_setting. Qed.

(** Three steps of both with AdamsBashforth. *)
Example c103_then_case : exists w log e w' log', length log = 3 /\
  main_loop 4 [beside (adams_bashforth cfg_f prog_f); aside mix_f] (fun w st => let (m1, r) := Ex_Region.mon_r (fst w) st in ((m1, snd w), r)) (3 * Ex_Region.sec_r) Ex_Region.sec_r (0, (mkab 3 None [], 0)) st_f = ((w, log), Some (Ok e)) /\
  main_loop 4 [beside (adams_bashforth cfg_f prog_f); aside mix_f] (fun w st => let (m1, r) := Ex_Region.mon_r (fst w) st in ((m1, snd w), r)) (3 * Ex_Region.sec_r) Ex_Region.sec_r (0, (mkab 3 None [], 0)) (by_name times_value fac st_f)
  = ((w', log'), Some (Ok (by_name times_value fac e))).
Proof. exact st_run. Qed.
