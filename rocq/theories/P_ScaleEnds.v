(** Property theorems about the ends of rescaled runs (C103). *)
From Coq Require Import String List Bool Arith ZArith QArith Qcanon.
From Verif Require Import Prelude ArithM NdArray Units DataArrayM ExampleRegistry SpecArrays Tracers Components Composite Steppers MainLoop LeapLoop SpecFrame SpecScale ScaleEnds Ex_Scale Ex_ScaleEnds.
From Verif Require Ex_Region.
Import ListNotations.
Open Scope string_scope.
Open Scope nat_scope.
Open Scope list_scope.

#[local] Existing Instance ex_registry | 5.

(** C103 with C102: when whether the component and the monitor raise depends on shapes and units only, the run with AdamsBashforth from the rescaled state ends in the way of the original one: it returns the rescaled states, raises the same error, or is still running. *)
Theorem c103_adams_bashforth_ends : forall {R : Registry} (f : string -> Qc) {U} (p : icaller (T:=Qc) U),
  scales f p -> blind eq p p ->
  forall {M N} (sm : M -> N -> Prop) (mon : M -> state Qc -> M * res unit) (mon' : N -> state Qc -> N * res unit), blind_store sm mon mon' ->
  forall cfg o a0 u, rates_fit f cfg -> new_ab (T:=Qc) o = Ok a0 ->
  forall n stop dt m m' st, sm m m' -> linear_state f st ->
  scaled_end f (main_loop n [beside (adams_bashforth cfg p)] (fun w st => let (m1, r) := mon (fst w) st in ((m1, snd w), r)) stop dt (m, (a0, u)) st)
  (main_loop n [beside (adams_bashforth cfg p)] (fun w st => let (m1, r) := mon' (fst w) st in ((m1, snd w), r)) stop dt (m', (a0, u)) (by_name times_value f st)).
Proof. exact @scale_ends_adams_bashforth. Qed.
Print Assumptions c103_adams_bashforth_ends.

(** C103 with C102: so with SSPRungeKutta. *)
Theorem c103_runge_kutta_ends : forall {R : Registry} (f : string -> Qc) {U} (p : icaller (T:=Qc) U),
  scales f p -> blind eq p p ->
  forall {M N} (sm : M -> N -> Prop) (mon : M -> state Qc -> M * res unit) (mon' : N -> state Qc -> N * res unit), blind_store sm mon mon' ->
  forall cfg z k0 u, rates_fit f cfg -> new_rk (T:=Qc) z = Ok k0 ->
  forall n stop dt m m' st, sm m m' -> linear_state f st ->
  scaled_end f (main_loop n [beside (ssp_rk cfg p)] (fun w st => let (m1, r) := mon (fst w) st in ((m1, snd w), r)) stop dt (m, (k0, u)) st)
  (main_loop n [beside (ssp_rk cfg p)] (fun w st => let (m1, r) := mon' (fst w) st in ((m1, snd w), r)) stop dt (m', (k0, u)) (by_name times_value f st)).
Proof. exact @scale_ends_runge_kutta. Qed.
Print Assumptions c103_runge_kutta_ends.

(** C103 with C102: so with Leapfrog. *)
Theorem c103_leapfrog_ends : forall {R : Registry} (f : string -> Qc) {U} (p : icaller (T:=Qc) U),
  scales f p -> blind eq p p ->
  forall {M N} (sm : M -> N -> Prop) (mon : M -> state Qc -> M * res unit) (mon' : N -> state Qc -> N * res unit), blind_store sm mon mon' ->
  forall cfg nu alpha u, rates_fit f cfg ->
  forall n stop dt m m' st, sm m m' -> linear_state f st ->
  scaled_end f (leap_main_loop n cfg p [] mon stop dt (new_leap nu alpha, u) m st)
  (leap_main_loop n cfg p [] mon' stop dt (new_leap nu alpha, u) m' (by_name times_value f st)).
Proof. exact @scale_ends_leapfrog. Qed.
Print Assumptions c103_leapfrog_ends.

(** The composite of C103 and a monitor that refuses the third state. *)
Example c103_ends_setting : scales fac pair_f /\ blind eq pair_f pair_f /\ blind_store (T:=Qc) (T':=Qc) eq full_f full_f /\ rates_fit fac cfg_f /\ linear_state fac st_f.
Proof. exact se_setting. Qed.

(** The run from the rescaled state returns. *)
Example c103_returns_case : exists w' log' e', length log' = 3 /\
  main_loop 4 [beside (adams_bashforth cfg_f prog_f)] (fun w st => let (m1, r) := Ex_Region.mon_r (fst w) st in ((m1, snd w), r)) (3 * Ex_Region.sec_r) Ex_Region.sec_r (0, (mkab 3 None [], 0)) (by_name times_value fac st_f) = ((w', log'), Some (Ok e')).
Proof. exact se_returns. Qed.

(** The run from the rescaled state raises what the monitor raises. *)
Example c103_raises_case : exists w' log',
  main_loop 4 [beside (ssp_rk cfg_f pair_f)] (fun w st => let (m1, r) := full_f (fst w) st in ((m1, snd w), r)) (3 * Ex_Region.sec_r) Ex_Region.sec_r (0, (mkrk 2 (mkab 1 None []), 0)) (by_name times_value fac st_f) = ((w', log'), Some (Err EIO)).
Proof. exact se_raises. Qed.
