(** Property theorems: whether a run raises does not depend on the values (C102). *)
From Coq Require Import String List Bool Arith ZArith QArith Qcanon.
From Verif Require Import Prelude ArithM NdArray Units DataArrayM ExampleRegistry Tracers Components Composite Steppers Basic MainLoop LeapLoop Wrapped Ex_Round SpecFrame FrameCalls FrameMain FrameWrap Ex_Frame.
Import ListNotations.
Open Scope string_scope.
Open Scope nat_scope.
Open Scope list_scope.

#[local] Existing Instance ex_registry | 5.

(** C102: a tendency component, with or without tracers, whose array_call raises or returns whatever the values are: on two states that differ in the values only, both calls return, with results of the same dims, shapes and units, or both raise the same. *)
Theorem c102_tendency : forall {T T' : Type} {A : Arith T} {A' : Arith T'} {R : Registry} {U V} (same : U -> V -> Prop) g c (ac : U -> dict (rval T) -> U * res (dict (nd T) * dict (nd T))) (ac' : V -> dict (rval T') -> V * res (dict (nd T') * dict (nd T'))),
  blind_arrays alike_two same ac ac' -> blind_plain same (tendency_call g c ac) (tendency_call g c ac').
Proof. exact @frame_tendency. Qed.
Print Assumptions c102_tendency.

(** C102: so for a Stepper. *)
Theorem c102_stepper : forall {T T' : Type} {A : Arith T} {A' : Arith T'} {R : Registry} {U V} (same : U -> V -> Prop) g c (ac : U -> dict (rval T) -> Z -> U * res (dict (nd T) * dict (nd T))) (ac' : V -> dict (rval T') -> Z -> V * res (dict (nd T') * dict (nd T'))),
  (forall dt, blind_arrays alike_two same (fun u raw => ac u raw dt) (fun v raw => ac' v raw dt)) ->
  forall u v st st' dt, same u v -> alike_state st st' ->
  same (fst (stepper_call g c ac u st dt)) (fst (stepper_call g c ac' v st' dt)) /\
  same_outcome alike_rates (snd (stepper_call g c ac u st dt)) (snd (stepper_call g c ac' v st' dt)).
Proof. exact @frame_stepper. Qed.
Print Assumptions c102_stepper.

(** C102: so for a DiagnosticComponent. *)
Theorem c102_diagnostic : forall {T T' : Type} {A : Arith T} {A' : Arith T'} {R : Registry} {U V} (same : U -> V -> Prop) c (ac : U -> dict (rval T) -> U * res (dict (nd T))) (ac' : V -> dict (rval T') -> V * res (dict (nd T'))),
  blind_arrays alike_arrays same ac ac' -> blind_diagnostic same (diagnostic_call c ac) (diagnostic_call c ac').
Proof. exact @frame_diagnostic. Qed.
Print Assumptions c102_diagnostic.

(** C102: so for composites of such components. *)
Theorem c102_composite : forall {T T' : Type} {A : Arith T} {A' : Arith T'} {R : Registry} {U V} (same : U -> V -> Prop) (cs : list (caller (T:=T) U)) (cs' : list (caller (T:=T') V)),
  Forall2 (blind_plain same) cs cs' -> blind_plain same (tendency_composite_call cs) (tendency_composite_call cs').
Proof. exact @frame_composite. Qed.
Print Assumptions c102_composite.

(** C102: so for composites with implicit components. *)
Theorem c102_implicit_composite : forall {T T' : Type} {A : Arith T} {A' : Arith T'} {R : Registry} {U V} (same : U -> V -> Prop) (cs : list (icaller (T:=T) U + caller (T:=T) U)) (cs' : list (icaller (T:=T') V + caller (T:=T') V)),
  Forall2 (blind_any same) cs cs' ->
  blind same (fun u st dt => implicit_composite_call cs dt u st) (fun v st dt => implicit_composite_call cs' dt v st).
Proof. exact @frame_implicit_composite. Qed.
Print Assumptions c102_implicit_composite.

(** C102: so for composites of diagnostic components. *)
Theorem c102_diagnostic_composite : forall {T T' : Type} {U V} (same : U -> V -> Prop) (cs : list (dcaller (T:=T) U)) (cs' : list (dcaller (T:=T') V)),
  Forall2 (blind_diagnostic same) cs cs' -> blind_diagnostic same (diagnostic_composite_call cs) (diagnostic_composite_call cs').
Proof. exact @frame_diagnostic_composite. Qed.
Print Assumptions c102_diagnostic_composite.

(** C102: so for calls of AdamsBashforth, after histories that differ in the values only. *)
Theorem c102_adams_bashforth : forall {T T' : Type} {A : Arith T} {A' : Arith T'} {R : Registry} {U V} (same : U -> V -> Prop) cfg (p : icaller (T:=T) U) (q : icaller (T:=T') V),
  blind same p q -> blind_step (both alike_ab same) (adams_bashforth cfg p) (adams_bashforth cfg q).
Proof. exact @frame_adams_bashforth. Qed.
Print Assumptions c102_adams_bashforth.

(** C102: so for calls of SSPRungeKutta. *)
Theorem c102_runge_kutta : forall {T T' : Type} {A : Arith T} {A' : Arith T'} {R : Registry} {U V} (same : U -> V -> Prop) cfg (p : icaller (T:=T) U) (q : icaller (T:=T') V),
  blind same p q -> blind_step (both alike_rk same) (ssp_rk cfg p) (ssp_rk cfg q).
Proof. exact @frame_runge_kutta. Qed.
Print Assumptions c102_runge_kutta.

(** C102: so for calls of Leapfrog, with any filter on either side as long as alpha is 1 on both sides or on neither.  The state it is given also ends with the same dims, shapes and units, even if the call raises. *)
Theorem c102_leapfrog : forall {T T' : Type} {A : Arith T} {A' : Arith T'} {R : Registry} {U V} (same : U -> V -> Prop) cfg (p : icaller (T:=T) U) (q : icaller (T:=T') V),
  blind same p q ->
  forall s s' st st' dt, both alike_leap same s s' -> alike_state st st' ->
  both alike_leap same (fst (fst (leapfrog cfg p s st dt))) (fst (fst (leapfrog cfg q s' st' dt))) /\
  alike_state (snd (fst (leapfrog cfg p s st dt))) (snd (fst (leapfrog cfg q s' st' dt))) /\
  same_outcome alike_step (snd (leapfrog cfg p s st dt)) (snd (leapfrog cfg q s' st' dt)).
Proof. exact @frame_leapfrog. Qed.
Print Assumptions c102_leapfrog.

(** C102: a Stepper as a process of a main loop. *)
Theorem c102_stepper_process : forall {T T' : Type} {A : Arith T} {A' : Arith T'} {R : Registry} {U V} (same : U -> V -> Prop) g c (ac : U -> dict (rval T) -> Z -> U * res (dict (nd T) * dict (nd T))) (ac' : V -> dict (rval T') -> Z -> V * res (dict (nd T') * dict (nd T'))),
  (forall dt, blind_arrays alike_two same (fun u raw => ac u raw dt) (fun v raw => ac' v raw dt)) ->
  blind_step same (stepper_process g c ac) (stepper_process g c ac').
Proof. exact @frame_stepper_process. Qed.
Print Assumptions c102_stepper_process.

(** C102: main loops of such processes make as many passes, store as many states with the same quantities, dims, shapes, units and times, and end in the same way: both still running, both raising the same, or both returning. *)
Theorem c102_run : forall {T T' : Type} {U V} (same : U -> V -> Prop) (ps : list (process (T:=T) U)) (qs : list (process (T:=T') V)) store store' stop dt,
  Forall2 (blind_step same) ps qs -> blind_store same store store' ->
  forall n u v st st', same u v -> alike_state st st' ->
  let x := main_loop n ps store stop dt u st in
  let y := main_loop n qs store' stop dt v st' in
  same (fst (fst x)) (fst (fst y)) /\ Forall2 alike_state (snd (fst x)) (snd (fst y)) /\ same_end (snd x) (snd y).
Proof. exact @frame_run. Qed.
Print Assumptions c102_run.

(** C102: so for main loops with Leapfrog. *)
Theorem c102_leapfrog_run : forall {T T' : Type} {A : Arith T} {A' : Arith T'} {R : Registry} {U V W X} (same : U -> V -> Prop) (same' : W -> X -> Prop) cfg (p : icaller (T:=T) U) (q : icaller (T:=T') V) (ps : list (process (T:=T) W)) (qs : list (process (T:=T') X)) store store' stop dt,
  blind same p q -> Forall2 (blind_step same') ps qs -> blind_store same' store store' ->
  forall n s s' w w' st st', both alike_leap same s s' -> same' w w' -> alike_state st st' ->
  let x := leap_main_loop n cfg p ps store stop dt s w st in
  let y := leap_main_loop n cfg q qs store' stop dt s' w' st' in
  both alike_leap same (fst (fst (fst x))) (fst (fst (fst y))) /\ same' (snd (fst (fst x))) (snd (fst (fst y))) /\
  Forall2 alike_state (snd (fst x)) (snd (fst y)) /\ same_end (snd x) (snd y).
Proof. exact @frame_leap_run. Qed.
Print Assumptions c102_leapfrog_run.

(** C102: RelaxationTendencyComponent, for any values: a time scale of zero raises nothing. *)
Theorem c102_relaxation : forall {T T' : Type} {A : Arith T} {A' : Arith T'} {R : Registry} c q (st : state T) (st' : state T'),
  alike_state st st' -> same_outcome alike_rates (relaxation_call c q st) (relaxation_call c q st').
Proof. exact @frame_relaxation. Qed.
Print Assumptions c102_relaxation.

(** C102: ConstantTendencyComponent, for any constants of the same dims and shapes. *)
Theorem c102_constant_tendency : forall {T T' : Type} {A : Arith T} {A' : Arith T'} {R : Registry} c (t d : dict (da T)) (t' d' : dict (da T')) (st : state T) (st' : state T'),
  alike_dict t t' -> alike_dict d d' -> alike_state st st' ->
  same_outcome alike_rates (constant_tendency_call c t d st) (constant_tendency_call c t' d' st').
Proof. exact @frame_constant_tendency. Qed.
Print Assumptions c102_constant_tendency.

(** C102: ConstantDiagnosticComponent. *)
Theorem c102_constant_diagnostic : forall {T T' : Type} {A : Arith T} {A' : Arith T'} {R : Registry} c (d : dict (da T)) (d' : dict (da T')) (st : state T) (st' : state T'),
  alike_dict d d' -> alike_state st st' ->
  same_outcome alike_dict (constant_diagnostic_call c d st) (constant_diagnostic_call c d' st').
Proof. exact @frame_constant_diagnostic. Qed.
Print Assumptions c102_constant_diagnostic.

(** C102: a stepper under TimeDifferencingWrapper. *)
Theorem c102_differencing : forall {T T' : Type} {A : Arith T} {A' : Arith T'} {R : Registry} {U V} (same : U -> V -> Prop) outp (p : U -> state T -> Z -> U * res (stepped T)) (q : V -> state T' -> Z -> V * res (stepped T')),
  blind_step same p q -> blind same (differencing_call outp p) (differencing_call outp q).
Proof. exact @frame_differencing. Qed.
Print Assumptions c102_differencing.

(** C102: a component under UpdateFrequencyWrapper: the same calls are due on both sides. *)
Theorem c102_update_frequency : forall {T T' : Type} {U V} (same : U -> V -> Prop) (p : U -> state T -> option Z -> U * res (tends T)) (q : V -> state T' -> option Z -> V * res (tends T')) interval ts,
  blind_maybe same p q -> blind_plain (both alike_wrapper same) (wrapper_call p interval ts) (wrapper_call q interval ts).
Proof. exact @frame_update_frequency. Qed.
Print Assumptions c102_update_frequency.

(** A component in exact numbers and in numbers with twenty binary places, and two states with different values. *)
Example c102_setting : blind_arrays alike_two eq (ac_f (A:=ArithQc)) (ac_f (A:=fixed)) /\ blind eq (prog_f (A:=ArithQc)) (prog_f (A:=fixed)) /\ alike_state st_f zero_f.
Proof. exact f_setting. Qed.

(** Three steps with AdamsBashforth. *)
Example c102_run_case : exists w log e w' log' e', length log = 3 /\
  main_loop 4 [adams_bashforth cfg_f (prog_f (A:=ArithQc))] mon_f (3 * sec_f) sec_f (mkab 3 None [], 0) st_f = ((w, log), Some (Ok e)) /\
  main_loop 4 [@adams_bashforth Qc fixed _ _ cfg_f (prog_f (A:=fixed))] mon_f (3 * sec_f) sec_f (mkab 3 None [], 0) zero_f = ((w', log'), Some (Ok e')) /\
  Forall2 alike_state log log'.
Proof. exact f_ab_case. Qed.

(** Three steps with Leapfrog with different filters. *)
Example c102_leapfrog_case : exists s w log e s' w' log' e', length log = 3 /\
  leap_main_loop 4 cfg_f (prog_f (A:=ArithQc)) [] mon_f (3 * sec_f) sec_f (new_leap (Q2Qc (1 # 20)) (Q2Qc (1 # 2)), 0) tt st_f = ((s, w, log), Some (Ok e)) /\
  @leap_main_loop Qc fixed _ _ _ 4 cfg_f (prog_f (A:=fixed)) [] mon_f (3 * sec_f) sec_f (new_leap (Q2Qc (1 # 10)) (Q2Qc (1 # 4)), 0) tt zero_f = ((s', w', log'), Some (Ok e')) /\
  Forall2 alike_state log log'.
Proof. exact f_leap_case. Qed.

(** Wrong units raise the same whatever the values. *)
Example c102_raises_case : forall st', alike_state bad_f st' ->
  snd (prog_f (A:=ArithQc) 0 bad_f sec_f) = Err EInvalidState /\ snd (prog_f (A:=fixed) 0 st' sec_f) = Err EInvalidState.
Proof. exact f_bad_case. Qed.

(** The component and its stepper under the wrappers. *)
Example c102_wrapped_case : blind_maybe eq (maybe_f (A:=ArithQc)) (maybe_f (A:=fixed)) /\
  blind_step (both alike_ab eq) (adams_bashforth cfg_f (prog_f (A:=ArithQc))) (@adams_bashforth Qc fixed _ _ cfg_f (prog_f (A:=fixed))) /\
  is_ok (snd (wrapper_call (maybe_f (A:=ArithQc)) sec_f None (new_ufw, 0) st_f)) = true /\
  is_ok (snd (differencing_call in_f (adams_bashforth cfg_f (prog_f (A:=ArithQc))) (mkab 3 None [], 0) st_f sec_f)) = true.
Proof. exact f_wrapped_case. Qed.

(** Relaxation with any time scale. *)
Example c102_relaxation_case : forall tau, alike_state (relax_f 1) (relax_f tau) /\
  is_ok (relaxation_call (mktcomp true (relaxation_inputs "u" "m s^-1") out_f [] "relax" false [] None "s^-1") "u" (relax_f 1)) = true.
Proof. exact f_relaxation_case. Qed.
