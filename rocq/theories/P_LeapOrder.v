(** Property theorems about the order of Leapfrog (C91). *)
From Coq Require Import String List Bool Arith ZArith QArith Qcanon.
From Verif Require Import Prelude ArithM NdArray Units DataArrayM SpecUnits ExampleRegistry SpecDa Components Composite Steppers SpecSteppers
  Ex_Components Ex_Steppers SpecOrder Ex_Order SpecLeapOrder LeapOrder Ex_LeapOrder.
Import ListNotations.
Open Scope string_scope.
Open Scope nat_scope.
Open Scope list_scope.

#[local] Existing Instance ex_registry | 5.

(** C91 for linear functions of the time: every state returned, and every state filtered, lies on the function, whatever the strength and kind of the filter. *)
Theorem c91_linear : forall {R : Registry}, forall {U} cfg (prog : icaller (T:=Qc) U) dt nu alpha u e0 log s,
  lhistory cfg prog dt (new_leap nu alpha, u) (e0 :: log) s -> wf_llog (e0 :: log) ->
  forall X c a b t, let h := Q2Qc (dt # 1000000) in
  carried X (e0 :: log) -> is_value (l_st e0) X c (peval [a; b] t) -> rates_are (e0 :: log) X c [a; b] t h ->
  forall k e, nth_error (e0 :: log) k = Some e ->
  is_value (l_after e) X c (peval [a; b] (time_after t h k)) /\
  is_value (l_new e) X c (peval [a; b] (time_after t h (S k))).
Proof. exact @leap_linear. Qed.
Print Assumptions c91_linear.

(** C91 for quadratic functions without the filter: the states returned by the second, fourth, ... call lie on the function; those of the other calls all are off by the error of the first step, which is one of forward Euler. *)
Theorem c91_quadratic_partial : forall {R : Registry}, forall {U} cfg (prog : icaller (T:=Qc) U) dt alpha u e0 log s,
  lhistory cfg prog dt (new_leap 0%Qc alpha, u) (e0 :: log) s -> wf_llog (e0 :: log) ->
  forall X c a b b2 t, let h := Q2Qc (dt # 1000000) in
  carried X (e0 :: log) -> is_value (l_st e0) X c (peval [a; b; b2] t) -> rates_are (e0 :: log) X c [a; b; b2] t h ->
  forall k e, nth_error (e0 :: log) k = Some e ->
  is_value (l_new e) X c
  (peval [a; b; b2] (time_after t h (S k)) - (if Nat.even k then b2 * (h * h) else 0))%Qc.
Proof. exact @leap_quadratic. Qed.
Print Assumptions c91_quadratic_partial.

(** Four calls, with the filter, the caller setting the time. *)
Example c91_linear_hyps : forall alpha, alpha = half \/ alpha = 1%Qc -> exists e0 log s,
  lhistory cfg_0 prog_line 1000000 (new_leap nu_e alpha, 0) (e0 :: log) s /\ wf_llog (e0 :: log) /\
  length log = 3 /\ carried "a" (e0 :: log) /\ is_value (l_st e0) "a" (fun _ => 0) (peval [0%Qc; cz 5] 0%Qc) /\
  rates_are (e0 :: log) "a" (fun _ => 0) [0%Qc; cz 5] 0%Qc 1%Qc.
Proof. exact @line_linear. Qed.

(** Four calls without the filter, of a component whose tendency is the time. *)
Example c91_quadratic_hyps : forall alpha, alpha = half \/ alpha = 1%Qc -> exists e0 log s,
  lhistory cfg_0 prog_clock 1000000 (new_leap 0%Qc alpha, 0) (e0 :: log) s /\ wf_llog (e0 :: log) /\
  length log = 3 /\ carried "a" (e0 :: log) /\ is_value (l_st e0) "a" (fun _ => 0) (peval [0%Qc; 0%Qc; Q2Qc (1 # 2)] 0%Qc) /\
  rates_are (e0 :: log) "a" (fun _ => 0) [0%Qc; 0%Qc; Q2Qc (1 # 2)] 0%Qc 1%Qc.
Proof. exact @clock_quadratic. Qed.

(** C91 in full does not hold for quadratic functions: the third call returns a state off the function. *)
Theorem c91_quadratic_refuted : exists (prog : icaller (T:=Qc) nat) alpha u e0 log s X c p e,
  lhistory cfg_0 prog 1000000 (new_leap 0%Qc alpha, u) (e0 :: log) s /\ wf_llog (e0 :: log) /\
  carried X (e0 :: log) /\ length p = 3 /\ is_value (l_st e0) X c (peval p 0%Qc) /\ rates_are (e0 :: log) X c p 0%Qc 1%Qc /\
  nth_error (e0 :: log) 2 = Some e /\ ~ is_value (l_new e) X c (peval p (time_after 0 1 3)).
Proof. exact @clock_odd. Qed.
Print Assumptions c91_quadratic_refuted.
