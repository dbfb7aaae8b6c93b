(** What a failed step leaves behind (C81). *)
From Coq Require Import String List Bool Arith ZArith QArith Qcanon.
From Verif Require Import Prelude ArithM NdArray Units DataArrayM ExampleRegistry GetNp SpecDa Components Composite Steppers SpecComposite SpecSteppers
  SpecFailed FailedMain Ex_Components Ex_Steppers Ex_Failed.
Import ListNotations.
Open Scope string_scope.
Open Scope nat_scope.
Open Scope list_scope.

#[local] Existing Instance ex_registry | 5.


(** C81: a Leapfrog call that raises was refused for its timestep, and changed nothing; or it
    remembers the timestep only, and the state is as it was, or the first of the quantities with a
    tendency have been filtered; or the step was made and only its finite differences could not be. *)
Theorem c81_leapfrog : forall {T : Type} {A : Arith T} {R : Registry}, forall {U} cfg (prog : icaller U) l u (st : state T) dt l' u' st' e,
  proper_components prog -> proper_state st -> (forall old, lf_old l = Some old -> proper_state old) ->
  leapfrog cfg prog (l, u) st dt = ((l', u'), st', Err e) ->
  (l' = l /\ u' = u /\ st' = st /\ exists d, lf_dt l = Some d /\ d <> dt) \/
  (lf_dt l = None \/ lf_dt l = Some dt) /\
  (l' = mkleap (lf_nu l) (lf_alpha l) (Some dt) (lf_old l) /\
  (st' = st \/ exists old tend pd, lf_old l = Some old /\ prog u st dt = (u', Ok (tend, pd)) /\
  filtered_in_part dt (lf_nu l) (lf_alpha l) old st tend st') \/
  l' = mkleap (lf_nu l) (lf_alpha l) (Some dt) (Some st') /\ ts_tid cfg = true /\
  exists tend pd new, prog u st dt = (u', Ok (tend, pd)) /\
  match lf_old l with
  | None => st' = st /\ euler_step dt st tend new
  | Some old => leap_step dt (lf_nu l) (lf_alpha l) old st tend st' new
  end).
Proof. exact @main_leap_failed. Qed.
Print Assumptions c81_leapfrog.

(** C81: without tendencies in its diagnostics, a Leapfrog object behaves after a failed call, in every
    later call with that timestep, as if the failed call had not been made. *)
Theorem c81_leapfrog_object : forall {T : Type} {A : Arith T} {R : Registry}, forall {U} cfg (prog : icaller U) l u (st : state T) dt l' u' st' e,
  ts_tid cfg = false -> leapfrog cfg prog (l, u) st dt = ((l', u'), st', Err e) ->
  forall u2 st2, leapfrog cfg prog (l', u2) st2 dt = leapfrog cfg prog (l, u2) st2 dt.
Proof. exact @main_leap_object. Qed.
Print Assumptions c81_leapfrog_object.

(** A first step that fails. *)
Example c81_leapfrog_object_hypotheses_met : exists l' u' st' e, leapfrog cfg_0 prog_w (new_leap nu_e half, 1) st_w 1000000 = ((l', u'), st', Err e) /\ ts_tid cfg_0 = false /\
  proper_components prog_w /\ proper_state st_w /\ exists r, snd (leapfrog cfg_0 prog_w (l', 2) st_w 1000000) = Ok r.
Proof. exact @ex_leap_first. Qed.

(** C81 is false of the caller's state with Leapfrog: the failed call has filtered it in part, and a
    retry with that state gives another result. *)
Theorem c81_leapfrog_retry_refuted : exists (prog : icaller (T:=Qc) nat) nu alpha dt st l1 st1 d1 new1 l2 u2 st2 e r3 r4, proper_components prog /\ proper_state st /\
  leapfrog cfg_0 prog (new_leap nu alpha, 0) st dt = ((l1, 1), st1, Ok (d1, new1)) /\
  leapfrog cfg_0 prog (l1, 1) new1 dt = ((l2, u2), st2, Err e) /\
  dget "w" st2 <> dget "w" new1 /\
  snd (leapfrog cfg_0 prog (l2, u2) st2 dt) = Ok r3 /\ snd (leapfrog cfg_0 prog (l1, u2) new1 dt) = Ok r4 /\
  dget "w" (snd r3) <> dget "w" (snd r4).
Proof. exact @ex_leap_retry. Qed.
Print Assumptions c81_leapfrog_retry_refuted.

(** C81: an AdamsBashforth call that raises was refused for its timestep, and changed nothing; or it
    remembers the timestep only; or it also remembers the tendencies, as one more than it should; or the
    step was made and only its finite differences could not be. *)
Theorem c81_adams_bashforth : forall {T : Type} {A : Arith T} {R : Registry}, forall {U} cfg (prog : icaller U) a u (st : state T) dt a' u' e,
  adams_bashforth cfg prog (a, u) st dt = ((a', u'), Err e) ->
  (a' = a /\ u' = u /\ exists d, ab_dt a = Some d /\ d <> dt) \/
  (ab_dt a = None \/ ab_dt a = Some dt) /\ ab_order a' = ab_order a /\ ab_dt a' = Some dt /\
  (ab_hist a' = ab_hist a \/
  exists tend0 pd tend, prog u st dt = (u', Ok (tend0, pd)) /\ convert_tendencies st tend0 = Ok tend /\
  (ab_hist a' = ab_hist a ++ [tend] \/
  ts_tid cfg = true /\ length (ab_hist a ++ [tend]) = ab_order a /\ ab_hist a' = tl (ab_hist a ++ [tend]))).
Proof. exact @main_ab_failed. Qed.
Print Assumptions c81_adams_bashforth.

(** C81: whatever calls with one timestep an AdamsBashforth object of order one has had, failed or
    not, it returns (or raises) the same as a new one. *)
Theorem c81_euler : forall {T : Type} {A : Arith T} {R : Registry}, forall {U} cfg (prog : icaller U) a0 dt calls u0 a u,
  new_ab (OInt 1) = Ok a0 -> (forall c, In c calls -> snd c = dt) -> after (adams_bashforth cfg prog) calls (a0, u0) = (a, u) ->
  forall u2 (st : state T), snd (adams_bashforth cfg prog (a, u2) st dt) = snd (adams_bashforth cfg prog (a0, u2) st dt) /\
  snd (fst (adams_bashforth cfg prog (a, u2) st dt)) = snd (fst (adams_bashforth cfg prog (a0, u2) st dt)).
Proof. exact @main_euler_as_new. Qed.
Print Assumptions c81_euler.

(** C81: whatever calls with one timestep an SSPRungeKutta object has had, failed or not, it returns
    (or raises) the same as a new one. *)
Theorem c81_runge_kutta : forall {T : Type} {A : Arith T} {R : Registry}, forall {U} cfg (prog : icaller U) z k0 dt calls u0 k u,
  new_rk z = Ok k0 -> (forall c, In c calls -> snd c = dt) -> after (ssp_rk cfg prog) calls (k0, u0) = (k, u) ->
  forall u2 (st : state T), snd (ssp_rk cfg prog (k, u2) st dt) = snd (ssp_rk cfg prog (k0, u2) st dt) /\
  snd (fst (ssp_rk cfg prog (k, u2) st dt)) = snd (fst (ssp_rk cfg prog (k0, u2) st dt)).
Proof. exact @main_rk_as_new. Qed.
Print Assumptions c81_runge_kutta.

(** Two failed calls and one that succeeded. *)
Example c81_runge_kutta_hypotheses_met : exists k k0, new_rk (T:=Qc) 3 = Ok k0 /\ (forall c, In c calls_w -> snd c = 1000000%Z) /\
  after (ssp_rk cfg_0 prog_fix) calls_w (k0, tt) = (k, tt) /\ 2 <= length (ab_hist (rk_euler k)) /\
  is_ok (snd (ssp_rk cfg_0 prog_fix (k0, tt) st_bad 1000000)) = false /\ exists r, snd (ssp_rk cfg_0 prog_fix (k, tt) st_good 1000000) = Ok r.
Proof. exact @ex_rk_as_new. Qed.

(** C81 is false of the memory of SSPRungeKutta: after one failed call the object keeps tendencies of
    every later call, without bound. *)
Theorem c81_memory_refuted : exists (prog : icaller (T:=Qc) unit) k0 k1 bad good dt e, new_rk 2 = Ok k0 /\ ssp_rk cfg_0 prog (k0, tt) bad dt = ((k1, tt), Err e) /\
  (exists r, snd (ssp_rk cfg_0 prog (k0, tt) good dt) = Ok r) /\
  forall m, m <= length (ab_hist (rk_euler (fst (after (ssp_rk cfg_0 prog) (repeat (good, dt) m) (k1, tt))))).
Proof. exact @ex_rk_memory. Qed.
Print Assumptions c81_memory_refuted.
