(** Resumed runs (C78). *)
From Coq Require Import String List Bool Arith ZArith QArith Qcanon.
From Verif Require Import Prelude ArithM NdArray Units DataArrayM ExampleRegistry GetNp Tracers Components Composite Steppers Basic MainLoop NetCDF SpecNetCDF
  SpecMainLoop SpecResume ResumeFacts ResumeMain Ex_Components Ex_NetCDF Ex_Steppers Ex_MainLoop Ex_Resume.
Import ListNotations.
Open Scope string_scope.
Open Scope nat_scope.
Open Scope list_scope.

#[local] Existing Instance ex_registry | 5.


(** C78: a run is ended at [stop1], its last state is stored with a RestartMonitor and loaded by another
    program, whose objects may take the place of the first one's.  Continued to [stop], the two runs together
    give the monitor the same states, and end in the same state or with an exception as one run to [stop] does. *)
Theorem c78_resume : forall {T : Type} {A : Arith T}, forall {N : NcLib T} {W} (Rel : W -> W -> Prop) (ps : list (process (T:=T) W)) store stop stop1 dt n w st w1 log1 st1 w2 L f fs fs',
  Forall (interchangeable Rel dt) ps -> store_interchangeable Rel store -> (stop1 <= stop)%Z ->
  main_loop n ps store stop1 dt w st = ((w1, log1), Some (Ok st1)) ->
  plain_fit N -> grid_state L st1 -> (exists n, n <> "time" /\ In n (keys st1)) ->
  (forall n a n' a', dget n st1 = Some (VDA a) -> dget n' st1 = Some (VDA a') -> ~ In n (dims a')) ->
  (forall n a, dget n st1 = Some (VDA a) -> xr_decode (attrs a) (arr a) = Ok (attrs a, arr a)) ->
  (forall t z, dget "time" st1 = Some (VTime t) -> date_code "seconds" t t = Ok z -> date_decode "seconds" t z = Ok t) ->
  restart_store f false st1 fs = (Ok tt, fs') -> Rel w1 w2 ->
  exists st2, NetCDF.load f fs' = Ok st2 /\ same_state st1 st2 /\ forall m,
  let whole := main_loop (length log1 + m) ps store stop dt w st in
  let resumed := main_loop m ps store stop dt w2 st2 in
  exists log2, snd (fst whole) = log1 ++ log2 /\ Forall2 same_state log2 (snd (fst resumed)) /\
  Rel (fst (fst whole)) (fst (fst resumed)) /\ same_outcome (snd whole) (snd resumed).
Proof. exact @main_resume. Qed.
Print Assumptions c78_resume.

(** The loop of the quickstart with forward Euler and a Stepper: two passes, and a new AdamsBashforth object. *)
Example c78_resume_hypotheses_met : let '((w1, log1), r) := first_run in
  Forall (interchangeable (euler_pair (T:=Qc) 10000000) 10000000) [euler_q; dynamics_f] /\ store_interchangeable (euler_pair 10000000) store_q /\ r = Some (Ok mid) /\
  plain_fit ex_lib /\ grid_state Lr mid /\ (exists n, n <> "time" /\ In n (keys mid)) /\
  (forall n a n' a', dget n mid = Some (VDA a) -> dget n' mid = Some (VDA a') -> ~ In n (dims a')) /\
  (forall n a, dget n mid = Some (VDA a) -> xr_decode (attrs a) (arr a) = Ok (attrs a, arr a)) /\
  (forall t z, dget "time" mid = Some (VTime t) -> date_code "seconds" t t = Ok z -> date_decode "seconds" t z = Ok t) /\
  (exists fs', restart_store "r.nc" false mid [] = (Ok tt, fs')) /\ euler_pair 10000000 w1 (ab1, snd w1) /\ length log1 = 2.
Proof. exact @ex_resume. Qed.

(** C78: with the same objects a run can be ended and continued, whatever they are. *)
Theorem c78_two_runs : forall {T : Type}, forall {W} (ps : list (process (T:=T) W)) store stop stop1 dt m n w st w1 log1 st1, (stop1 <= stop)%Z ->
  main_loop n ps store stop1 dt w st = ((w1, log1), Some (Ok st1)) ->
  main_loop (length log1 + m) ps store stop dt w st =
  let '((w2, log2), r) := main_loop m ps store stop dt w1 st1 in ((w2, log1 ++ log2), r).
Proof. exact @main_two_runs. Qed.
Print Assumptions c78_two_runs.

(** C78: objects that may take the place of others do so in any run, of any number of passes. *)
Theorem c78_same_run : forall {T : Type}, forall {W} (Rel : W -> W -> Prop) ps store stop dt, Forall (interchangeable (T:=T) Rel dt) ps -> store_interchangeable Rel store ->
  forall n w w' st st', Rel w w' -> same_state st st' ->
  let run := main_loop n ps store stop dt w st in let run' := main_loop n ps store stop dt w' st' in
  Rel (fst (fst run)) (fst (fst run')) /\ Forall2 same_state (snd (fst run)) (snd (fst run')) /\ same_outcome (snd run) (snd run').
Proof. exact @main_same_run. Qed.
Print Assumptions c78_same_run.

(** C78: a new AdamsBashforth of order 1 may take the place of one used with the same timestep; also
    after calls that failed. *)
Theorem c78_adams_bashforth_partial : forall {T : Type} {A : Arith T} {R : Registry}, forall {U} cfg (prog : icaller (T:=T) U) dt, reads_by_name prog ->
  interchangeable (euler_pair dt) dt (adams_bashforth cfg prog).
Proof. exact @euler_interchangeable. Qed.
Print Assumptions c78_adams_bashforth_partial.

(** C78: so may a new SSPRungeKutta of as many stages. *)
Theorem c78_runge_kutta : forall {T : Type} {A : Arith T} {R : Registry}, forall {U} cfg (prog : icaller (T:=T) U) dt, reads_by_name prog ->
  interchangeable (rk_pair dt) dt (ssp_rk cfg prog).
Proof. exact @rk_interchangeable. Qed.
Print Assumptions c78_runge_kutta.

(** C78: a Stepper keeps nothing but what its own array_call keeps, *)
Theorem c78_stepper : forall {T : Type} {A : Arith T} {R : Registry}, forall {U} g c (ac : U -> dict (rval T) -> Z -> U * res (dict (nd T) * dict (nd T))) dt,
  interchangeable eq dt (stepper_process g c ac).
Proof. exact @main_stepper_keeps_nothing. Qed.
Print Assumptions c78_stepper.

(** and may be called next to others. *)
Theorem c78_beside : forall {T : Type}, forall {S U} (Q : S -> S -> Prop) (p : process (T:=T) U) dt, interchangeable eq dt p ->
  interchangeable (fun w w' : S * U => snd w = snd w' /\ Q (fst w) (fst w')) dt (beside p).
Proof. exact @main_beside. Qed.
Print Assumptions c78_beside.

(** C78: components, alone or several of them, look up quantities by name. *)
Theorem c78_components : forall {T : Type} {A : Arith T} {R : Registry}, forall {U} (cs : list (icaller (T:=T) U + caller (T:=T) U)),
  (forall f, In (inl f) cs -> exists g c (ac : Z -> U -> dict (rval T) -> U * res (dict (nd T) * dict (nd T))), f = fun u st dt => tendency_call g c (ac dt) u st) ->
  (forall f, In (inr f) cs -> exists g c (ac : U -> dict (rval T) -> U * res (dict (nd T) * dict (nd T))), f = tendency_call g c ac) ->
  reads_by_name (fun u s dt => implicit_composite_call cs dt u s).
Proof. exact @main_components_read. Qed.
Print Assumptions c78_components.

(** The component of the quickstart. *)
Example c78_components_hypotheses_met : reads_by_name prog_q.
Proof. exact @ex_reads. Qed.

(** C78 is false of AdamsBashforth of order 2: with a new object the second step is one of forward Euler. *)
Theorem c78_adams_bashforth_refuted : exists (prog : icaller (T:=Qc) unit) st w1 log1 st1 w2 log2 st2 w3 log3 st3, reads_by_name prog /\
  main_loop 9 [adams_bashforth cfg_0 prog] store_g 1000000 1000000 (mkab 2 None [], tt) st = ((w1, log1), Some (Ok st1)) /\
  main_loop 9 [adams_bashforth cfg_0 prog] store_g 2000000 1000000 (mkab 2 None [], tt) st = ((w2, log2), Some (Ok st2)) /\
  main_loop 9 [adams_bashforth cfg_0 prog] store_g 2000000 1000000 (mkab 2 None [], tt) st1 = ((w3, log3), Some (Ok st3)) /\
  dget "w" st2 <> dget "w" st3.
Proof. exact @ex_ab_differs. Qed.
Print Assumptions c78_adams_bashforth_refuted.

(** C78 is false of Leapfrog: with a new object the second step is one of forward Euler. *)
Theorem c78_leapfrog_refuted : exists (prog : icaller (T:=Qc) unit) nu alpha dt st s1 st1 d1 new1 s2 st2 d2 new2 s3 st3 d3 new3, reads_by_name prog /\
  leapfrog cfg_0 prog (new_leap nu alpha, tt) st dt = (s1, st1, Ok (d1, new1)) /\
  leapfrog cfg_0 prog s1 new1 dt = (s2, st2, Ok (d2, new2)) /\
  leapfrog cfg_0 prog (new_leap nu alpha, tt) new1 dt = (s3, st3, Ok (d3, new3)) /\
  dget "w" new2 <> dget "w" new3.
Proof. exact @ex_leap_differs. Qed.
Print Assumptions c78_leapfrog_refuted.

(** C78 is false of UpdateFrequencyWrapper: a new object calls its component at once. *)
Theorem c78_wrapper_refuted : exists (component : unit -> state Qc -> option Z -> unit * res Z) interval st1 st2 w1 w2 w3 o o',
  (forall u st st' ts, same_state st st' -> component u st ts = component u st' ts) /\
  uf_call component interval (new_ufw, tt) st1 None = (w1, Ok (Some o)) /\
  uf_call component interval w1 st2 None = (w2, Ok (Some o)) /\
  uf_call component interval (new_ufw, tt) st2 None = (w3, Ok (Some o')) /\ o <> o'.
Proof. exact @ex_wrapper_differs. Qed.
Print Assumptions c78_wrapper_refuted.
