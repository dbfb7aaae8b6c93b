(** Property theorems about a whole run in memory (C99). *)
From Coq Require Import String List Bool Arith ZArith QArith Qcanon.
From Verif Require Import Prelude ArithM NdArray Units DataArrayM ExampleRegistry StrFun NetCDF SpecNetCDF SpecArrays SpecDa GetNp Tracers
  Heap Components SpecComponents Composite SpecComposite Steppers SpecSteppers Basic MainLoop LeapLoop HeapNetCDF HeapCalls SpecHeap SpecHeapCalls SpecRunFile HeapLoop SpecHeapLoop
  HeapLoopMain HeapLeapLoop Ex_Components Ex_NetCDF Ex_Heap Ex_HeapCalls Ex_HeapLoop.
Import ListNotations.
Open Scope string_scope.
Open Scope nat_scope.
Open Scope list_scope.

#[local] Existing Instance ex_registry | 5.

(** C99: a main loop whose objects share arrays in memory stores the states, ends with the state and leaves its objects as the main loop on values does; no number that was in memory is changed, the states stored earlier included. *)
Theorem c99_run : forall {T} {A : Arith T} {WH WV} (J : invariant (T:=T) WH WV) hps ps, Forall2 (process_like J) hps ps -> forall hstore store, monitor_like J hstore store -> forall n stop dt (X : cells) h w v st w' h' log r,
  J X h w v -> (forall x, X x -> x < length h) -> state_in h st -> avoids (state_cells st) X ->
  h_main_loop n hps hstore stop dt w h st = ((w', h', log), r) ->
  grown h h' /\
  (exists v', main_loop n ps store stop dt v (load_state h st) = ((v', map (load_state h') log), load_end h' r) /\ J X h' w' v') /\
  (forall S, In S log -> state_in h' S /\ avoids (state_cells S) X) /\ end_in X h' r.
Proof. exact @main_heap_run. Qed.
Print Assumptions c99_run.

(** A Stepper and an AdamsBashforth object with a NetCDF monitor that keeps references: three passes, and the file has the numbers of each pass. *)
Example c99_run_case : (forall cp, Forall2 (process_like inv_w) (hps_w cp) ps_w) /\
  monitor_like inv_w (h_to_file ident mon_w) (to_file ident mon_w) /\
  inv_w cell9 memc w0 vw0 /\ (forall x, cell9 x -> x < length memc) /\ state_in memc hst /\ avoids (state_cells hst) cell9 /\
  (let '((((fs, c), _), h, log), r) := ran_w never in
  Nat.eqb (length log) 3 && Nat.eqb (length c) 3 && qcs_eqb (firstn 10 h) [10; 11; 12; 13; 14; 15; 1; 2; 3; 99]%Z &&
  match ref_write mon_w h fs c with (o, fs', _) => numbers_are (numbers_of fs' "T") [10; 22; 52]%Z end &&
  match r with Some (Ok st) => match state_values "T" (load_state h st) with x :: _ => Qc_eqb x (cz 121) | [] => false end | _ => false end) = true.
Proof. exact @ex_run. Qed.

(** C99: AdamsBashforth is an object such a run may use. *)
Theorem c99_adams_bashforth : forall {T} {A : Arith T} {R : Registry}, forall {UH UV} (I : invariant (T:=T) UH UV) prog vprog cfg, stable I -> behaves I prog vprog ->
  process_like (ab_inv I) (h_adams_bashforth cfg prog) (adams_bashforth cfg vprog).
Proof. exact @main_ab_like. Qed.
Print Assumptions c99_adams_bashforth.

(** C99: so is SSPRungeKutta. *)
Theorem c99_runge_kutta : forall {T} {A : Arith T} {R : Registry}, forall {UH UV} (I : invariant (T:=T) UH UV) prog vprog cfg, stable I -> behaves I prog vprog ->
  process_like (rk_inv I) (h_ssp_rk cfg prog) (ssp_rk cfg vprog).
Proof. exact @main_rk_like. Qed.
Print Assumptions c99_runge_kutta.

(** SSPRungeKutta with a TendencyComponent called in memory. *)
Example c99_runge_kutta_case : forall cp, process_like (rk_inv counts) (h_ssp_rk cfg_w (h_tendency_call cp empty_treg c_n (hac_new "T" "T")))
  (ssp_rk cfg_w (fun v st dt => tendency_call empty_treg c_n (fun v raw => ac_new "T" "T" v raw dt) v st)).
Proof. exact @ex_rk_like. Qed.

(** C99: so is a Stepper that does not write into the arrays it is given. *)
Theorem c99_stepper : forall {T} {A : Arith T} {R : Registry}, forall {UH UV} (I : invariant (T:=T) UH UV) cp g c hac ac, stable I ->
  array_behaves_if True load_outs both I hac ac ->
  process_like I (h_stepper_process cp g c hac) (stepper_process g c ac).
Proof. exact @main_stepper_like. Qed.
Print Assumptions c99_stepper.

(** C99: an object can run beside another that keeps arrays. *)
Theorem c99_beside : forall {T} {A : Arith T}, forall {SH SV UH UV} (J : invariant (T:=T) SH SV) (I : invariant (T:=T) UH UV) hp p, stable J ->
  process_like I hp p -> process_like (both_inv J I) (h_beside hp) (beside p).
Proof. exact @main_beside_like. Qed.
Print Assumptions c99_beside.

(** C99: so on the other side. *)
Theorem c99_first : forall {T} {A : Arith T}, forall {SH SV UH UV} (J : invariant (T:=T) SH SV) (I : invariant (T:=T) UH UV) hp p, stable I ->
  process_like J hp p -> process_like (both_inv J I) (h_first hp) (first_of p).
Proof. exact @main_first_like. Qed.
Print Assumptions c99_first.

(** The processes of the run above. *)
Example c99_objects_case : forall cp, Forall2 (process_like inv_w) (hps_w cp) ps_w.
Proof. exact @hps_like. Qed.

(** C99: a NetCDFMonitor that keeps references to the stored arrays until it writes is a monitor such a run may use. *)
Theorem c99_netcdf : forall {T} {A : Arith T} {N : NcLib T}, forall {UH UV} (I : invariant (T:=T) UH UV) ord m,
  monitor_like (both_inv file_inv I) (h_to_file ord m) (to_file ord m).
Proof. exact @main_file_like. Qed.
Print Assumptions c99_netcdf.

(** C99: a main loop with a Leapfrog object, which filters states in memory, stores and ends as the main loop on values does, when the tendencies are of the same quantities in every call; only the arrays of those quantities in the first state are changed, and the objects are left as in the run on values, after a failure too. *)
Theorem c99_leapfrog : forall {T} {A : Arith T} {R : Registry} {UH UV} (I : invariant (T:=T) UH UV) , stable I -> forall (prog : hicaller (T:=T) UH) (vprog : icaller (T:=T) UV) , stays_apart I prog vprog -> forall K, tendencies_of K vprog -> forall {WH WV} (J : invariant (T:=T) WH WV), stable J -> forall hstore store, monitor_like J hstore store -> forall n cfg stop dt h l u v m vm st l' u' m' h' log r,
  leap_ready I h l u v st -> J (named_cells st K) h m vm ->
  h_leap_main_loop n cfg prog [] hstore stop dt (l, u) m h st = (((l', u'), m', h', log), r) ->
  changed_in (named_cells st K) h h' /\
  (exists vl' v' vm', leap_main_loop n cfg vprog [] store stop dt (load_leap h l, v) vm (load_state h st) =
  (((vl', v'), vm', map (load_state h') log), load_end h' r) /\
  J no_cells h' m' vm' /\ I no_cells h' u' v' /\ (old_apart l st K -> vl' = load_leap h' l') /\
  forall last, r = Some (Ok last) -> vl' = load_leap h' l' /\ leap_ready I h' l' u' v' last) /\
  (forall S, In S log -> state_in h' S).
Proof. exact @main_heap_leap_run. Qed.
Print Assumptions c99_leapfrog.

(** Three passes with a NetCDF monitor that keeps references: the states stored are not changed by later passes. *)
Example c99_leapfrog_case : stable counts /\ stays_apart counts f_h f_v /\ tendencies_of ["x"] f_v /\ leap_ready counts mem0 leap0 0 0 st1 /\ old_apart leap0 st1 ["x"] /\
  stable (both_inv file_inv counts) /\ monitor_like (both_inv file_inv counts) (h_to_file ident mon_l) (to_file ident mon_l) /\
  both_inv file_inv counts (named_cells st1 ["x"]) mem0 (([], []), 0) (([], []), 0) /\
  (let '((_, ((fs, c), _), h, log), r) := ran_l in
  let '((_, _, vlog), _) := vran_l in
  Nat.eqb (length log) 3 && Nat.eqb (length c) 3 && negb (qcs_eqb (firstn 3 h) [1; 2; 3]%Z) && qcs_eqb (firstn 7 (skipn 3 h)) [100; 200; 300; 5; 6; 7; 40]%Z &&
  match ref_write mon_l h fs c with (Ok _, fs', _) => Nat.eqb (length (numbers_of fs' "x")) 3 | _ => false end &&
  same_lists (values_in "x" (map (load_state h) log)) (values_in "x" vlog) &&
  match r with Some (Ok _) => true | _ => false end) = true.
Proof. exact @ex_leap_run. Qed.

(** C99 does not hold for a Stepper that writes into the arrays it is given: the run ends as the run on values does, but states stored earlier are changed. *)
Theorem c99_in_place_refuted : exists c (hac : harray Qc nat outs) ac h st n stop dt w' h' log last v' vlog vlast,
  make_stepper empty_treg [("T", qprops xT "K")] [] [("T", qprops xT "K")] "mixer" false None 1000000%Z = (empty_treg, Ok c) /\ state_in h st /\
  (forall cp, h_main_loop n [h_stepper_process cp empty_treg c hac] watch stop dt 0 h st = ((w', h', log), Some (Ok last))) /\
  main_loop n [stepper_process empty_treg c ac] watch_v stop dt 0 (load_state h st) = ((v', vlog), Some (Ok vlast)) /\
  state_values "T" (load_state h' last) = state_values "T" vlast /\
  length log = length vlog /\ values_in "T" (map (load_state h') log) <> values_in "T" vlog.
Proof. exact @in_place_run. Qed.
Print Assumptions c99_in_place_refuted.

(** C99 does not hold for a Leapfrog object whose components return tendencies of different quantities at different calls: the filter then changes states stored earlier. *)
Theorem c99_leapfrog_refuted : exists (prog : hicaller (T:=Qc) nat) vprog cfg h l st n stop dt s' h' log last vs' vlog vlast,
  stays_apart counts prog vprog /\ leap_ready counts h l 0 0 st /\
  h_leap_main_loop n cfg prog [] watch stop dt (l, 0) tt h st = ((s', tt, h', log), Some (Ok last)) /\
  leap_main_loop n cfg vprog [] watch_v stop dt (load_leap h l, 0) tt (load_state h st) = ((vs', tt, vlog), Some (Ok vlast)) /\
  length log = length vlog /\ values_in "y" (map (load_state h') log) <> values_in "y" vlog.
Proof. exact @leap_log_changed. Qed.
Print Assumptions c99_leapfrog_refuted.
