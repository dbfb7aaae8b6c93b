(** Property theorems about the file that a model run leaves (C87). *)
From Coq Require Import String List Bool Arith ZArith QArith Qcanon Permutation.
From Verif Require Import Prelude ArithM NdArray Units DataArrayM ExampleRegistry StrFun NetCDF SpecNetCDF NetCDFSucceeds Components Composite Steppers Basic
  MainLoop SpecMainLoop LeapLoop SpecLeapLoop SpecLoopRun SpecRunFile RunFileMain Ex_Components Ex_NetCDF Ex_Steppers Ex_LeapLoop Ex_RunFile.
Import ListNotations.
Open Scope string_scope.
Open Scope nat_scope.
Open Scope list_scope.

#[local] Existing Instance ex_registry | 5.

(** C87: after a main loop with a NetCDF monitor the file holds, after what it held before, one record per pass, for the times t0, t0 + dt, and so on, with the quantities of the state that the pass completed. This holds also when a component raises, with write_on_store; without it the file is unchanged until write is called. Storing itself never raises. *)
Theorem c87_file : forall {T : Type} {A : Arith T} {N : NcLib T}, forall {U} ord m L Sc n (ps : list (process (T:=T) U)) stop dt fs old u st t0 fs' c' u' log r,
  plain_fit N -> clock m -> (forall l, Permutation (ord l) l) -> sc_names Sc <> [] ->
  (forall la, In la (m_aliases m) -> str_in (fst la) "time" = false) ->
  (0 < dt)%Z -> has_time t0 st -> Forall leaves_time ps ->
  file_holds m L old fs -> file_clock m fs -> (forall ts, In ts old -> fits Sc (snd ts)) ->
  main_loop n (map beside ps) (to_file ord m) stop dt ((fs, []), u) st = ((((fs', c'), u'), log), r) ->
  (forall S, In S log -> grid_state L S /\ conforms ord m Sc S /\ aliased ord m S) ->
  (m_on_store m = true -> c' = [] /\ run_file ord m L t0 dt old log fs') /\
  (m_on_store m = false -> fs' = fs /\
  (log <> [] -> exists fs'', NetCDF.write m fs' c' = (Ok tt, fs'', []) /\ run_file ord m L t0 dt old log fs'')) /\
  (forall e, r = Some (Err e) -> exists v s v1, called dt ps v s v1 (Err e)).
Proof. exact @main_run_file. Qed.
Print Assumptions c87_file.

(** Three passes; and two, after which the component raises. *)
Example c87_file_hyps : forall on, plain_fit ex_lib /\ clock (mon_run_ex on) /\ (forall l, Permutation (ident l) l) /\ sc_names schema_run <> [] /\
  (forall la, In la (m_aliases (mon_run_ex on)) -> str_in (fst la) "time" = false) /\ has_time 0 (state_at 0 1) /\
  file_holds (mon_run_ex on) Lx [] [] /\ file_clock (T:=Qc) (mon_run_ex on) [] /\ leaves_time warm /\ leaves_time warm_twice /\
  (forall p, In p [warm; warm_twice] -> forall S, In S (snd (fst (run_ex on p))) ->
  grid_state Lx S /\ conforms ident (mon_run_ex on) schema_run S /\ aliased ident (mon_run_ex on) S).
Proof. exact @ex_run_hyps. Qed.

(** The files those runs leave. *)
Example c87_file_case : file_of (run_ex true warm) = ([0; 10; 20]%Z, [temps 1; temps 2; temps 3], 3) /\
  file_of (run_ex true warm_twice) = ([0; 10]%Z, [temps 1; temps 2], 2) /\
  snd (run_ex true warm_twice) = Some (Err (EUser 7)) /\
  file_of (run_ex false warm) = ([], [], 3).
Proof. exact @ex_run_files. Qed.

(** C87: the same for a loop with a Leapfrog object. *)
Theorem c87_leapfrog : forall {T : Type} {A : Arith T} {N : NcLib T}, forall {R : Registry} {U V} ord m L Sc n cfg (prog : icaller (T:=T) U) (qs : list (process (T:=T) V)) stop dt s fs old v st t0 s' fs' c' v' log r,
  plain_fit N -> clock m -> (forall l, Permutation (ord l) l) -> sc_names Sc <> [] ->
  (forall la, In la (m_aliases m) -> str_in (fst la) "time" = false) ->
  (0 < dt)%Z -> has_time t0 st -> (forall u st u' t d, prog u st dt = (u', Ok (t, d)) -> ~ In "time" (keys d)) -> Forall leaves_time qs ->
  file_holds m L old fs -> file_clock m fs -> (forall ts, In ts old -> fits Sc (snd ts)) ->
  leap_main_loop n cfg prog (map beside qs) (to_file ord m) stop dt s ((fs, []), v) st = ((s', ((fs', c'), v'), log), r) ->
  (forall S, In S log -> grid_state L S /\ conforms ord m Sc S /\ aliased ord m S) ->
  (m_on_store m = true -> c' = [] /\ run_file ord m L t0 dt old log fs') /\
  (m_on_store m = false -> fs' = fs /\
  (log <> [] -> exists fs'', NetCDF.write m fs' c' = (Ok tt, fs'', []) /\ run_file ord m L t0 dt old log fs'')) /\
  (forall e, r = Some (Err e) -> (exists s1 s2 x x', leapfrog cfg prog s1 x dt = (s2, x', Err e)) \/ (exists v1 x v2, called dt qs v1 x v2 (Err e))).
Proof. exact @main_leap_file. Qed.
Print Assumptions c87_leapfrog.

(** Three passes, each of which leaves a record. *)
Example c87_leapfrog_case : forall on, clock (mon_leap_ex on) /\ sc_names schema_leap <> [] /\
  (forall la, In la (m_aliases (mon_leap_ex on)) -> str_in (fst la) "time" = false) /\ has_time 0 st_l /\
  (forall u st u' t d, prog_l u st second = (u', Ok (t, d)) -> ~ In "time" (keys d)) /\ Forall leaves_time [after_l] /\
  file_holds (mon_leap_ex on) Ll [] [] /\ file_clock (T:=Qc) (mon_leap_ex on) [] /\
  (forall S, In S (snd (fst (run_leap on))) -> grid_state Ll S /\ conforms ident (mon_leap_ex on) schema_leap S /\ aliased ident (mon_leap_ex on) S) /\
  leap_file (run_leap true) = ([0; 1; 2]%Z, 3, 3).
Proof. exact @ex_leap_file. Qed.
