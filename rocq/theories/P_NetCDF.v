(** Property theorems about the NetCDF monitors (C53-C57, C67). *)
From Coq Require Import String List Bool Arith ZArith QArith Qcanon Permutation.
From Verif Require Import Prelude ArithM NdArray DataArrayM SpecArrays StrFun Heap NetCDF SpecNetCDF NetCDFKeeps NetCDFMain NetCDFSucceeds NetCDFAlias NetCDFRestart
  HeapNetCDF SpecHeapNetCDF HeapNetCDFFacts Ex_Components Ex_NetCDF.
Import ListNotations.
Open Scope string_scope.
Open Scope nat_scope.
Open Scope list_scope.

(** C53: whatever the calls, if none raises, the file gains, for each write, the states stored
    since the one before, by time, one row each; those stored since are still cached. *)
Theorem c53_history : forall {T : Type} {A : Arith T} {N : NcLib T}, forall ord m L ops fs log os fs' c', plain_fit N -> (forall l, Permutation (ord l) l) ->
  (forall st, In (Store st) ops -> storable ord m L st) -> file_holds m L log fs ->
  mon_run ord m ops fs [] = (os, fs', c') -> Forall (eq (Ok tt)) os ->
  exists written left, Forall2 (fun states batch => exists prepared, mapM (prepare ord m) states = Ok prepared /\ batch_of prepared batch) (fst (batches (m_on_store m) [] ops)) written /\
  file_holds m L (log ++ concat written) fs' /\ mapM (prepare ord m) (snd (batches (m_on_store m) [] ops)) = Ok left /\ cache_is left c'.
Proof. exact @main_monitor_history. Qed.
Print Assumptions c53_history.

(** C53: and none raises, if the states have the same quantities on the same grid and no
    write comes without a state. *)
Theorem c53_succeeds : forall {T : Type} {A : Arith T} {N : NcLib T}, forall ord m L S ops (fs : files T) log, plain_fit N -> clock m -> (forall l, Permutation (ord l) l) -> sc_names S <> [] ->
  (forall st, In (Store st) ops -> grid_state L st /\ conforms ord m S st) ->
  file_holds m L log fs -> file_clock m fs -> (forall ts, In ts log -> fits S (snd ts)) ->
  Forall (fun states => states <> []) (fst (batches (m_on_store m) [] ops)) ->
  Forall (eq (Ok tt)) (fst (fst (mon_run ord m ops fs []))).
Proof. exact @main_monitor_succeeds. Qed.
Print Assumptions c53_succeeds.

(** Three states, two of them for one time and not in order, a write, a further state and write, and one more state. *)
Example c53_hypotheses_met : plain_fit ex_lib /\ clock (mon_ex false) /\ (forall l, Permutation (ident l) l) /\ sc_names schema_ex <> [] /\
  (forall st, In (Store st) ops_ex -> grid_state Lx st /\ conforms ident (mon_ex false) schema_ex st /\ storable ident (mon_ex false) Lx st) /\
  file_holds (mon_ex false) Lx [] [] /\ file_clock (T := Qc) (mon_ex false) [] /\ Forall (fun states => states <> []) (fst (batches false [] ops_ex)) /\
  Forall (eq (Ok tt)) (fst (fst (mon_run ident (mon_ex false) ops_ex [] []))).
Proof. exact @ex_monitor_hyps. Qed.

(** What that program leaves. *)
Example c53_case : match mon_run ident (mon_ex false) ops_ex [] [] with
  | (_, fs, c) => match dget "out.nc" fs with
  | Some f => zs_eq (times_of f) [0; 10; 5]%Z && numbers_are (first_numbers "wind" f) [2; 3; 4]%Z && Nat.eqb (length c) 1
  | None => false
  end
  end = true.
Proof. exact @ex_monitor_file. Qed.

(** C53 fails for units: those of the later states of a batch are not looked at, and their
    numbers are written under the units of the first. *)
Theorem c53_units_refuted : exists fs c f v a, mon_run ident (mon_ex false) [Store (kelvin 0); Store (celsius second); Write] [] [] = ([Ok tt; Ok tt; Ok tt], fs, c) /\
  dget "out.nc" fs = Some f /\ dget "air_temperature" (d_vars f) = Some v /\ dget "air_temperature" (celsius second) = Some (VDA a) /\
  dget "units" (attrs a) = Some "degC" /\ dget "units" (nv_attrs v) = Some "K" /\ nth 1 (nv_rows v) None = Some (arr a).
Proof. exact @ex_units_ignored. Qed.
Print Assumptions c53_units_refuted.

(** C54, for every write, failed or not: all that was in the file stays, other files are
    not touched, and after a failure the cache is as before.  What is missing: that nothing is
    added by a write that fails; see [c54_append_refuted]. *)
Theorem c54_keeps_partial : forall {T : Type} {A : Arith T} {N : NcLib T}, forall m (fs : files T) c r fs' c', write m fs c = (r, fs', c') ->
  (forall g, g <> m_file m -> dget g fs' = dget g fs) /\
  (forall f, dget (m_file m) fs = Some f -> exists f', dget (m_file m) fs' = Some f' /\ keeps f f') /\
  (forall e, r = Err e -> c' = c) /\ (r = Ok tt -> c' = []).
Proof. exact @main_write_keeps. Qed.
Print Assumptions c54_keeps_partial.

(** C54: the same over all programs. *)
Theorem c54_run_keeps_partial : forall {T : Type} {A : Arith T} {N : NcLib T}, forall ord m ops (fs : files T) c os fs' c', mon_run ord m ops fs c = (os, fs', c') ->
  (forall g, g <> m_file m -> dget g fs' = dget g fs) /\
  (forall f, dget (m_file m) fs = Some f -> exists f', dget (m_file m) fs' = Some f' /\ keeps f f').
Proof. exact @main_run_keeps. Qed.
Print Assumptions c54_run_keeps_partial.

(** C54: if the names of the quantities do not match, nothing is written. *)
Theorem c54_mismatch : forall {T : Type} {A : Arith T} {N : NcLib T}, forall m (fs : files T) c, c <> [] ->
  (exists ts, In ts c /\ ~ (forall n, In n (keys (snd ts)) <-> In n (match keys (d_vars (opened m fs)) with [] => keys (snd (hd (0%Z, []) c)) | ks => ks end))) ->
  NetCDF.write m fs c = (Err EInvalidState, dset (m_file m) (opened m fs) fs, c).
Proof. exact @main_mismatch. Qed.
Print Assumptions c54_mismatch.

(** C54: a write without anything cached always fails, and creates the file. *)
Theorem c54_nothing_cached_refuted : forall {T : Type} {A : Arith T} {N : NcLib T}, forall m (fs : files T), NetCDF.write m fs [] = (Err EValue, dset (m_file m) (opened m fs) fs, []).
Proof. exact @main_nothing_cached. Qed.
Print Assumptions c54_nothing_cached_refuted.

(** C54 fails if a quantity does not fit the variable in the file: the times are already
    in the file, each further attempt adds them again, and none succeeds. *)
Theorem c54_append_refuted : exists (m : monitor) (fs : files Qc) c f f' fs' c', dget (m_file m) fs = Some f /\ NetCDF.write m fs c = (Err EIO, fs', c') /\ dget (m_file m) fs' = Some f' /\
  n_times f' <> n_times f /\ exists f'' fs'' c'', NetCDF.write m fs' c' = (Err EIO, fs'', c'') /\ dget (m_file m) fs'' = Some f'' /\ n_times f'' <> n_times f'.
Proof. exact @ex_failed_write_refuted. Qed.
Print Assumptions c54_append_refuted.

(** The same from the start: a quantity whose dims have changed. *)
Example c54_append_case : match mon_run ident (mon_ex false) bad_ops [] [] with
  | (os, fs, c) => match os with [Ok _; Ok _; Ok _; Err EIO; Err EIO] => true | _ => false end &&
  match dget "out.nc" fs with
  | Some f => zs_eq (times_of f) [0; 1; 1]%Z && numbers_are (first_numbers "air_temperature" f) [0]%Z
  | None => false
  end
  end = true.
Proof. exact @ex_failed_write. Qed.

(** The same for a quantity without dims. *)
Example c54_scalar_case : match mon_run ident (mon_ex true) [Store (scalar 0)] [] [] with
  | (os, fs, c) => match os with [Err EIndex] => true | _ => false end && match dget "out.nc" fs with Some f => zs_eq (times_of f) [0]%Z | None => false end
  end = true.
Proof. exact @ex_scalar. Qed.

(** C55: over all histories of stores, crashes at any point, and removals of left-over new
    files, once a store has returned, a complete restart of that state or of a later one is in
    <file>, or, if that is missing, in <file>.old. *)
Theorem c55_history : forall {T : Type} {A : Arith T} {N : NcLib T}, forall f delta fs0 h fs, restart_history f delta fs0 h fs -> forall h1 st h2, h = h1 ++ (st, true) :: h2 ->
  exists st' d, (st' = st \/ exists b, In (st', b) h2) /\ saved f delta st' d /\ current f fs = Some d.
Proof. exact @main_restart_history. Qed.
Print Assumptions c55_history.

(** C55: what a store that returns leaves. *)
Theorem c55_stored : forall {T : Type} {A : Arith T} {N : NcLib T}, forall f delta st fs fs', restart_store f delta st fs = (Ok tt, fs') ->
  dget (new_name f) fs = None /\ (exists d, saved f delta st d /\ dget f fs' = Some d) /\ dget (old_name f) fs' = None /\ dget (new_name f) fs' = None /\
  forall g, g <> f -> g <> old_name f -> dget g fs' = dget g fs.
Proof. exact @main_restart_stored. Qed.
Print Assumptions c55_stored.

(** C55: a store that raises changes no file but <file>.new. *)
Theorem c55_failed : forall {T : Type} {A : Arith T} {N : NcLib T}, forall f delta st fs e fs', restart_store f delta st fs = (Err e, fs') -> forall g, g <> new_name f -> dget g fs' = dget g fs.
Proof. exact @main_restart_failed. Qed.
Print Assumptions c55_failed.

(** C55: no other files are touched. *)
Theorem c55_others : forall {T : Type} {A : Arith T} {N : NcLib T}, forall f delta fs0 h fs, restart_history f delta fs0 h fs -> forall g, g <> f -> g <> old_name f -> g <> new_name f -> dget g fs = dget g fs0.
Proof. exact @main_restart_others. Qed.
Print Assumptions c55_others.

(** C55: a state on a grid is stored if there is no left-over new file, and only then. *)
Theorem c55_succeeds : forall {T : Type} {A : Arith T} {N : NcLib T}, forall L f delta (st : state T) t fs, plain_fit N -> clock (restart_monitor f delta) -> grid_state L st -> (exists n, n <> "time" /\ In n (keys st)) -> ~ In "" (keys st) ->
  dget "time" st = Some (VTime t) -> (forall n v, dget n st = Some v -> n <> "time" -> exists a, v = VDA a /\ dims a <> [] /\ NoDup (keys (attrs a))) ->
  (dget (new_name f) fs = None -> exists fs', restart_store f delta st fs = (Ok tt, fs')) /\
  (dget (new_name f) fs <> None -> restart_store f delta st fs = (Err EIO, fs)).
Proof. exact @main_restart_succeeds. Qed.
Print Assumptions c55_succeeds.

(** A store, one that dies between its renames, the removal of the new file, one more store. *)
Example c55_history_hypotheses_met : exists fs1 fs2 fs4, restart_store "r.nc" false (lone 0 1) [] = (Ok tt, fs1) /\ crash_points "r.nc" false (lone second 2) fs1 fs2 /\ dget "r.nc" fs2 = None /\
  restart_store "r.nc" false (lone (2 * second) 3) (ddel (new_name "r.nc") fs2) = (Ok tt, fs4) /\
  restart_history "r.nc" false [] [(lone 0 1, true); (lone second 2, false); (lone (2 * second) 3, true)] fs4.
Proof. exact @ex_restart_history. Qed.

(** A state of one quantity. *)
Example c55_succeeds_hypotheses_met : forall t k, plain_fit ex_lib /\ clock (restart_monitor "r.nc" false) /\ grid_state Lx (lone t k) /\ (exists n, n <> "time" /\ In n (keys (lone t k))) /\ ~ In "" (keys (lone t k)) /\
  dget "time" (lone t k) = Some (VTime t) /\ (forall n v, dget n (lone t k) = Some v -> n <> "time" -> exists a, v = VDA a /\ dims a <> [] /\ NoDup (keys (attrs a))) /\
  (forall n a n' a', dget n (lone t k) = Some (VDA a) -> dget n' (lone t k) = Some (VDA a') -> ~ In n (dims a')) /\
  (forall n a, dget n (lone t k) = Some (VDA a) -> xr_decode (attrs a) (arr a) = Ok (attrs a, arr a)) /\
  (forall t0 z, dget "time" (lone t k) = Some (VTime t0) -> date_code "seconds" t0 t0 = Ok z -> date_decode "seconds" t0 z = Ok t0).
Proof. exact @ex_restart_hyps. Qed.

(** C55: after dying between the renames there is no <file>, and load() fails. *)
Theorem c55_missing : exists fs1 fs2, restart_store "r.nc" false (lone 0 1) [] = (Ok tt, fs1) /\ crash_points "r.nc" false (lone second 2) fs1 fs2 /\ dget "r.nc" fs2 = None /\ NetCDF.load "r.nc" fs2 = Err EIO.
Proof. exact @ex_restart_missing. Qed.
Print Assumptions c55_missing.

(** C55: storing a quantity without dims fails, and then no state can be stored until <file>.new is removed. *)
Theorem c55_blocked : exists e fs1, restart_store "r.nc" false (scalar 0) [] = (Err e, fs1) /\ forall st fs2 r, restart_store "r.nc" false st fs1 = (r, fs2) -> r = Err EIO /\ fs2 = fs1.
Proof. exact @ex_restart_blocked. Qed.
Print Assumptions c55_blocked.

(** C56: load() returns what was stored. *)
Theorem c56_round_trip : forall {T : Type} {A : Arith T} {N : NcLib T}, forall L f (st : state T) fs fs', plain_fit N -> grid_state L st -> (exists n, n <> "time" /\ In n (keys st)) ->
  (forall n a n' a', dget n st = Some (VDA a) -> dget n' st = Some (VDA a') -> ~ In n (dims a')) ->
  (forall n a, dget n st = Some (VDA a) -> xr_decode (attrs a) (arr a) = Ok (attrs a, arr a)) ->
  (forall t z, dget "time" st = Some (VTime t) -> date_code "seconds" t t = Ok z -> date_decode "seconds" t z = Ok t) ->
  restart_store f false st fs = (Ok tt, fs') ->
  exists st', NetCDF.load f fs' = Ok st' /\ NoDup (keys st') /\ forall n, dget n st' = dget n st.
Proof. exact @main_restart_round_trip. Qed.
Print Assumptions c56_round_trip.

(** A state of one quantity. *)
Example c56_hypotheses_met : forall t k, plain_fit ex_lib /\ clock (restart_monitor "r.nc" false) /\ grid_state Lx (lone t k) /\ (exists n, n <> "time" /\ In n (keys (lone t k))) /\ ~ In "" (keys (lone t k)) /\
  dget "time" (lone t k) = Some (VTime t) /\ (forall n v, dget n (lone t k) = Some v -> n <> "time" -> exists a, v = VDA a /\ dims a <> [] /\ NoDup (keys (attrs a))) /\
  (forall n a n' a', dget n (lone t k) = Some (VDA a) -> dget n' (lone t k) = Some (VDA a') -> ~ In n (dims a')) /\
  (forall n a, dget n (lone t k) = Some (VDA a) -> xr_decode (attrs a) (arr a) = Ok (attrs a, arr a)) /\
  (forall t0 z, dget "time" (lone t k) = Some (VTime t0) -> date_code "seconds" t0 t0 = Ok z -> date_decode "seconds" t0 z = Ok t0).
Proof. exact @ex_restart_hyps. Qed.

(** C56 fails for a quantity named like its own dim: it is stored, but cannot be loaded. *)
Theorem c56_own_dim_refuted : exists fs, restart_store "r.nc" false named_dim [] = (Ok tt, fs) /\ NetCDF.load "r.nc" fs = Err EValue.
Proof. exact @ex_restart_dim. Qed.
Print Assumptions c56_own_dim_refuted.

(** C56 fails for a quantity named like a dim of another: it is missing after load(). *)
Theorem c56_other_dim_refuted : exists fs st', restart_store "r.nc" false coordinate [] = (Ok tt, fs) /\ NetCDF.load "r.nc" fs = Ok st' /\ dget "x" st' = None /\ dget "x" coordinate <> None.
Proof. exact @ex_restart_coord. Qed.
Print Assumptions c56_other_dim_refuted.

(** C56 fails if times are timedeltas: the file cannot be loaded. *)
Theorem c56_timedelta_refuted : exists fs, restart_store "r.nc" true (lone 0 1) [] = (Ok tt, fs) /\ NetCDF.load "r.nc" fs = Err EType.
Proof. exact @ex_restart_delta. Qed.
Print Assumptions c56_timedelta_refuted.

(** C56 fails for quantities with units of time: load() gives them back without units. *)
Theorem c56_time_units_refuted : exists fs st' a, restart_store "r.nc" false lifetime [] = (Ok tt, fs) /\ NetCDF.load "r.nc" fs = Ok st' /\ dget "lifetime" st' = Some (VDA a) /\ dget "units" (attrs a) = None.
Proof. exact @ex_restart_units. Qed.
Print Assumptions c56_time_units_refuted.

(** C57: if no name clashes, a state is stored under its time, with every quantity chosen,
    under its alias, with the same value, and nothing else. *)
Theorem c57_prepare : forall {T : Type}, forall ord m (st : state T) t, (forall l, Permutation (ord l) l) -> NoDup (keys st) -> dget "time" st = Some (VTime t) ->
  ~ In "" (chosen ord m st) -> no_clashes (m_aliases m) (chosen ord m st) -> (forall la, In la (m_aliases m) -> str_in (fst la) "time" = false) ->
  exists cs, prepare ord m st = Ok (t, cs) /\ NoDup (keys cs) /\
  (forall n v, In n (chosen ord m st) -> n <> "time" -> dget n st = Some v -> dget (final_name (m_aliases m) n) cs = Some v) /\
  (forall x, In x (keys cs) -> exists n, In n (chosen ord m st) /\ n <> "time" /\ x = final_name (m_aliases m) n) /\
  (forall n n', In n (chosen ord m st) -> In n' (chosen ord m st) -> final_name (m_aliases m) n = final_name (m_aliases m) n' -> n = n').
Proof. exact @main_prepare. Qed.
Print Assumptions c57_prepare.

(** C57: no quantity is lost exactly when no name clashes. *)
Theorem c57_lossless : forall {T : Type}, forall ord m (st : state T) t, (forall l, Permutation (ord l) l) -> NoDup (keys st) -> dget "time" st = Some (VTime t) ->
  ~ In "" (chosen ord m st) -> (forall la, In la (m_aliases m) -> str_in (fst la) "time" = false) ->
  ((exists cs, prepare ord m st = Ok (t, cs) /\ S (length cs) = length (chosen ord m st)) <-> no_clashes (m_aliases m) (chosen ord m st)).
Proof. exact @main_lossless. Qed.
Print Assumptions c57_lossless.

(** Three aliases, the first two of which apply to parts of names, the third to the result of the first. *)
Example c57_hypotheses_met : NoDup (keys st_alias) /\ dget "time" st_alias = Some (VTime 9) /\ ~ In "" (chosen ident (mon_alias al_ex None) st_alias) /\
  no_clashes al_ex (chosen ident (mon_alias al_ex None) st_alias) /\ (forall la, In la al_ex -> str_in (fst la) "time" = false) /\
  map (final_name al_ex) (keys st_alias) = ["temp"; "temp_tendency"; "time"; "heatF"; "wind"].
Proof. exact @ex_alias_hyps. Qed.

(** C57 fails if two names have the same alias: one quantity is lost. *)
Theorem c57_same_alias_refuted : exists cs, prepare ident (mon_alias [("wind_a", "wind"); ("wind_b", "wind")] None) two_winds = Ok (0%Z, cs) /\ cs = [("wind", VTime 2)].
Proof. exact @ex_alias_same. Qed.
Print Assumptions c57_same_alias_refuted.

(** C57 fails if an alias makes a name into another that is still to be renamed, although
    the aliases of all names differ. *)
Theorem c57_order_refuted : exists cs, prepare ident (mon_alias [("u", "uu")] None) winds = Ok (0%Z, cs) /\ cs = [("uuuu", VTime 1)] /\
  NoDup (map (final_name [("u", "uu")]) (keys winds)).
Proof. exact @ex_alias_order. Qed.
Print Assumptions c57_order_refuted.

(** C57 fails if an alias applies to 'time'. *)
Theorem c57_time_refuted : prepare ident (mon_alias [("m", "M")] None) two_winds = Err EKey.
Proof. exact @ex_alias_time. Qed.
Print Assumptions c57_time_refuted.

(** C67: if no array is changed while it waits to be written, the file is that of a program
    that stores copies.  What is missing: states are cached by reference; see [c67_refuted]. *)
Theorem c67_undisturbed_partial : forall {T : Type} {A : Arith T} {N : NcLib T}, forall ord m ops (h : heap T) fs os fs' c', undisturbed (m_on_store m) [] h ops -> ref_run ord m ops h fs [] = (os, fs', c') -> Forall (eq (Ok tt)) os ->
  exists cv, mon_run ord m (at_store h ops) fs [] = (os, fs', cv).
Proof. exact @main_undisturbed. Qed.
Print Assumptions c67_undisturbed_partial.

(** C67: a monitor that writes at each store always writes the states as they are at the store. *)
Theorem c67_on_store : forall {T : Type} {A : Arith T} {N : NcLib T}, forall ord m ops (h : heap T) fs os fs' c', m_on_store m = true -> ref_run ord m ops h fs [] = (os, fs', c') -> Forall (eq (Ok tt)) os ->
  exists cv, mon_run ord m (at_store h ops) fs [] = (os, fs', cv).
Proof. exact @main_on_store. Qed.
Print Assumptions c67_on_store.

(** Other memory is changed before the write, the array after it. *)
Example c67_undisturbed_hypotheses_met : undisturbed false [] mem0 [RStore shared; RMemory mem2; RWrite; RMemory mem1; RStore shared; RWrite] /\
  Forall (eq (Ok tt)) (fst (fst (ref_run ident (mon_ex false) [RStore shared; RMemory mem2; RWrite; RMemory mem1; RStore shared; RWrite] mem0 [] []))).
Proof. exact @ex_undisturbed. Qed.

(** The array is changed between two stores. *)
Example c67_on_store_hypotheses_met : Forall (eq (Ok tt)) (fst (fst (ref_run ident (mon_ex true) [RStore shared; RMemory mem1; RStore shared] mem0 [] []))) /\
  match ref_run ident (mon_ex true) [RStore shared; RMemory mem1; RStore shared] mem0 [] [] with (_, fs, _) => numbers_are (file_numbers fs) [1; 7]%Z end = true.
Proof. exact @ex_on_store. Qed.

(** C67 fails otherwise: an array changed between store() and write() is written as it is at the write. *)
Theorem c67_refuted : exists fs fs' c c', ref_run ident (mon_ex false) [RStore shared; RMemory mem1; RWrite] mem0 [] [] = ([Ok tt; Ok tt], fs, c) /\
  mon_run ident (mon_ex false) (at_store mem0 [RStore shared; RMemory mem1; RWrite]) [] [] = ([Ok tt; Ok tt], fs', c') /\ fs <> fs'.
Proof. exact @ex_disturbed. Qed.
Print Assumptions c67_refuted.
