(** The NetCDF monitors (sympl/_components/netcdf.py). *)
From Coq Require Import String List Bool Arith ZArith.
From Verif Require Import Prelude ArithM NdArray DataArrayM StrFun.
Import ListNotations.
Open Scope string_scope.
Open Scope nat_scope.
Open Scope list_scope.

(** ** Files *)

(** The time variable of a file: its units, the reference date if the units are
    '... since ...', and its integers. *)
Record tvar : Type := mktvar { t_units : string; t_ref : option Z; t_vals : list Z }.

(** A variable along time.  [nv_dims] are the dims after 'time'; a row that has not
    been written ([None], or beyond the list) reads as the fill value. *)
Record ncvar (T : Type) : Type := mkncvar { nv_dims : list string; nv_attrs : dict string; nv_rows : list (option (nd T)) }.
Arguments mkncvar {T}.
Arguments nv_dims {T}.
Arguments nv_attrs {T}.
Arguments nv_rows {T}.

(** A NetCDF file: dimensions ([None] for an unlimited one), the time variable and the
    others.  The size of the time dimension is the number of times. *)
Record nfile_t (T : Type) : Type := mkds { d_dims : dict (option nat); d_time : option tvar; d_vars : dict (ncvar T) }.
Arguments mkds {T}.
Arguments d_dims {T}.
Arguments d_time {T}.
Arguments d_vars {T}.

(** What is used of netCDF4 and xarray: the number stored for a timedelta in given units,
    the number stored for a date relative to a reference date, its inverse, how values
    are fitted into a slot of another shape, and what decoding a variable with the given
    attributes gives. *)
Class NcLib (T : Type) : Type := {
  delta_code : string -> Z -> res Z;
  date_code : string -> Z -> Z -> res Z;
  date_decode : string -> Z -> Z -> res Z;
  nc_fit : nd T -> list nat -> res (nd T);
  xr_decode : dict string -> nd T -> res (dict string * nd T)
}.

(** util.py 188-192: same_list *)
Definition same_list (l1 l2 : list string) : bool :=
  Nat.eqb (length l1) (length l2) && (forallb (fun x => mem x l2) l1 && forallb (fun x => mem x l1) l2).

Section NetCDF.
  Context {T : Type} {A : Arith T} {N : NcLib T}.

  Definition nfile : Type := nfile_t T.
  Definition empty_ds : nfile := mkds [] None [].
  Definition files : Type := dict nfile.

  (** Something done to an open file; what was done before an exception stays done. *)
  Definition act (B : Type) : Type := nfile -> res B * nfile.
  Definition ret {B} (x : B) : act B := fun d => (Ok x, d).
  Definition fail {B} (e : exn) : act B := fun d => (Err e, d).
  Definition lift {B} (r : res B) : act B := fun d => (r, d).
  Definition thn {B C} (a : act B) (f : B -> act C) : act C :=
    fun d => match a d with (Ok x, d') => f x d' | (Err e, d') => (Err e, d') end.

  Fixpoint each {B} (f : B -> act unit) (l : list B) : act unit :=
    match l with
    | [] => ret tt
    | x :: r => thn (f x) (fun _ => each f r)
    end.

  Definition n_times (d : nfile) : nat := match d_time d with Some tv => length (t_vals tv) | None => 0 end.

  (** dataset.dimensions[d].size; only time is unlimited in the files of these monitors. *)
  Definition dim_size (d : nfile) (o : option nat) : nat := match o with Some n => n | None => n_times d end.

  (** netcdf.py 345-358: ensure_dimension_exists *)
  Definition ensure_dim (name : string) (len : option nat) : act unit := fun d =>
    match dget name (d_dims d), len with
    | Some None, None => (Ok tt, d)
    | Some (Some _), None => (Err EIO, d)
    | Some o, Some n => if Nat.eqb n (dim_size d o) then (Ok tt, d) else (Err EIO, d)
    | None, _ => (Ok tt, mkds (dset name len (d_dims d)) (d_time d) (d_vars d))
    end.

  (** The settings of a NetCDFMonitor; netcdf.py 23-65.  [m_delta]: the times of the run
      are timedeltas, not dates (a run has only one kind). *)
  Record monitor : Type := mkmon {
    m_file : string;
    m_units : string;
    m_names : option (list string);
    m_on_store : bool;
    m_aliases : dict string;
    m_delta : bool
  }.

  (** self._cached_state_dict, in order of insertion *)
  Definition cache_t : Type := list (Z * dict (pval T)).

  Fixpoint tget (t : Z) (c : cache_t) : option (dict (pval T)) :=
    match c with [] => None | (t', s) :: r => if Z.eqb t t' then Some s else tget t r end.

  Fixpoint tset (t : Z) (s : dict (pval T)) (c : cache_t) : cache_t :=
    match c with
    | [] => [(t, s)]
    | (t', s') :: r => if Z.eqb t t' then (t', s) :: r else (t', s') :: tset t s r
    end.

  (** sorted(..., key=lambda x: x[0]) *)
  Fixpoint insert_time (x : Z * dict (pval T)) (l : cache_t) : cache_t :=
    match l with
    | [] => [x]
    | y :: r => if Z.leb (fst x) (fst y) then x :: y :: r else y :: insert_time x r
    end.
  Fixpoint by_time (l : cache_t) : cache_t :=
    match l with [] => [] | x :: r => insert_time x (by_time r) end.

  (** netcdf.py 96-110: one alias applied to the cached names *)
  Definition apply_alias (cs : dict (pval T)) (long short : string) : res (dict (pval T)) :=
    foldM (fun cs name =>
             if str_in long name then
               let a := str_replace long short name in
               if String.eqb a "" then Err EValue
               else match dget name cs with
                    | Some v => Ok (dset a v (ddel name cs))
                    | None => Err EKey
                    end
             else Ok cs) (keys cs) cs.

  (** netcdf.py 84-112: the state to cache, and its time.  [ord] is the order in which
      Python iterates over the set of names. *)
  Definition prepare (ord : list string -> list string) (m : monitor) (st : state T) : res (Z * dict (pval T)) :=
    let* cs := match m_names m with
               | Some ns => mapM (fun n => let* v := dgetE n st in Ok (n, v)) (ord (filter (fun n => mem n ("time" :: ns)) (keys st)))
               | None => Ok st
               end in
    if mem "" (keys cs) then Err EValue else
    let* cs := foldM (fun cs la => apply_alias cs (fst la) (snd la)) (m_aliases m) cs in
    let* _ := dgetE "time" cs in
    let cs := ddel "time" cs in
    let* t := dgetE "time" st in
    match t with
    | VTime t => Ok (t, cs)
    | VDA _ => Err EType
    end.

  (** netcdf.py 113-116 *)
  Definition cache_add (t : Z) (cs : dict (pval T)) (c : cache_t) : cache_t :=
    match tget t c with
    | Some old => tset t (dupdate old cs) c
    | None => tset t cs c
    end.

  (** netcdf.py 127-159 *)
  Definition check_keys (c : cache_t) : act unit := fun d =>
    match c with
    | [] => (Ok tt, d)
    | (_, s) :: _ =>
        let ref := match keys (d_vars d) with [] => keys s | ks => ks end in
        if forallb (fun ts => same_list (keys (snd ts)) ref) c then (Ok tt, d) else (Err EInvalidState, d)
    end.

  (** netcdf.py 188-202: _ensure_time_exists *)
  Definition ensure_time (m : monitor) (t0 : Z) : act unit :=
    thn (ensure_dim "time" None) (fun _ d =>
      match d_time d with
      | Some _ => (Ok tt, d)
      | None => (Ok tt, mkds (d_dims d) (Some (mktvar (m_units m) (if m_delta m then None else Some t0) [])) (d_vars d))
      end).

  (** netcdf.py 257-273: append_times_to_dataset *)
  Definition append_times (m : monitor) (ts : list Z) : act unit := fun d =>
    match d_time d with
    | None => (Err EKey, d)
    | Some tv =>
        match (if m_delta m then mapM (delta_code (m_units m)) ts
               else match t_ref tv with
                    | Some r => mapM (date_code (t_units tv) r) ts
                    | None => Err EValue
                    end) with
        | Ok zs => (Ok tt, mkds (d_dims d) (Some (mktvar (t_units tv) (t_ref tv) (t_vals tv ++ zs))) (d_vars d))
        | Err e => (Err e, d)
        end
    end.

  (** A quantity of all the states of a batch: dims, shape and attributes of the first
      state, and one row for each state. *)
  Record comb : Type := mkcomb { cb_dims : list string; cb_shape : list nat; cb_attrs : dict string; cb_rows : list (nd T) }.

  (** xarray: target[i, :] = a[:].  Dims are matched by name, missing ones are broadcast,
      and so are those of length one. *)
  Definition row_of (ds : list string) (sh : list nat) (a : da T) : res (nd T) :=
    match ds, dims a with
    | [], _ | _, [] => Err EIndex
    | _, _ =>
        if forallb (fun d => mem d ds) (dims a) then
          let fits := fun dn => Nat.eqb (snd dn) 1 || match dget (fst dn) (combine ds sh) with Some n => Nat.eqb (snd dn) n | None => false end in
          if forallb fits (combine (dims a) (shape (arr a))) then
            Ok (build sh (fun idx => at_ (arr a) (map (fun dn => if Nat.eqb (snd dn) 1 then 0 else coord ds idx (fst dn))
                                                    (combine (dims a) (shape (arr a))))))
          else Err EValue
        else Err EValue
    end.

  Definition as_da (v : pval T) : res (da T) := match v with VDA a => Ok a | VTime _ => Err EAttr end.

  (** netcdf.py 276-290: combine_states.  Storage types (dtypes) are left out. *)
  Definition combine_states (states : list (dict (pval T))) : res (dict comb) :=
    match states with
    | [] => Err EIndex
    | first :: _ =>
        let* start := foldM (fun rd nv => let* a := as_da (snd nv) in
                                          Ok (dset (fst nv) (mkcomb (dims a) (shape (arr a)) (attrs a) []) rd)) first [] in
        foldM (fun rd st =>
                 foldM (fun rd nv =>
                          let* cb := dgetE (fst nv) rd in
                          let* a := as_da (snd nv) in
                          let* row := row_of (cb_dims cb) (cb_shape cb) a in
                          Ok (dset (fst nv) (mkcomb (cb_dims cb) (cb_shape cb) (cb_attrs cb) (cb_rows cb ++ [row])) rd))
                   st rd) states start
    end.

  (** netcdf.py 306-324: create_variable *)
  Definition create_variable (name : string) (cb : comb) : act unit :=
    thn (ensure_dim "time" None) (fun _ =>
    thn (each (fun dn => ensure_dim (fst dn) (Some (snd dn))) (combine (cb_dims cb) (cb_shape cb))) (fun _ d =>
      (Ok tt, mkds (d_dims d) (d_time d) (dset name (mkncvar (cb_dims cb) (cb_attrs cb) []) (d_vars d))))).

  (** netcdf.py 327-342: ensure_variable_is_compatible *)
  Definition compatible (v : ncvar T) (cb : comb) : res unit :=
    if negb (list_eqb (nv_dims v) (cb_dims cb)) then Err EIO
    else if forallb (fun ka => match dget (fst ka) (nv_attrs v) with Some x => String.eqb (snd ka) x | None => false end) (cb_attrs cb) then Ok tt
    else Err EInvalidState.

  (** netcdf.py 293-303: ensure_variable_exists *)
  Definition ensure_variable (name : string) (cb : comb) : act unit := fun d =>
    match dget name (d_vars d) with
    | None => create_variable name cb d
    | Some v => (compatible v cb, d)
    end.

  (** The shape of a row of a variable in the file. *)
  Definition slot_shape (d : nfile) (v : ncvar T) : list nat :=
    map (fun dn => match dget dn (d_dims d) with Some o => dim_size d o | None => 0 end) (nv_dims v).

  (** netcdf.py 183-184: dataset.variables[name][it_start:it_end, :] = value.values[:, :] *)
  Definition put_rows (name : string) (start : nat) (cb : comb) : act unit := fun d =>
    match dget name (d_vars d) with
    | None => (Err EKey, d)
    | Some v =>
        match mapM (fun r => nc_fit r (slot_shape d v)) (cb_rows cb) with
        | Err e => (Err e, d)
        | Ok rows =>
            let old := firstn start (nv_rows v) in
            let pad := repeat None (start - length (nv_rows v)) in
            let rest := skipn (start + length rows) (nv_rows v) in
            (Ok tt, mkds (d_dims d) (d_time d)
                      (dset name (mkncvar (nv_dims v) (nv_attrs v) (old ++ pad ++ map Some rows ++ rest)) (d_vars d)))
        end
    end.

  (** netcdf.py 172-184: what write() does to the open file *)
  Definition write_act (m : monitor) (c : cache_t) : act unit :=
    thn (check_keys c) (fun _ =>
      match by_time c with
      | [] => fail EValue
      | ((t0, _) :: _) as l =>
          thn (ensure_time m t0) (fun _ d =>
            let start := n_times d in
            thn (append_times m (map fst l)) (fun _ =>
            thn (lift (combine_states (map snd l))) (fun all =>
              each (fun nc => thn (ensure_variable (fst nc) (snd nc)) (fun _ => put_rows (fst nc) start (snd nc))) all)) d)
      end).

  (** netcdf.py 119-124, 161-185: write.  Opening creates the file if there is none. *)
  Definition write (m : monitor) (fs : files) (c : cache_t) : res unit * files * cache_t :=
    let d := match dget (m_file m) fs with Some d => d | None => empty_ds end in
    match write_act m c d with
    | (Ok _, d') => (Ok tt, dset (m_file m) d' fs, [])
    | (Err e, d') => (Err e, dset (m_file m) d' fs, c)
    end.

  (** netcdf.py 67-118: store *)
  Definition store (ord : list string -> list string) (m : monitor) (st : state T) (fs : files) (c : cache_t) : res unit * files * cache_t :=
    match prepare ord m st with
    | Err e => (Err e, fs, c)
    | Ok (t, cs) => let c' := cache_add t cs c in if m_on_store m then write m fs c' else (Ok tt, fs, c')
    end.

  (** A program using one monitor. *)
  Inductive mon_op : Type := Store (st : state T) | Write.

  Definition mon_step (ord : list string -> list string) (m : monitor) (op : mon_op) (fs : files) (c : cache_t) : res unit * files * cache_t :=
    match op with
    | Store st => store ord m st fs c
    | Write => write m fs c
    end.

  (** The calls one after another; exceptions are caught by the program. *)
  Fixpoint mon_run (ord : list string -> list string) (m : monitor) (ops : list mon_op) (fs : files) (c : cache_t) : list (res unit) * files * cache_t :=
    match ops with
    | [] => ([], fs, c)
    | op :: r => match mon_step ord m op fs c with
                 | (o, fs', c') => match mon_run ord m r fs' c' with
                                   | (os, fs'', c'') => (o :: os, fs'', c'')
                                   end
                 end
    end.

  (** ** RestartMonitor *)

  (** netcdf.py 216, 229: NetCDFMonitor(new_filename) *)
  Definition restart_monitor (f : string) (delta : bool) : monitor := mkmon f "seconds" None false [] delta.

  Definition new_name (f : string) : string := (f ++ ".new")%string.
  Definition old_name (f : string) : string := (f ++ ".old")%string.

  (** os.rename (POSIX: an existing destination is replaced) *)
  Definition rename (a b : string) (fs : files) : files :=
    match dget a fs with
    | Some d => dset b d (ddel a fs)
    | None => fs
    end.

  (** netcdf.py 233-234 *)
  Definition backup (f : string) (fs : files) : files := if dmem f fs then rename f (old_name f) fs else fs.
  (** netcdf.py 235 *)
  Definition install (f : string) (fs : files) : files := rename (new_name f) f fs.
  (** netcdf.py 236-237 *)
  Definition clean (f : string) (fs : files) : files := if dmem (old_name f) fs then ddel (old_name f) fs else fs.

  (** netcdf.py 226-231: the new file is written.  [ord] is not used without store_names. *)
  Definition write_new (f : string) (delta : bool) (st : state T) (fs : files) : res unit * files :=
    if dmem (new_name f) fs then (Err EIO, fs)
    else match store (fun l => l) (restart_monitor (new_name f) delta) st fs [] with
         | (Err e, fs', _) => (Err e, fs')
         | (Ok _, fs', c) => match write (restart_monitor (new_name f) delta) fs' c with
                             | (r, fs'', _) => (r, fs'')
                             end
         end.

  (** netcdf.py 216-237: RestartMonitor.store *)
  Definition restart_store (f : string) (delta : bool) (st : state T) (fs : files) : res unit * files :=
    match write_new f delta st fs with
    | (Err e, fs') => (Err e, fs')
    | (Ok _, fs') => (Ok tt, clean f (install f (backup f fs')))
    end.

  (** Every state of the file system at which the process can die during store(): the new
      file may have any contents while it is being written. *)
  Definition crash_points (f : string) (delta : bool) (st : state T) (fs : files) (fs' : files) : Prop :=
    fs' = fs \/
    (dmem (new_name f) fs = false /\ exists junk, fs' = dset (new_name f) junk fs) \/
    exists fs1, write_new f delta st fs = (Ok tt, fs1) /\
      (fs' = fs1 \/ fs' = backup f fs1 \/ fs' = install f (backup f fs1) \/ fs' = clean f (install f (backup f fs1))).

  (** netcdf.py 239-254: load.  xarray decodes the variables, refuses variables named
      like one of their own dims, and takes those named like a dim for coordinates. *)
  Definition load (f : string) (fs : files) : res (state T) :=
    match dget f fs with
    | None => Err EIO
    | Some d =>
        let* vars := mapM (fun nv => let* _ := raise_if (mem (fst nv) ("time" :: nv_dims (snd nv))) EValue in
                                     match nv_rows (snd nv) with
                                     | Some r :: _ => let* ar := xr_decode (nv_attrs (snd nv)) r in Ok (fst nv, mkda (nv_dims (snd nv)) (snd ar) (fst ar))
                                     | _ => Err EIndex
                                     end) (d_vars d) in
        let vars := filter (fun nv => negb (dmem (fst nv) (d_dims d))) vars in
        match d_time d with
        | None => Err EKey
        | Some tv => match t_ref tv, t_vals tv with
                     | Some r, z :: _ => let* t := date_decode (t_units tv) r z in
                                         Ok (dset "time" (VTime t) (map (fun nv => (fst nv, VDA (snd nv))) vars))
                     | None, _ => Err EType
                     | _, [] => Err EIndex
                     end
        end
    end.
End NetCDF.
Arguments nfile T : clear implicits.
Arguments files T : clear implicits.
Arguments cache_t T : clear implicits.
Arguments mon_op T : clear implicits.
Arguments comb T : clear implicits.
