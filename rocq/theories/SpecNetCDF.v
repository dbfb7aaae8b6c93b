(** Specification vocabulary for the NetCDF monitors (C53-C57). *)
From Coq Require Import String List Bool Arith ZArith Sorting.
From Verif Require Import Prelude ArithM NdArray DataArrayM StrFun NetCDF.
Import ListNotations.
Open Scope string_scope.
Open Scope nat_scope.
Open Scope list_scope.

(** Values of the right shape go into a file as they are. *)
Definition plain_fit {T} (N : NcLib T) : Prop := forall a : nd T, nc_fit a (shape a) = Ok a.

Section SpecNetCDF.
  Context {T : Type} {A : Arith T} {N : NcLib T}.

  (** There is a quantity; every quantity has the lengths [L] gives for its dims; none has
      a dim 'time'. *)
  Definition on_grid (L : string -> nat) (s : dict (pval T)) : Prop :=
    s <> [] /\ NoDup (keys s) /\ forall n a, dget n s = Some (VDA a) -> wf_da a /\ shape (arr a) = map L (dims a) /\ ~ In "time" (dims a).

  (** The states stored between two writes, the times in increasing order, each once,
      each with the quantities stored for it; the last one stored counts. *)
  Definition latest (stored : list (Z * dict (pval T))) (t : Z) (n : string) : option (pval T) :=
    fold_left (fun acc s => if Z.eqb t (fst s) then match dget n (snd s) with Some v => Some v | None => acc end else acc) stored None.

  Definition batch_of (stored batch : list (Z * dict (pval T))) : Prop :=
    StronglySorted Z.lt (map fst batch) /\
    (forall t, In t (map fst batch) <-> In t (map fst stored)) /\
    forall t s, In (t, s) batch -> NoDup (keys s) /\ forall n, dget n s = latest stored t n.

  (** The states a monitor has cached: those of a batch, in any order of their times. *)
  Definition cache_is (stored : list (Z * dict (pval T))) (c : cache_t T) : Prop :=
    NoDup (map fst c) /\ (forall t, In t (map fst c) <-> In t (map fst stored)) /\
    forall t s, In (t, s) c -> NoDup (keys s) /\ forall n, dget n s = latest stored t n.

  (** The states stored up to each write, and those stored since the last. *)
  Fixpoint batches (on_store : bool) (current : list (state T)) (ops : list (mon_op T)) : list (list (state T)) * list (state T) :=
    match ops with
    | [] => ([], current)
    | Store st :: r =>
        if on_store then let (bs, tl) := batches on_store [] r in ((current ++ [st]) :: bs, tl)
        else batches on_store (current ++ [st]) r
    | Write :: r => let (bs, tl) := batches on_store [] r in (current :: bs, tl)
    end.

  (** The number a file has for a time. *)
  Definition time_code (m : monitor) (tv : tvar) (t : Z) : res Z :=
    if m_delta m then delta_code (m_units m) t
    else match t_ref tv with Some r => date_code (t_units tv) r t | None => Err EValue end.

  (** A row holds the numbers of [a], at the same named coordinates. *)
  Definition holds_row (L : string -> nat) (ds : list string) (a : da T) (row : option (nd T)) : Prop :=
    exists r, row = Some r /\ wf_nd r /\ shape r = map L ds /\ incl (dims a) ds /\
      forall c, (forall d, In d ds -> c d < L d) -> at_ r (map c ds) = da_at a c.

  (** A file holds the states of [log], one row for each, in that order. *)
  Definition holds (m : monitor) (L : string -> nat) (log : list (Z * dict (pval T))) (f : nfile T) : Prop :=
    match log with
    | [] => d_vars f = [] /\ n_times f = 0
    | (_, s0) :: _ =>
        (exists tv, d_time f = Some tv /\ Forall2 (fun t z => time_code m tv t = Ok z) (map fst log) (t_vals tv)) /\
        NoDup (keys (d_vars f)) /\
        (forall ts, In ts log -> forall n, In n (keys (snd ts)) <-> In n (keys (d_vars f))) /\
        forall n v, dget n (d_vars f) = Some v ->
          (exists a0, dget n s0 = Some (VDA a0) /\ nv_dims v = dims a0 /\ nv_attrs v = attrs a0) /\
          Forall2 (fun ts row => exists a, dget n (snd ts) = Some (VDA a) /\ holds_row L (nv_dims v) a row) log (nv_rows v)
    end.

  (** The dimensions of a file agree with the grid. *)
  Definition grid_dims (L : string -> nat) (f : nfile T) : Prop :=
    (forall x o, dget x (d_dims f) = Some o -> o = if String.eqb x "time" then None else Some (L x)) /\
    (forall n v, dget n (d_vars f) = Some v -> incl (nv_dims v) (keys (d_dims f)) /\ ~ In "time" (nv_dims v)).

  (** What a later file keeps of an earlier one: its times, dimensions and variables, and
      all rows of those times. *)
  Definition keeps (f f' : nfile T) : Prop :=
    (forall x o, dget x (d_dims f) = Some o -> dget x (d_dims f') = Some o) /\
    (forall tv, d_time f = Some tv -> exists more, d_time f' = Some (mktvar (t_units tv) (t_ref tv) (t_vals tv ++ more))) /\
    (forall n v, dget n (d_vars f) = Some v -> exists v', dget n (d_vars f') = Some v' /\ nv_dims v' = nv_dims v /\ nv_attrs v' = nv_attrs v /\
       forall i, i < n_times f -> nth i (nv_rows v') None = nth i (nv_rows v) None).
End SpecNetCDF.

Section SpecHistory.
  Context {T : Type} {A : Arith T} {N : NcLib T}.

  (** The monitor's file, an empty one if there is none. *)
  Definition opened (m : monitor) (fs : files T) : nfile T := match dget (m_file m) fs with Some d => d | None => empty_ds end.

  (** The monitor's file holds the states of [log]; without any there may be no file. *)
  Definition file_holds (m : monitor) (L : string -> nat) (log : list (Z * dict (pval T))) (fs : files T) : Prop :=
    (forall ts, In ts log -> snd ts <> []) /\
    match dget (m_file m) fs with
    | None => log = []
    | Some f => holds m L log f /\ grid_dims L f
    end.

  (** The state of a model on a grid. *)
  Definition grid_state (L : string -> nat) (st : state T) : Prop :=
    NoDup (keys st) /\ forall n a, dget n st = Some (VDA a) -> wf_da a /\ shape (arr a) = map L (dims a) /\ ~ In "time" (dims a).
End SpecHistory.

(** The quantities of a run: their names, dims and attributes. *)
Record schema : Type := mkschema { sc_names : list string; sc_dims : string -> list string; sc_attrs : string -> dict string }.

Section SpecSchema.
  Context {T : Type} {A : Arith T} {N : NcLib T}.

  (** A state has the quantities of the schema, none of them without dims. *)
  Definition fits (S : schema) (s : dict (pval T)) : Prop :=
    (forall n, In n (keys s) <-> In n (sc_names S)) /\
    forall n v, dget n s = Some v -> exists a, v = VDA a /\ dims a = sc_dims S n /\ dims a <> [] /\ attrs a = sc_attrs S n /\ NoDup (keys (attrs a)).

  (** The library can express all times in the monitor's units. *)
  Definition clock (m : monitor) : Prop :=
    if m_delta m then forall t, exists z, delta_code (m_units m) t = Ok z
    else forall r t, exists z, date_code (m_units m) r t = Ok z.

  (** The file's times are of the monitor's kind. *)
  Definition same_clock (m : monitor) (f : nfile T) : Prop :=
    forall tv, d_time f = Some tv -> t_units tv = m_units m /\ (m_delta m = false -> t_ref tv <> None).
End SpecSchema.

Section SpecAlias.
  Context {T : Type}.

  (** What each stored state adds to the file is on the grid, and not nothing. *)
  Definition storable (ord : list string -> list string) (m : monitor) (L : string -> nat) (st : state T) : Prop :=
    grid_state L st /\ forall t cs, prepare ord m st = Ok (t, cs) -> cs <> [].

  (** A state as the monitor stores it has the quantities of the schema. *)
  Definition conforms (ord : list string -> list string) (m : monitor) (S : schema) (st : state T) : Prop :=
    exists t cs, prepare ord m st = Ok (t, cs) /\ fits S cs.

  Definition file_clock (m : monitor) (fs : files T) : Prop := forall f, dget (m_file m) fs = Some f -> same_clock m f.

  (** The name a quantity gets from one alias, and from a table of aliases. *)
  Definition renamed (la : string * string) (n : string) : string := if str_in (fst la) n then str_replace (fst la) (snd la) n else n.
  Definition final_name (aliases : dict string) (n : string) : string := fold_left (fun n la => renamed la n) aliases n.

  (** One alias, applied to names in turn: no new name is empty, the name of another, or
      the old name of one that is still to come. *)
  Fixpoint no_clash (la : string * string) (ks : list string) : Prop :=
    match ks with
    | [] => True
    | k :: r => (str_in (fst la) k = true -> renamed la k <> "") /\
                (forall k', In k' r -> renamed la k' <> renamed la k /\ renamed la k <> k') /\ no_clash la r
    end.

  (** Renamed quantities go to the end. *)
  Definition names_after (la : string * string) (ks : list string) : list string :=
    filter (fun k => negb (str_in (fst la) k)) ks ++ map (renamed la) (filter (str_in (fst la)) ks).

  Fixpoint no_clashes (aliases : dict string) (ks : list string) : Prop :=
    match aliases with
    | [] => True
    | la :: r => no_clash la ks /\ no_clashes r (names_after la ks)
    end.

  (** The names in a state that a monitor stores. *)
  Definition chosen (ord : list string -> list string) (m : monitor) (st : state T) : list string :=
    match m_names m with
    | Some ns => ord (filter (fun n => mem n ("time" :: ns)) (keys st))
    | None => keys st
    end.
End SpecAlias.

Section SpecRestart.
  Context {T : Type} {A : Arith T} {N : NcLib T}.

  (** The complete restart of a state: what storing it writes in an empty directory. *)
  Definition saved (f : string) (delta : bool) (st : state T) (d : nfile T) : Prop :=
    write_new f delta st [] = (Ok tt, [(new_name f, d)]).

  (** A restart file over many runs: stores that return or raise, stores during which the
      process dies, and the removal of a left-over <file>.new; each attempt to store is
      listed, with whether it returned. *)
  Inductive restart_history (f : string) (delta : bool) (fs0 : files T) : list (state T * bool) -> files T -> Prop :=
  | rh_start : restart_history f delta fs0 [] fs0
  | rh_store : forall h fs st r fs', restart_history f delta fs0 h fs -> restart_store f delta st fs = (r, fs') ->
      restart_history f delta fs0 (h ++ [(st, match r with Ok _ => true | Err _ => false end)]) fs'
  | rh_crash : forall h fs st fs', restart_history f delta fs0 h fs -> crash_points f delta st fs fs' ->
      restart_history f delta fs0 (h ++ [(st, false)]) fs'
  | rh_remove : forall h fs, restart_history f delta fs0 h fs -> restart_history f delta fs0 h (ddel (new_name f) fs).

  (** Where to look for a restart: <file>, and <file>.old if that is missing. *)
  Definition current (f : string) (fs : files T) : option (nfile T) :=
    match dget f fs with Some d => Some d | None => dget (old_name f) fs end.
End SpecRestart.
