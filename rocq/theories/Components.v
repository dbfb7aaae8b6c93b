(** sympl/_core/base_components.py: the property checkers, the constructors and
    the [__call__] methods of the four component classes.

    The user's [array_call] is an arbitrary state machine
    [U -> raw state -> U * result]: [U] is everything user code can observe or
    change, so "array_call is not run" is "[U] is unchanged".
    Simplifications: property dictionaries are always dicts with string names
    (the isinstance tests 115-127, 177-189, 253-265, 334-346 are void); array_call
    does not modify the raw arrays it is given in place. *)
From Coq Require Import String List Bool Arith ZArith QArith.
From Verif Require Import Prelude ArithM NdArray Units DataArrayM Wildcard GetNp Restore Tracers.
Import ListNotations.
Open Scope string_scope.
Open Scope nat_scope.
Open Scope list_scope.

(** ** Checkers *)

(** base_components.py 96-107: check_overlapping_aliases *)
Definition check_overlapping_aliases (pd : pdict) : res unit :=
  let* _ := foldM (fun seen np =>
                     match p_alias (snd np) with
                     | Some al => if mem al seen then Err EInvalidProps else Ok (al :: seen)
                     | None => Ok seen
                     end) pd [] in
  Ok tt.

(** base_components.py 112-134: InputChecker.__init__ *)
Definition check_input_properties (inp : pdict) : res unit :=
  let* _ := foldM (fun _ np => match p_units (snd np), p_dims (snd np) with
                               | Some _, Some _ => Ok tt
                               | _, _ => Err EInvalidProps
                               end) inp tt in
  check_overlapping_aliases inp.

(** base_components.py 191-198, 266-273, 347-354: units given, dims given or the
    quantity is an input. *)
Definition check_output_entries (outp inp : pdict) : res unit :=
  foldM (fun _ np =>
           match p_units (snd np) with
           | None => Err EInvalidProps
           | Some _ =>
               match p_dims (snd np) with
               | Some _ => Ok tt
               | None => if dmem (fst np) inp then Ok tt else Err EInvalidProps
               end
           end) outp tt.

(** base_components.py 137-140: check_inputs *)
Definition check_inputs {V} (inp : pdict) (st : dict V) : res unit :=
  foldM (fun _ np => if dmem (fst np) st then Ok tt else Err EInvalidState) inp tt.

(** base_components.py 209-219, 285-296, 366-377: wanted aliases of one output:
    its own alias, then the alias of the input of the same name. *)
Definition wanted_aliases (inp : pdict) (np : string * props) : list string :=
  (match p_alias (snd np) with Some al => [al] | None => [] end) ++
  (match dget (fst np) inp with
   | Some q => match p_alias q with Some al => [al] | None => [] end
   | None => []
   end).

(** base_components.py 221-230, 298-308, 379-389: _check_missing_*.  Only the
    diagnostic checker has ignored names. *)
Definition check_missing {V} (outp inp : pdict) (ign : list string) (raw : dict V) : res unit :=
  raise_if (existsb (fun np => negb (dmem (fst np) raw) && negb (mem (fst np) ign) &&
                               negb (existsb (fun al => dmem al raw) (wanted_aliases inp np))) outp)
           EMissingOutput.

(** base_components.py 232-242, 310-320, 391-401: _check_extra_* *)
Definition check_extra {V} (outp inp : pdict) (raw : dict V) : res unit :=
  let wanted := keys outp ++ flat_map (wanted_aliases inp) outp in
  raise_if (existsb (fun k => negb (mem k wanted)) (keys raw)) EExtraOutput.

(** base_components.py 244-246, 325-327, 403-405: check_tendencies,
    check_diagnostics, check_outputs *)
Definition check_outputs {V} (outp inp : pdict) (ign : list string) (raw : dict V) : res unit :=
  let* _ := check_missing outp inp ign raw in check_extra outp inp raw.

Section Units.
  Context {R : Registry}.

  (** base_components.py 162-166: units of the tendency of a quantity. *)
  Definition per_second (u : string) : string :=
    if String.eqb u "" then "s^-1" else (u ++ " s^-1")%string.

  (** base_components.py 143-170: get_name_with_incompatible_units and
      get_tendency_name_with_incompatible_units; [f] is the identity or
      [per_second].  Python iterates over a set; the order decides which name is
      reported, and which exception if some unit is unknown; the order of the
      first dictionary is used here.  A missing 'units' is a KeyError (void after
      the earlier checks). *)
  Definition check_compatible (f : string -> string) (inp outp : pdict) : res unit :=
    foldM (fun _ np =>
             match dget (fst np) outp with
             | None => Ok tt
             | Some q =>
                 match p_units (snd np), p_units q with
                 | Some u1, Some u2 =>
                     let* b := units_are_compatible (f u1) u2 in
                     if b then Ok tt else Err EInvalidProps
                 | _, _ => Err EKey
                 end
             end) inp tt.

  (** base_components.py 175-209: TendencyChecker.__init__ *)
  Definition check_tendency_properties (tend inp : pdict) : res unit :=
    let* _ := check_output_entries tend inp in
    let* _ := check_overlapping_aliases tend in
    check_compatible per_second inp tend.

  (** base_components.py 251-282: DiagnosticChecker.__init__ *)
  Definition check_diagnostic_properties (diag inp : pdict) : res unit :=
    let* _ := check_output_entries diag inp in
    let* _ := check_compatible (fun u => u) inp diag in
    check_overlapping_aliases diag.

  (** base_components.py 332-366: OutputChecker.__init__ *)
  Definition check_output_properties (outp inp : pdict) : res unit :=
    let* _ := check_output_entries outp inp in
    let* _ := check_overlapping_aliases outp in
    check_compatible (fun u => u) inp outp.
End Units.

(** ** Components *)

(** An instance of TendencyComponent or ImplicitTendencyComponent.  [t_init]:
    the base-class __init__ has run. *)
Record tcomp : Type := mktcomp {
  t_init : bool;
  t_inp : pdict;
  t_tend : pdict;
  t_diag : pdict;
  t_name : string;
  t_tid : bool;                     (* tendencies_in_diagnostics *)
  t_added : list string;            (* _added_diagnostic_names = ignored diagnostics *)
  t_packer : option packer;         (* Some: uses_tracers *)
  t_tunit : string                  (* tracer_tendency_time_unit *)
}.

(** An instance of DiagnosticComponent. *)
Record dcomp : Type := mkdcomp { d_init : bool; d_inp : pdict; d_diag : pdict }.

(** An instance of Stepper.  [s_tu] is time_unit_timedelta in microseconds. *)
Record scomp : Type := mkscomp {
  s_init : bool;
  s_inp : pdict;
  s_diag : pdict;
  s_out : pdict;
  s_name : string;
  s_tid : bool;
  s_ign : list string;
  s_packer : option packer;
  s_tu : Z
}.

(** Tracer options of a class: uses_tracers = True with tracer_dims and
    prepend_tracers; tracer_dims may be missing. *)
Definition tracer_opts : Type := option (option (list string) * list (string * string)).

(** base_components.py 560-561, 791-792, 1013-1014: _get_tendency_name *)
Definition tendency_name (comp name : string) : string :=
  (name ++ "_tendency_from_" ++ comp)%string.

Section Construct.
  Context {R : Registry}.

  (** Lines 502-516, 757-768, 984-992: create the tracer packer when asked to. *)
  Definition make_packer (g : treg) (o : tracer_opts) (outs : list string)
      : treg * res (option packer) :=
    match o with
    | None => (g, Ok None)
    | Some (None, _) => (g, Err EValue)
    | Some (Some ds, prep) =>
        let (g', r) := new_packer g prep ds outs in
        (g', let* p := r in Ok (Some p))
    end.

  (** base_components.py 776-789, 998-1011: TendencyComponent._insert_tendency_properties.
      The accumulator is the extended diagnostic properties and the added names. *)
  Definition insert_tendency_step (comp : string) (inp : pdict) (acc : pdict * list string)
      (np : string * props) : res (pdict * list string) :=
    let tn := tendency_name comp (fst np) in
    let* ds := match p_dims (snd np) with
               | Some ds => Ok (ds, p_tuple (snd np))
               | None => let* q := dgetE (fst np) inp in
                         match p_dims q with Some ds => Ok (ds, p_tuple q) | None => Err EKey end
               end in
    let* u := match p_units (snd np) with Some u => Ok u | None => Err EKey end in
    Ok (dset tn (mkprops (Some (fst ds)) (snd ds) (Some u) None false) (fst acc), snd acc ++ [tn]).

  Definition insert_tendency_properties (comp : string) (inp tend diag : pdict)
      : res (pdict * list string) :=
    foldM (insert_tendency_step comp inp) tend (diag, []).

  (** base_components.py 737-770 (TendencyComponent.__init__) and 961-993
      (ImplicitTendencyComponent.__init__; the diagnostic checks come before the
      tendency checks there).  Property dictionaries belong to the instance here;
      see ClassState.v for dictionaries shared through the class. *)
  Definition make_tendency_component (implicit : bool) (g : treg) (inp tend diag : pdict)
      (name : string) (tid : bool) (tro : tracer_opts) (tunit : string) : treg * res tcomp :=
    let checks :=
      let* _ := check_input_properties inp in
      if implicit then
        let* _ := check_diagnostic_properties diag inp in check_tendency_properties tend inp
      else
        let* _ := check_tendency_properties tend inp in check_diagnostic_properties diag inp in
    match (let* _ := checks in
           if tid then insert_tendency_properties name inp tend diag else Ok (diag, [])) with
    | Err e => (g, Err e)
    | Ok (diag', added) =>
        let (g', r) := make_packer g tro (keys tend) in
        (g', let* pk := r in Ok (mktcomp true inp tend diag' name tid added pk tunit))
    end.

  (** base_components.py 1159-1165: DiagnosticComponent.__init__ *)
  Definition make_diagnostic_component (inp diag : pdict) : res dcomp :=
    let* _ := check_input_properties inp in
    let* _ := check_diagnostic_properties diag inp in
    Ok (mkdcomp true inp diag).

  (** Python [==] on the dims entries of two property dictionaries: a list and a
      tuple are never equal. *)
  Definition dims_eq (d1 : list string * bool) (d2 : list string * bool) : bool :=
    list_eqb (fst d1) (fst d2) && Bool.eqb (snd d1) (snd d2).

  (** base_components.py 518-558: Stepper._insert_tendency_properties; the
      accumulator is (input_properties, diagnostic_properties, added names). *)
  Definition stepper_insert_step (comp : string) (acc : pdict * pdict * list string)
      (np : string * props) : res (pdict * pdict * list string) :=
    let '(inp, diag, added) := acc in
    let name := fst np in
    let tn := tendency_name comp name in
    let* u := match p_units (snd np) with Some u => Ok u | None => Err EKey end in
    let* ds := match p_dims (snd np) with
               | Some ds => Ok (ds, p_tuple (snd np))
               | None => let* q := dgetE name inp in
                         match p_dims q with Some ds => Ok (ds, p_tuple q) | None => Err EKey end
               end in
    let diag' := dset tn (mkprops (Some (fst ds)) (snd ds) (Some (per_second u)) None false) diag in
    match dget name inp with
    | None => Ok (dset name (mkprops (Some (fst ds)) (snd ds) (Some u) None false) inp,
                  diag', added ++ [tn])
    | Some q =>
        match p_dims q, p_units q with
        | Some ids, Some iu =>
            if negb (dims_eq (ids, p_tuple q) ds) then Err EInvalidProps
            else if negb (String.eqb iu u) then Err EInvalidProps
            else Ok (inp, diag', added ++ [tn])
        | _, _ => Err EKey
        end
    end.

  (** base_components.py 483-516: Stepper.__init__ *)
  Definition make_stepper (g : treg) (inp diag outp : pdict) (name : string) (tid : bool)
      (tro : tracer_opts) (tu : Z) : treg * res scomp :=
    match (let* _ := check_input_properties inp in
           let* _ := check_diagnostic_properties diag inp in
           let* _ := check_output_properties outp inp in
           if tid then foldM (stepper_insert_step name) outp (inp, diag, []) else Ok (inp, diag, []))
    with
    | Err e => (g, Err e)
    | Ok (inp', diag', added) =>
        let (g', r) := make_packer g tro (keys outp) in
        (g', let* pk := r in Ok (mkscomp true inp' diag' outp name tid added pk tu))
    end.
End Construct.

(** ** Calls *)

(** A value of the raw state given to array_call: an array, or the time. *)
Inductive rval (T : Type) : Type :=
| RArr (a : nd T)
| RTime (t : pval T).
Arguments RArr {T} a.
Arguments RTime {T} t.

Section Calls.
  Context {T : Type} {A : Arith T} {R : Registry}.

  (** numpy broadcasting of two shapes, aligned at the last axis. *)
  Fixpoint bshape_rev (s1 s2 : list nat) : option (list nat) :=
    match s1, s2 with
    | [], s | s, [] => Some s
    | n :: r1, m :: r2 =>
        match bshape_rev r1 r2 with
        | None => None
        | Some r => if Nat.eqb n m then Some (n :: r) else if Nat.eqb n 1 then Some (m :: r)
                    else if Nat.eqb m 1 then Some (n :: r) else None
        end
    end.

  Definition np_binop (op : T -> T -> T) (a b : nd T) : res (nd T) :=
    match bshape_rev (rev (shape a)) (rev (shape b)) with
    | None => Err EValue
    | Some rs =>
        let sh := rev rs in
        let pick (x : nd T) idx := at_ x (bcast_idx (shape x) (skipn (length sh - length (shape x)) idx)) in
        Ok (build sh (fun idx => op (pick a idx) (pick b idx)))
    end.

  (** timedelta.total_seconds() for a number of microseconds. *)
  Definition total_seconds (dt : Z) : T := aofQ (dt # 1000000).

  (** Lines 605-609, 834-838, 1060-1064, 1213-1215: the raw state passed to
      array_call. *)
  Definition raw_state (g : treg) (inp : pdict) (pk : option packer) (st : state T)
      : res (dict (rval T)) :=
    let* _ := check_inputs inp st in
    let* raw := get_numpy_arrays_with_properties st inp in
    let raw := map (fun kv => (fst kv, RArr (snd kv))) raw in
    let* raw := match pk with
                | None => Ok raw
                | Some p => let* t := pack g p st in Ok (dset "tracers" (RArr t) raw)
                end in
    let* t := dgetE "time" st in
    Ok (dset "time" (RTime t) raw).

  (** raw.pop('tracers'), then unpack; {} without tracers. *)
  Definition unpack_tracers (g : treg) (pk : option packer) (mult : string) (raw : dict (nd T))
      (st : state T) : res (dict (da T) * dict (nd T)) :=
    match pk with
    | None => Ok ([], raw)
    | Some p =>
        let* t := dgetE "tracers" raw in
        let* out := unpack g p t st mult in
        Ok (out, ddel "tracers" raw)
    end.

  (** base_components.py 863-866: TendencyComponent._insert_tendencies_to_diagnostics *)
  Definition insert_tendencies (comp : string) (tend diag : dict (da T)) : dict (da T) :=
    fold_left (fun d nv => dset (tendency_name comp (fst nv)) (snd nv) d) tend diag.

  (** Everything __call__ does after array_call returned, lines 840-861. *)
  Definition tendency_finish (g : treg) (c : tcomp) (st : state T)
      (out : dict (nd T) * dict (nd T)) : res (dict (da T) * dict (da T)) :=
    let* (tr, raw_tend) := unpack_tracers g (t_packer c) (t_tunit c) (fst out) st in
    let* _ := check_outputs (t_tend c) (t_inp c) [] raw_tend in
    let* _ := check_outputs (t_diag c) (t_inp c) (t_added c) (snd out) in
    let* tend := restore_data_arrays_with_properties raw_tend (t_tend c) st (t_inp c) [] false in
    let tend := dupdate tr tend in
    let* diag := restore_data_arrays_with_properties (snd out) (t_diag c) st (t_inp c) (t_added c) false in
    Ok (tend, if t_tid c then insert_tendencies (t_name c) tend diag else diag).

  (** base_components.py 808-861 (TendencyComponent.__call__) and 1031-1087
      (ImplicitTendencyComponent.__call__, where [ac] is array_call with the
      timestep supplied; the attribute _last_update_time it sets is never read). *)
  Definition tendency_call {U} (g : treg) (c : tcomp)
      (ac : U -> dict (rval T) -> U * res (dict (nd T) * dict (nd T)))
      (u : U) (st : state T) : U * res (dict (da T) * dict (da T)) :=
    match (let* _ := raise_if (negb (t_init c)) ERuntime in raw_state g (t_inp c) (t_packer c) st) with
    | Err e => (u, Err e)
    | Ok raw =>
        let (u', r) := ac u raw in
        (u', let* out := r in tendency_finish g c st out)
    end.

  (** base_components.py 1191-1224: DiagnosticComponent.__call__ *)
  Definition diagnostic_finish (c : dcomp) (st : state T) (raw_diag : dict (nd T))
      : res (dict (da T)) :=
    let* _ := check_outputs (d_diag c) (d_inp c) [] raw_diag in
    restore_data_arrays_with_properties raw_diag (d_diag c) st (d_inp c) [] false.

  Definition diagnostic_call {U} (c : dcomp)
      (ac : U -> dict (rval T) -> U * res (dict (nd T)))
      (u : U) (st : state T) : U * res (dict (da T)) :=
    match (let* _ := raise_if (negb (d_init c)) ERuntime in raw_state empty_treg (d_inp c) None st) with
    | Err e => (u, Err e)
    | Ok raw =>
        let (u', r) := ac u raw in
        (u', let* out := r in diagnostic_finish c st out)
    end.

  (** raw_state[name] used as an array: 'time' is not one (TypeError). *)
  Definition get_raw_array (name : string) (raw : dict (rval T)) : res (nd T) :=
    let* v := dgetE name raw in
    match v with RArr a => Ok a | RTime _ => Err EType end.

  (** base_components.py 636-642: Stepper._insert_tendencies_to_diagnostics *)
  Definition stepper_insert (c : scomp) (dt : Z) (raw : dict (rval T)) (raw_new raw_diag : dict (nd T))
      : res (dict (nd T)) :=
    foldM (fun d np =>
             let* new := dgetE (fst np) raw_new in
             let* old := get_raw_array (fst np) raw in
             let* diff := np_binop asub new old in
             Ok (dset (tendency_name (s_name c) (fst np))
                      (nd_map (fun x => amul (adiv x (total_seconds dt)) (total_seconds (s_tu c))) diff) d))
          (s_out c) raw_diag.

  (** base_components.py 610-634: the part of Stepper.__call__ after array_call. *)
  Definition stepper_finish (g : treg) (c : scomp) (dt : Z) (st : state T) (raw : dict (rval T))
      (out : dict (nd T) * dict (nd T)) : res (dict (da T) * dict (da T)) :=
    let (raw_diag, raw_new) := out in
    let* (tr, raw_new) := unpack_tracers g (s_packer c) "" raw_new st in
    let* _ := check_outputs (s_diag c) (s_inp c) (s_ign c) raw_diag in
    let* _ := check_outputs (s_out c) (s_inp c) [] raw_new in
    let* raw_diag := if s_tid c then stepper_insert c dt raw raw_new raw_diag else Ok raw_diag in
    let* diag := restore_data_arrays_with_properties raw_diag (s_diag c) st (s_inp c) [] false in
    let* new := restore_data_arrays_with_properties raw_new (s_out c) st (s_inp c) [] false in
    Ok (diag, dupdate tr new).

  (** base_components.py 581-634: Stepper.__call__; result (diagnostics, new_state). *)
  Definition stepper_call {U} (g : treg) (c : scomp)
      (ac : U -> dict (rval T) -> Z -> U * res (dict (nd T) * dict (nd T)))
      (u : U) (st : state T) (dt : Z) : U * res (dict (da T) * dict (da T)) :=
    match (let* _ := raise_if (negb (s_init c)) ERuntime in raw_state g (s_inp c) (s_packer c) st) with
    | Err e => (u, Err e)
    | Ok raw =>
        let (u', r) := ac u raw dt in
        (u', let* out := r in stepper_finish g c dt st raw out)
    end.
End Calls.
