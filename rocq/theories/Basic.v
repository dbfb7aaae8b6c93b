(** sympl/_components/basic.py: constant components, Newtonian relaxation and the
    TimeDifferencingWrapper; sympl/_core/wrappers.py 192-256: UpdateFrequencyWrapper. *)
From Coq Require Import String List Bool Arith ZArith QArith.
From Verif Require Import Prelude ArithM NdArray Units DataArrayM Tracers Components Steppers.
Import ListNotations.
Open Scope string_scope.
Open Scope nat_scope.
Open Scope list_scope.

Section Basic.
  Context {T : Type} {A : Arith T} {R : Registry}.

  (** ** RelaxationTendencyComponent: basic.py 217-361 *)

  (** basic.py 354-356: names of the two other inputs *)
  Definition equilibrium_name (q : string) : string := ("equilibrium_" ++ q)%string.
  Definition timescale_name (q : string) : string := (q ++ "_relaxation_timescale")%string.

  (** basic.py 265-281: input_properties *)
  Definition relaxation_inputs (q units : string) : pdict :=
    [(q, qprops ["*"] units); (equilibrium_name q, qprops ["*"] units); (timescale_name q, qprops ["*"] "s")].

  (** basic.py 283-290: tendency_properties.  [over_s u] is what pint gives for
      [str(ureg(u) / ureg("s"))]. *)
  Definition relaxation_tendencies (over_s : string -> res string) (q units : string) : res pdict :=
    let* tu := over_s units in Ok [(q, qprops ["*"] tu)].

  (** basic.py 296-325: __init__; the base-class constructor reads the properties. *)
  Definition new_relaxation (over_s : string -> res string) (q units name : string) (tid : bool) : res tcomp :=
    let* tend := relaxation_tendencies over_s q units in
    snd (make_tendency_component false empty_treg (relaxation_inputs q units) tend [] name tid None "s^-1").

  (** basic.py 327-361: array_call *)
  Definition relaxation_array (q : string) (raw : dict (rval T)) : res (dict (nd T) * dict (nd T)) :=
    let* value := get_raw_array q raw in
    let* equilibrium := get_raw_array (equilibrium_name q) raw in
    let* tau := get_raw_array (timescale_name q) raw in
    let* d := np_binop asub equilibrium value in
    let* t := np_binop adiv d tau in
    Ok ([(q, t)], []).

  (** Calling the component (it has no state of its own). *)
  Definition relaxation_call (c : tcomp) (q : string) (st : state T) : res (dict (da T) * dict (da T)) :=
    snd (tendency_call empty_treg c (fun _ raw => (tt, relaxation_array q raw)) tt st).

  (** ** ConstantTendencyComponent: basic.py 10-134 *)

  (** basic.py 63-72, 74-83, 186-194: properties read off the arrays *)
  Definition constant_properties (d : dict (da T)) : res pdict :=
    mapM (fun nv => let* u := dgetE "units" (attrs (snd nv)) in
                    Ok (fst nv, mkprops (Some (dims (snd nv))) true (Some u) None false)) d.

  (** basic.py 128-133, 211-214: array_call *)
  Definition constant_arrays (d : dict (da T)) : dict (nd T) := map (fun nv => (fst nv, arr (snd nv))) d.

  (** basic.py 85-125: __init__ *)
  Definition new_constant_tendency (tend diag : dict (da T)) (name : string) (tid : bool) : res tcomp :=
    let* tp := constant_properties tend in
    let* dp := constant_properties diag in
    snd (make_tendency_component false empty_treg [] tp dp name tid None "s^-1").

  Definition constant_tendency_call (c : tcomp) (tend diag : dict (da T)) (st : state T)
      : res (dict (da T) * dict (da T)) :=
    snd (tendency_call empty_treg c (fun _ _ => (tt, Ok (constant_arrays tend, constant_arrays diag))) tt st).

  (** ** ConstantDiagnosticComponent: basic.py 137-214 *)
  Definition new_constant_diagnostic (diag : dict (da T)) : res dcomp :=
    let* dp := constant_properties diag in make_diagnostic_component [] dp.

  Definition constant_diagnostic_call (c : dcomp) (diag : dict (da T)) (st : state T) : res (dict (da T)) :=
    snd (diagnostic_call c (fun _ _ => (tt, Ok (constant_arrays diag))) tt st).

  (** ** TimeDifferencingWrapper: basic.py 364-448 *)

  (** basic.py 380-386: tendency_properties; [properties["units"] += " s^-1"] *)
  Definition differencing_tendencies (outp : pdict) : res pdict :=
    mapM (fun np => match p_units (snd np) with
                    | Some u => Ok (fst np, mkprops (p_dims (snd np)) (p_tuple (snd np))
                                              (Some (u ++ " s^-1")%string) (p_alias (snd np)) (p_tracer (snd np)))
                    | None => Err EKey
                    end) outp.

  (** basic.py 414-439: one item of the new state.  A value that is no DataArray is
      only accepted as 'time'.  Division by a float zero does not raise. *)
  Definition difference_step (outp : pdict) (dt : Z) (st : state T) (tend : dict (da T)) (nv : string * pval T)
      : res (dict (da T)) :=
    match snd nv with
    | VTime _ => if String.eqb (fst nv) "time" then Ok tend else Err EValue
    | VDA new =>
        match dget (fst nv) outp with
        | None => Ok tend
        | Some p =>
            match dget (fst nv) st with
            | None => Err ERuntime
            | Some v =>
                let* old := match v with VDA old => Ok old | VTime _ => Err EAttr end in
                let* u := dgetE "units" (attrs new) in
                let* old := to_units old u in
                let* d := da_sub new old in
                let d := da_divs d (total_seconds dt) in
                let t := mkda (dims d) (arr d) (dset "units" (per_second u) (attrs d)) in
                let* ou := match p_units p with Some ou => Ok ou | None => Err EKey end in
                let* t := to_units t (ou ++ " s^-1") in
                Ok (dset (fst nv) t tend)
            end
        end
    end.

  (** basic.py 409-440: __call__.  [outp]: output_properties of the wrapped Stepper. *)
  Definition differencing_call {U} (outp : pdict) (stepper : U -> state T -> Z -> U * res (stepped T))
      (u : U) (st : state T) (dt : Z) : U * res (dict (da T) * dict (da T)) :=
    let (u', r) := stepper u st dt in
    (u', let* dn := r in
         let* tend := foldM (difference_step outp dt st) (snd dn) [] in
         Ok (tend, fst dn)).
End Basic.

(** ** UpdateFrequencyWrapper: wrappers.py 192-256 *)

(** The wrapper's two attributes. *)
Record ufw (O : Type) : Type := mkufw {
  uf_cache : option O;          (* _cached_output *)
  uf_last : option Z            (* _last_update_time *)
}.
Arguments mkufw {O} _ _.
Arguments uf_cache {O} _.
Arguments uf_last {O} _.

Definition new_ufw {O : Type} : ufw O := mkufw None None.

Section UpdateFrequency.
  Context {T O U : Type}.

  (** The wrapped component: called with the state and, maybe, a timestep. *)
  Variable component : U -> state T -> option Z -> U * res O.

  (** state['time']; comparing or adding an array is not modelled (TypeError). *)
  Definition state_time (st : state T) : res Z :=
    let* v := dgetE "time" st in match v with VTime t => Ok t | VDA _ => Err EType end.

  (** wrappers.py 240-241: is new output due? *)
  Definition update_due (interval : Z) (w : ufw O) (st : state T) : res bool :=
    match uf_last w with
    | None => Ok true
    | Some t0 => let* t := state_time st in Ok (Z.leb (t0 + interval) t)
    end.

  (** wrappers.py 242-248: any TypeError of the call with a timestep leads to a
      second call without.  Extra keyword arguments are part of [component]. *)
  Definition call_component (u : U) (st : state T) (ts : option Z) : U * res O :=
    match ts with
    | None => component u st None
    | Some dt => match component u st (Some dt) with
                 | (u', Err EType) => component u' st None
                 | r => r
                 end
    end.

  (** wrappers.py 218-253: __call__.  Python returns None if there is no cached
      output. *)
  Definition uf_call (interval : Z) (s : ufw O * U) (st : state T) (ts : option Z)
      : (ufw O * U) * res (option O) :=
    let (w, u) := s in
    match update_due interval w st with
    | Err e => (s, Err e)
    | Ok false => (s, Ok (uf_cache w))
    | Ok true =>
        match call_component u st ts with
        | (u', Err e) => ((w, u'), Err e)
        | (u', Ok o) =>
            match state_time st with
            | Err e => ((mkufw (Some o) (uf_last w), u'), Err e)
            | Ok t => ((mkufw (Some o) (Some t), u'), Ok (Some o))
            end
        end
    end.
End UpdateFrequency.
