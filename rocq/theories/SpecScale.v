(** Specification for C103: states in which every quantity is multiplied by a factor of its own. *)
From Coq Require Import String List Bool Arith ZArith QArith Qcanon.
From Verif Require Import Prelude ArithM NdArray Units DataArrayM SpecDa SpecArrays Tracers Components Composite Steppers.
Import ListNotations.
Open Scope string_scope.
Open Scope nat_scope.
Open Scope list_scope.

(** Every value times [c]; dims and attributes are those of the original. *)
Definition times (c : Qc) (a : nd Qc) : nd Qc := mknd (shape a) (map (Qcmult c) (data a)).
Definition times_da (c : Qc) (a : da Qc) : da Qc := mkda (dims a) (times c (arr a)) (attrs a).
Definition times_value (c : Qc) (v : pval Qc) : pval Qc := match v with VDA a => VDA (times_da c a) | VTime t => VTime t end.
Definition times_raw (c : Qc) (v : rval Qc) : rval Qc := match v with RArr a => RArr (times c a) | RTime t => RTime (times_value c t) end.

(** [by_name op f d]: each value of the dictionary under [op] with the factor [f] has for its name. *)
Definition by_name {V} (op : Qc -> V -> V) (f : string -> Qc) (d : dict V) : dict V := map (fun kv => (fst kv, op (f (fst kv)) (snd kv))) d.

(** What [h] makes of a result; an exception stays what it is. *)
Definition result_map {X Y} (h : X -> Y) (r : res X) : res Y := match r with Ok x => Ok (h x) | Err e => Err e end.

Section Spec.
  Context {R : Registry}.

  (** array_call answers inputs multiplied by the factors [fi] of their names with outputs multiplied by the
      factors [f1] and [f2] of theirs, or raises the same exception. *)
  Definition homogeneous {U} (fi f1 f2 : string -> Qc) (ac : U -> dict (rval Qc) -> Z -> U * res (dict (nd Qc) * dict (nd Qc))) : Prop :=
    forall u raw dt, ac u (by_name times_raw fi raw) dt =
      (fst (ac u raw dt), result_map (fun o => (by_name times f1 (fst o), by_name times f2 (snd o))) (snd (ac u raw dt))).

  Definition homogeneous1 {U} (fi fo : string -> Qc) (ac : U -> dict (rval Qc) -> U * res (dict (nd Qc))) : Prop :=
    forall u raw, ac u (by_name times_raw fi raw) = (fst (ac u raw), result_map (by_name times fo) (snd (ac u raw))).

  (** The factors of the names that array_call uses are those of the quantities. *)
  Definition input_factors (f fi : string -> Qc) (inp : pdict) : Prop :=
    fi "time" = f "time" /\ forall name p, In (name, p) inp -> fi (raw_name name p) = f name.
  Definition output_factors (f fo : string -> Qc) (outp inp : pdict) : Prop :=
    forall name, In name (keys outp) -> fo (out_key outp inp name) = f name.

  (** If a stepper is to return tendencies as diagnostics: each has the factor of the quantity, before and
      after the step. *)
  Definition change_factors (fi fd fn : string -> Qc) (c : scomp) : Prop :=
    s_tid c = true -> forall name, In name (keys (s_out c)) -> fn name = fi name /\ fd (tendency_name (s_name c) name) = fi name.

  (** A quantity with a factor [c] other than 1 is not measured in units with an offset, such as degC, nor in
      units that can be converted to them. *)
  Definition linear_units (c : Qc) (units : option string) : Prop := c = 1%Qc \/
    forall own u1 s u2, units = Some own -> parse own = Some u1 -> parse s = Some u2 -> u_dim u1 = u_dim u2 -> u_off u2 = 0%Qc.
  Definition no_offsets (f : string -> Qc) (inp : pdict) (st : state Qc) : Prop :=
    forall name a, In name (keys inp) -> dget name st = Some (VDA a) -> linear_units (f name) (dget "units" (attrs a)).
  Definition linear_state (f : string -> Qc) (st : state Qc) : Prop := forall name a, In (name, VDA a) st -> linear_units (f name) (dget "units" (attrs a)).
  Definition linear_rates (f : string -> Qc) (t : dict (da Qc)) : Prop := forall name a, In (name, a) t -> linear_units (f name) (dget "units" (attrs a)).
  Definition linear_props (f : string -> Qc) (outp : pdict) : Prop := forall name p, dget name outp = Some p -> linear_units (f name) (p_units p).

  (** A component (with whatever it remembers) answers the rescaled state with the rescaled tendencies and
      diagnostics. *)
  Definition scales {U} (f : string -> Qc) (p : icaller (T:=Qc) U) : Prop :=
    forall u st dt u' v' t d t' d', linear_state f st -> p u st dt = (u', Ok (t, d)) -> p u (by_name times_value f st) dt = (v', Ok (t', d')) ->
      v' = u' /\ t' = by_name times_da f t /\ d' = by_name times_da f d /\ linear_rates f t.

  (** If the stepper is to return tendencies as diagnostics, they have the factor of their quantity. *)
  Definition rates_fit (f : string -> Qc) (cfg : tstep) : Prop := ts_tid cfg = true -> forall name, f (tendency_name (ts_name cfg) name) = f name.

  (** Both runs return, and all that the second stored and the state it ends with are the rescaled ones of the
      first; or both raise the same; or both are still running. *)
  Definition scaled_end (f : string -> Qc) {W W'} (x : (W * list (state Qc)) * option (res (state Qc))) (y : (W' * list (state Qc)) * option (res (state Qc))) : Prop :=
    match snd x, snd y with
    | Some (Ok e), Some (Ok e') => snd (fst y) = map (by_name times_value f) (snd (fst x)) /\ e' = by_name times_value f e
    | Some (Err a), Some (Err b) => a = b
    | None, None => True
    | _, _ => False
    end.
End Spec.
