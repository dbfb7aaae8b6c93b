(** Specification for C101: states got from another by moving the points of the grid and multiplying each
    quantity by a factor of its own. *)
From Coq Require Import String List Bool Arith ZArith QArith Qcanon.
From Verif Require Import Prelude ArithM NdArray Units DataArrayM SpecDa SpecArrays Tracers Components SpecColumns Composite Steppers.
Import ListNotations.
Open Scope string_scope.
Open Scope nat_scope.
Open Scope list_scope.

(** The value at index [i] along a dim is that at index [to d i] of the other state, times the [factor] of
    the quantity.  Examples: a reflection that changes the sign of the wind across it; the same points and
    the factor 2 for every quantity. *)
Record turn := mkturn { to : string -> nat -> nat; factor : string -> Qc }.

Section Spec.
  Context {R : Registry} (g : turn).

  Definition turned_of (name : string) (a b : da Qc) : Prop :=
    wf_da a /\ wf_da b /\ dims a = dims b /\ attrs a = attrs b /\
    (forall d n m i, dim_len a d = Some n -> dim_len b d = Some m -> i < m -> to g d i < n) /\
    forall p, in_grid b p -> da_at b p = (factor g name * da_at a (fun d => to g d (p d)))%Qc.

  (** A quantity with a factor other than 1 is not measured in units with an offset, such as degC, and
      cannot be converted to them. *)
  Definition no_offset (name : string) (a : da Qc) : Prop :=
    factor g name = 1%Qc \/
    forall own u1 s u2, dget "units" (attrs a) = Some own -> parse own = Some u1 -> parse s = Some u2 -> u_dim u1 = u_dim u2 -> u_off u2 = 0%Qc.

  Definition turned_named (name : string) (a b : da Qc) : Prop := turned_of name a b /\ no_offset name a.

  Definition turned_state (st st' : state Qc) : Prop :=
    Forall2 (fun x y => fst x = fst y /\ match snd x, snd y with
                                         | VDA a, VDA b => turned_named (fst x) a b
                                         | VTime s, VTime t => s = t
                                         | _, _ => False
                                         end) st st'.
  Definition turned_rates (d d' : dict (da Qc)) : Prop :=
    Forall2 (fun x y => fst x = fst y /\ turned_named (fst x) (snd x) (snd y)) d d'.
  (** Diagnostics, and states with diagnostics in them: whatever their units are. *)
  Definition turned_diags (d d' : dict (da Qc)) : Prop :=
    Forall2 (fun x y => fst x = fst y /\ turned_of (fst x) (snd x) (snd y)) d d'.
  Definition turned_record (st st' : state Qc) : Prop :=
    Forall2 (fun x y => fst x = fst y /\ match snd x, snd y with
                                         | VDA a, VDA b => turned_of (fst x) a b
                                         | VTime s, VTime t => s = t
                                         | _, _ => False
                                         end) st st'.

  (** A component (with whatever it remembers) called on the turned state returns the turned tendencies,
      each with the factor of its quantity, and the turned diagnostics. *)
  Definition turning {U V} (same : U -> V -> Prop) (p : icaller (T:=Qc) U) (q : icaller (T:=Qc) V) : Prop :=
    forall u v st st' dt u' v' t d t' d', same u v -> turned_state st st' ->
      p u st dt = (u', Ok (t, d)) -> q v st' dt = (v', Ok (t', d')) ->
      same u' v' /\ turned_rates t t' /\ turned_diags d d'.

  (** The same of something that takes a state to diagnostics and a state. *)
  Definition turning_step {U V} (same : U -> V -> Prop) (p : U -> state Qc -> Z -> U * res (dict (da Qc) * state Qc))
      (q : V -> state Qc -> Z -> V * res (dict (da Qc) * state Qc)) : Prop :=
    forall u v st st' dt u' v' d n d' n', same u v -> turned_state st st' ->
      p u st dt = (u', Ok (d, n)) -> q v st' dt = (v', Ok (d', n')) ->
      same u' v' /\ turned_diags d d' /\ turned_state n n'.

  (** If the stepper is to return tendencies as diagnostics, they have the factor of their quantity. *)
  Definition factors_fit (cfg : tstep) : Prop :=
    ts_tid cfg = true -> forall name, factor g (tendency_name (ts_name cfg) name) = factor g name.

  (** States that turn into themselves: symmetric in the quantities with factor 1, antisymmetric in those
      with factor -1. *)
  Definition balanced (st : state Qc) : Prop :=
    forall name a, In (name, VDA a) st ->
      (forall d n i, dim_len a d = Some n -> i < n -> to g d i < n) /\
      forall p, in_grid a p -> da_at a p = (factor g name * da_at a (fun d => to g d (p d)))%Qc.

  Definition fit_state (st : state Qc) : Prop := forall name a, In (name, VDA a) st -> wf_da a /\ no_offset name a.
End Spec.
