(** Specification vocabulary for what composites and time steppers return (C84). *)
From Coq Require Import String List Bool Arith ZArith.
From Verif Require Import Prelude ArithM NdArray Units DataArrayM SpecDa GetNp Tracers Components Composite SpecComposite Steppers.
Import ListNotations.
Open Scope string_scope.
Open Scope nat_scope.
Open Scope list_scope.

Section Spec.
  Context {T : Type} {A : Arith T} {R : Registry}.

  (** [out] holds the quantities declared in [outp] and the quantities [extra], and
      nothing else; the declared ones are in the declared units. *)
  Definition delivers (outp : pdict) (extra : list string) (out : dict (da T)) : Prop :=
    (forall X, In X (keys out) <-> In X (keys outp) \/ In X extra) /\
    forall X p q, dget X outp = Some p -> ~ In X extra -> dget X out = Some q ->
      exists u, p_units p = Some u /\ units_of q = Some u.

  (** A component: its properties, the tracers whose tendencies it returns, and the
      object itself; an ImplicitTendencyComponent is called with the timestep. *)
  Record comp_obj (U : Type) : Type := mkcomp {
    o_props : cprops;
    o_tracers : list string;
    o_call : icaller (T:=T) U + caller (T:=T) U
  }.
  Arguments o_props {U}.
  Arguments o_tracers {U}.
  Arguments o_call {U}.

  Definition call_at {U} (dt : Z) (c : icaller (T:=T) U + caller (T:=T) U) : caller U :=
    match c with
    | inl f => fun u st => f u st dt
    | inr f => f
    end.

  (** Whenever it returns, called on [st], it returns what it declares (C11). *)
  Definition keeps {U} (st : state T) (c : comp_obj U) : Prop :=
    forall dt u u' t d, call_at dt (o_call c) u st = (u', Ok (t, d)) ->
      proper t /\ NoDup (keys d) /\
      delivers (cp_tend (o_props c)) (o_tracers c) t /\ delivers (cp_diag (o_props c)) [] d.

  (** No component declares the tendency of a tracer of a component. *)
  Definition apart {U} (cs : list (comp_obj U)) : Prop :=
    forall c c' X, In c cs -> In c' cs -> In X (o_tracers c) -> ~ In X (keys (cp_tend (o_props c'))).

  (** The properties are dictionaries. *)
  Definition dictionaries {U} (cs : list (comp_obj U)) : Prop :=
    forall c, In c cs -> NoDup (keys (cp_diag (o_props c))).

  (** The diagnostics of a time stepper: those it declares; those of its components
      in the declared units; the tendencies it adds itself in the units of the input
      per second. *)
  Definition stepper_delivers (cfg : tstep) (diag : dict (da T)) : Prop :=
    (forall k, In k (keys diag) <-> In k (keys (ts_diag cfg))) /\
    (forall k p q, (ts_tid cfg = true -> forall X, In X (keys (ts_out cfg)) -> k <> tendency_name (ts_name cfg) X) ->
       dget k (ts_diag cfg) = Some p -> dget k diag = Some q -> exists u, p_units p = Some u /\ units_of q = Some u) /\
    (ts_tid cfg = true -> forall X, In X (keys (ts_out cfg)) -> exists p base d,
       dget X (ts_inp cfg) = Some p /\ p_units p = Some base /\ dget (tendency_name (ts_name cfg) X) diag = Some d /\
       units_of d = Some (if String.eqb base "" then "s^-1" else (base ++ " s^-1")%string)).
End Spec.
Arguments comp_obj T U : clear implicits.
Arguments o_props {T U}.
Arguments o_tracers {T U}.
Arguments o_call {T U}.
Arguments mkcomp {T U}.

(** All the tendencies the components declare. *)
Definition tends {T U} (cs : list (comp_obj T U)) : list (string * props) := concat (map (fun c => cp_tend (o_props c)) cs).

(** The components, as a time stepper calls them. *)
Definition all_of {T U} {A : Arith T} {R : Registry} (cs : list (comp_obj T U)) : icaller (T:=T) U :=
  fun u st dt => implicit_composite_call (map o_call cs) dt u st.
