(** Specification vocabulary for the kinds of components (C61, C68). *)
From Coq Require Import String List Bool Arith ZArith.
From Verif Require Import Prelude Duck.
Import ListNotations.
Open Scope string_scope.
Open Scope nat_scope.
Open Scope list_scope.

(** What an object has. *)
Definition has (o : obj) (att : string) : Prop := In att (o_attrs o).
Definition callable (o : obj) : Prop := o_call o <> None.

(** It has the attributes all kinds share. *)
Definition common (o : obj) : Prop := has o "input_properties" /\ has o "diagnostic_properties" /\ has o "array_call".

(** The attributes of each kind. *)
Definition attributes_of (k : kind) (o : obj) : Prop :=
  common o /\
  match k with
  | KStepper => has o "output_properties" /\ has o "tendencies_in_diagnostics" /\ ~ has o "tendency_properties"
  | KTendency | KImplicit => has o "tendency_properties" /\ has o "tendencies_in_diagnostics" /\ has o "name" /\ ~ has o "output_properties"
  | KDiagnostic => ~ has o "output_properties" /\ ~ has o "tendency_properties" /\ ~ has o "tendencies_in_diagnostics"
  end.

(** __call__ takes an argument 'timestep', and takes one that may be left out. *)
Definition takes_timestep (o : obj) : Prop := exists args, o_call o = Some args /\ In "timestep" (map fst args).
Definition timestep_may_be_none (o : obj) : Prop := exists args, o_call o = Some args /\ In ("timestep", DefaultNone) args.

Definition uses_timestep (k : kind) : Prop := k = KStepper \/ k = KImplicit.

(** A ScalingWrapper somewhere around another wrapper. *)
Definition scaling_outside (ws : list wrapper) : Prop := exists outer w inner, ws = outer ++ Scaling :: w :: inner.

(** The kinds that a wrapped component of a kind counts as. *)
Definition counts_as (k k' : kind) : Prop := k = k' \/ (k = KTendency /\ k' = KImplicit) \/ (k = KImplicit /\ k' = KTendency).
