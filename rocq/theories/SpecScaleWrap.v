(** What C103 asks of the tendencies of a Stepper under TimeDifferencingWrapper. *)
From Coq Require Import String List Bool Arith ZArith QArith Qcanon.
From Verif Require Import Prelude ArithM NdArray Units DataArrayM Tracers Components SpecScale.
Open Scope string_scope.

(** The declared units over a second cannot be converted to units with an offset, where the factor is not 1. *)
Definition linear_changes {R : Registry} (f : string -> Qc) (outp : pdict) : Prop :=
  forall name p ou, dget name outp = Some p -> p_units p = Some ou -> linear_units (f name) (Some (ou ++ " s^-1")).
