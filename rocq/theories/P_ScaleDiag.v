(** Property theorems about diagnostics of rescaled states (C103). *)
From Coq Require Import String List Bool Arith ZArith QArith Qcanon.
From Verif Require Import Prelude ArithM NdArray Units DataArrayM ExampleRegistry SpecArrays Tracers Components Composite Steppers MainLoop LeapLoop SpecScale SpecScaleDiag ScaleDiag Ex_Scale Ex_ScaleDiag.
Import ListNotations.
Open Scope string_scope.
Open Scope nat_scope.
Open Scope list_scope.

#[local] Existing Instance ex_registry | 5.

(** C103: a DiagnosticComponentComposite of components that answer the rescaled state with rescaled diagnostics, as c103_diagnostic says of one, does so too, and raises what it raises for the original state. *)
Theorem c103_diagnostic_composite : forall {R : Registry} {U : Type} (f fd : string -> Qc) (st : state Qc) (cs : list (dcaller (T:=Qc) U)),
  Forall (scales_diagnostic f fd st) cs -> scales_diagnostic f fd st (diagnostic_composite_call cs).
Proof. exact @scale_diagnostic_composite. Qed.
Print Assumptions c103_diagnostic_composite.

(** One diagnostic that reads the depth and one that reads the wind. *)
Example c103_diagnostics_setting : scales_diagnostic fac fac st_f (diagnostic_call d_f dac_f) /\ scales_diagnostic fac fac st_f (diagnostic_call e_f eac_f).
Proof. exact sd_setting. Qed.

(** Both together; and one beside itself, which raises SharedKeyError. *)
Example c103_diagnostics_case : exists d, both_f 0 st_f = (2, Ok d) /\ both_f 0 (by_name times_value fac st_f) = (2, Ok (by_name times_da fac d)) /\
  vals (dget "warning" d) = [Q2Qc 1000; Q2Qc (1000 # 3); Q2Qc (-2000)] /\
  twice_f 0 (by_name times_value fac st_f) = (2, Err ESharedKey).
Proof. exact sd_case. Qed.
