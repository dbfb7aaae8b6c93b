(** Property theorems about TimeDifferencingWrapper on rescaled states (C103). *)
From Coq Require Import String List Bool Arith ZArith QArith Qcanon.
From Verif Require Import Prelude ArithM NdArray Units DataArrayM ExampleRegistry SpecArrays Tracers Components Composite Steppers MainLoop LeapLoop Basic SpecFrame SpecScale SpecScaleSteps SpecScaleWrap ScaleWrap Ex_Scale Ex_ScaleSteps Ex_ScaleWrap.
Import ListNotations.
Open Scope string_scope.
Open Scope nat_scope.
Open Scope list_scope.

#[local] Existing Instance ex_registry | 5.

(** C103: a Stepper that answers rescaled states with rescaled states, under TimeDifferencingWrapper, is a component that the theorems about runs are about. *)
Theorem c103_differencing : forall {R : Registry} (f : string -> Qc) {U} outp (p : U -> state Qc -> Z -> U * res (stepped Qc)),
  scales_step f eq p p -> linear_changes f outp -> scales f (differencing_call outp p).
Proof. exact @scale_differencing. Qed.
Print Assumptions c103_differencing.

(** The stepper that halves the wind, under the wrapper. *)
Example c103_differencing_setting : scales_step fac eq mix_f mix_f /\ linear_changes fac sout_f /\ scales fac diff_f /\ blind eq diff_f diff_f.
Proof. exact sw_setting. Qed.

(** What it returns for both states. *)
Example c103_differencing_case : exists t d, diff_f 0 st_f 2000000%Z = (1, Ok (t, d)) /\ diff_f 0 (by_name times_value fac st_f) 2000000%Z = (1, Ok (by_name times_da fac t, by_name times_da fac d)) /\
  map this (vals (dget "wind" t)) = [(-250)%Q; (-250 # 3)%Q; 500%Q].
Proof. exact sw_case. Qed.
