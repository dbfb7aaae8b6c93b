(** Concrete cases for a Stepper under TimeDifferencingWrapper on rescaled states (C103). *)
From Coq Require Import String List Bool Arith ZArith QArith Qcanon.
From Verif Require Import Prelude PreludeFacts ArithM NdArray Units DataArrayM ExampleRegistry SpecArrays Tracers Components Composite Steppers Basic MainLoop SpecFrame FrameWrap SpecScale ScaleMain ScaleRuns ScaleEnds SpecScaleSteps SpecScaleWrap ScaleWrap Ex_Scale Ex_ScaleEnds Ex_ScaleSteps.
Import ListNotations.
Open Scope string_scope.
Open Scope nat_scope.
Open Scope list_scope.

#[local] Existing Instance ex_registry | 5.

Definition diff_f : icaller (T:=Qc) nat := differencing_call sout_f mix_f.

Lemma sw_setting : scales_step fac eq mix_f mix_f /\ linear_changes fac sout_f /\ scales fac diff_f /\ blind eq diff_f diff_f.
Proof.
  assert (H1 : scales_step fac eq mix_f mix_f) by apply scales_mix.
  assert (H2 : linear_changes fac sout_f) by (intros name p ou _ _; apply ex_linear).
  split; [exact H1 | ]. split; [exact H2 | ]. split; [exact (scale_differencing fac sout_f mix_f H1 H2) | exact (frame_differencing eq sout_f mix_f mix_f blind_mix)].
Qed.

(** What the wrapper returns for both states. *)
Lemma sw_case : exists t d, diff_f 0 st_f 2000000%Z = (1, Ok (t, d)) /\ diff_f 0 (by_name times_value fac st_f) 2000000%Z = (1, Ok (by_name times_da fac t, by_name times_da fac d)) /\
  map this (vals (dget "wind" t)) = [(-250)%Q; (-250 # 3)%Q; 500%Q].
Proof.
  destruct (diff_f 0 st_f 2000000%Z) as [u [[t d] | ]] eqn:E; [ | exfalso; revert E; vm_compute; discriminate].
  destruct (diff_f 0 (by_name times_value fac st_f) 2000000%Z) as [u' [[t' d'] | ]] eqn:E'; [ | exfalso; revert E'; vm_compute; discriminate].
  destruct st_setting as (_ & _ & _ & _ & _ & _ & _ & Hl). destruct sw_setting as (_ & _ & Hs & _).
  destruct (Hs 0 st_f 2000000%Z u u' t d t' d' Hl E E') as (-> & -> & -> & _).
  exists t, d. clear E' Hl Hs. assert (K : u = 1 /\ map this (vals (dget "wind" t)) = [(-250)%Q; (-250 # 3)%Q; 500%Q]).
  { revert E. vm_compute. intros E. injection E as <- <- <-. split; reflexivity. }
  destruct K as [-> K]. split; [reflexivity | ]. split; [reflexivity | exact K].
Qed.
