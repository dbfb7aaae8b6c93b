(** Concrete cases for diagnostics of rescaled states (C103). *)
From Coq Require Import String List Bool Arith ZArith QArith Qcanon.
From Verif Require Import Prelude PreludeFacts ArithM NdArray Units DataArrayM ExampleRegistry SpecArrays Tracers Components Composite SpecScale ScaleMain ScaleRuns SpecScaleDiag ScaleDiag Ex_Scale.
Import ListNotations.
Open Scope string_scope.
Open Scope nat_scope.
Open Scope list_scope.

#[local] Existing Instance ex_registry | 5.

(** The diagnostic of C103 that reads the depth, and one that reads the wind. *)
Definition e_f : dcomp := mkdcomp true [("wind", mkprops (Some ["*"]) false (Some "m s^-1") (Some "v") false)] [("warning", mkprops (Some ["*"]) false (Some "m s^-1") None false)].
Definition eac_f (u : nat) (raw : dict (rval Qc)) : nat * res (dict (nd Qc)) := (S u, let* d := get_raw_array "v" raw in Ok [("warning", d)]).
Definition both_f : dcaller (T:=Qc) nat := diagnostic_composite_call [diagnostic_call d_f dac_f; diagnostic_call e_f eac_f].
Definition twice_f : dcaller (T:=Qc) nat := diagnostic_composite_call [diagnostic_call d_f dac_f; diagnostic_call d_f dac_f].

Lemma sd_setting : scales_diagnostic fac fac st_f (diagnostic_call d_f dac_f) /\ scales_diagnostic fac fac st_f (diagnostic_call e_f eac_f).
Proof.
  destruct sc_diagnostic as (H1 & H2 & H3 & H4 & _).
  split; intro u; [exact (scale_diagnostic fac fac fac fac d_f dac_f H1 H2 H3 u st_f H4) | ].
  apply (scale_diagnostic fac fac fac fac e_f eac_f).
  - intros v raw. unfold eac_f. cbn [fst snd]. apply (f_equal (pair (S v))). rewrite raw_get, bind_map, map_bind. apply bind_ext. intros d _. reflexivity.
  - split; [reflexivity | ]. intros name p [E | []]; injection E as <- <-; reflexivity.
  - intros name [<- | []]; reflexivity.
  - intros name a _ _. apply ex_linear.
Qed.

(** Together they return; a component beside itself raises SharedKeyError for both states. *)
Lemma sd_case : exists d, both_f 0 st_f = (2, Ok d) /\ both_f 0 (by_name times_value fac st_f) = (2, Ok (by_name times_da fac d)) /\
  vals (dget "warning" d) = [Q2Qc 1000; Q2Qc (1000 # 3); Q2Qc (-2000)] /\
  twice_f 0 (by_name times_value fac st_f) = (2, Err ESharedKey).
Proof.
  destruct sd_setting as [H1 H2].
  assert (K : scales_diagnostic fac fac st_f both_f) by (apply scale_diagnostic_composite; repeat (constructor; try assumption)).
  assert (L : scales_diagnostic fac fac st_f twice_f) by (apply scale_diagnostic_composite; repeat (constructor; try assumption)).
  rewrite (K 0), (L 0). destruct (both_f 0 st_f) as [u [d | ]] eqn:E; [ | exfalso; revert E; vm_compute; discriminate].
  exists d. cbn [fst snd result_map].
  assert (E2 : twice_f 0 st_f = (2, Err ESharedKey)) by (vm_compute; reflexivity). rewrite E2.
  revert E. vm_compute. intros E. injection E as <- <-. repeat split.
Qed.
