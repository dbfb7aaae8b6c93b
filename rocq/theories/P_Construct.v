(** Property theorems about the construction of components that use tracers (C16). *)
From Coq Require Import String List Bool Arith ZArith.
From Verif Require Import Prelude Units ExampleRegistry DataArrayM Tracers SpecComponents Components Ex_Components SpecConstruct ConstructFacts Ex_Construct.
Import ListNotations.
Open Scope string_scope.
Open Scope nat_scope.
Open Scope list_scope.

#[local] Existing Instance ex_registry | 5.

(** C16 with any tracer options: properties that are not in order are refused before the tracers are looked
    at.  Otherwise ValueError iff the tracer dims are missing or lack 'tracer', InvalidPropertyDictError
    iff a tracer is one of the outputs, and else the component is made and its packer recorded, nothing
    else of the registry being changed. *)
Theorem c16_tendency_with_tracers : forall {R : Registry} impl g inp tend diag name tid o tu,
  NoDup (keys inp) -> NoDup (keys tend) -> NoDup (keys diag) ->
  shared_known tendency_units inp tend -> shared_known (fun u => u) inp diag ->
  let r := make_tendency_component impl g inp tend diag name tid o tu in
  (bad_tendency_properties inp tend diag -> r = (g, Err EInvalidProps)) /\
  (~ bad_tendency_properties inp tend diag ->
     tracer_outcome g o (keys tend) r (fun g' pk => exists c, r = (g', Ok c) /\ t_packer c = pk /\ t_init c = true /\ t_inp c = inp /\ t_tend c = tend)).
Proof. exact @make_tendency_tracers. Qed.
Print Assumptions c16_tendency_with_tracers.

Theorem c16_stepper_with_tracers : forall {R : Registry} g inp diag outp name tid o tu,
  NoDup (keys inp) -> NoDup (keys diag) -> NoDup (keys outp) ->
  shared_known (fun u => u) inp diag -> shared_known (fun u => u) inp outp ->
  let bad := bad_stepper_properties inp diag outp \/ (tid = true /\ no_difference inp outp) in
  let r := make_stepper g inp diag outp name tid o tu in
  (bad -> r = (g, Err EInvalidProps)) /\
  (~ bad -> tracer_outcome g o (keys outp) r (fun g' pk => exists c, r = (g', Ok c) /\ s_packer c = pk /\ s_init c = true /\ s_out c = outp)).
Proof. exact @make_stepper_tracers. Qed.
Print Assumptions c16_stepper_with_tracers.

Example c16_with_tracers_case : ~ tracer_is_output g_soot [("dust", "kg")] (keys tend_c) /\ tracer_is_output g_soot [("T", "K")] (keys tend_c) /\
  (exists c, make_tendency_component false g_soot inp_c tend_c diag_c "heat" true (opts_c [("dust", "kg")]) "s" =
     (mktreg [("soot", "kg")] ["soot"] [mkpacker [("dust", "kg")] ["tracer"; "z"] (keys tend_c)], Ok c)) /\
  make_tendency_component true g_soot inp_c tend_c diag_c "heat" true (opts_c [("T", "K")]) "s" = (g_soot, Err EInvalidProps) /\
  make_tendency_component true g_soot inp_c tend_c diag_c "heat" true (Some (None, [])) "s" = (g_soot, Err EValue) /\
  make_tendency_component true g_soot inp_c tend_c diag_c "heat" true (Some (Some ["z"], [])) "s" = (g_soot, Err EValue).
Proof. exact construct_case. Qed.
