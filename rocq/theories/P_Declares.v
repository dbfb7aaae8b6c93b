(** Property theorems about what composites and time steppers declare (C92). *)
From Coq Require Import String List Bool Arith ZArith QArith Qcanon Permutation.
From Verif Require Import Prelude ArithM NdArray Units DataArrayM ExampleRegistry GetNp Tracers Components Composite SpecComposite SpecNested Steppers
  SpecDeclares DeclaresMain Ex_Components Ex_Tracers Ex_Steppers Ex_Declares.
Import ListNotations.
Open Scope string_scope.
Open Scope nat_scope.
Open Scope list_scope.

#[local] Existing Instance ex_registry | 5.

(** C92: a time stepper declares an output for each quantity of which a component declares a tendency, in the units of the first such declaration times a second and with the alias of that; the diagnostics of its components, and with the option the tendencies in the units declared; and as inputs what its components declare and its outputs. *)
Theorem c92_stepper : forall {R : Registry} ord, (forall l, NoDup l -> Permutation (ord l) l) -> forall clean g cs name tid cfg, make_tstep ord clean g cs name tid = Ok cfg ->
  known (declared_inputs g (map snd cs)) -> known (declared_tendencies (map snd cs)) -> (forall x, In x cs -> NoDup (keys (cp_diag (snd x)))) ->
  ts_tid cfg = tid /\ ts_name cfg = name /\
  exists inp, combination [] (declared_inputs g (map snd cs)) inp /\ outputs_from clean inp (declared_tendencies (map snd cs)) (ts_out cfg) /\
  diagnostics_from inp tid name (map snd cs) (ts_diag cfg) /\ (known (inp ++ ts_out cfg) -> inputs_from inp (ts_out cfg) (ts_inp cfg)).
Proof. exact @main_stepper_declares. Qed.
Print Assumptions c92_stepper.

(** Two components, one with tracers, that share a tendency. *)
Example c92_stepper_case : (forall l : list string, NoDup l -> Permutation ((fun l => l) l) l) /\
  make_tendency_composite (fun l => l) false g_tr made_d = Ok comp_d /\ make_tstep (fun l => l) ex_clean g_tr made_d "step" true = Ok cfg_d /\
  known (declared_inputs g_tr (map snd made_d)) /\ known (declared_tendencies (map snd made_d)) /\ (forall x, In x made_d -> NoDup (keys (cp_diag (snd x)))) /\
  known (t_inp comp_d ++ ts_out cfg_d) /\
  ts_out cfg_d = [("temperature", mkprops (Some ["*"; "z"]) false (Some "K") (Some "T") false); ("w", qprops ["y"] "m")] /\
  ts_diag cfg_d = [("heat", qprops ["*"] "J"); ("dust", qprops ["z"] "kg"); ("temperature_tendency_from_step", mkprops (Some ["*"; "z"]) false (Some "K s^-1") None false);
  ("w_tendency_from_step", qprops ["y"] "m day^-1")] /\
  keys (ts_inp cfg_d) = ["temperature"; "soot"; "ash"; "w"] /\
  entries "temperature" (declared_tendencies (map snd made_d)) <> [].
Proof. exact @ex_declares. Qed.

(** C92: a TendencyComponentComposite or ImplicitTendencyComponentComposite declares what the declarations of its components combine to. *)
Theorem c92_composite : forall {R : Registry} ord, (forall l, NoDup l -> Permutation (ord l) l) -> forall implicit g cs c, make_tendency_composite ord implicit g cs = Ok c ->
  known (declared_inputs g (map snd cs)) -> known (declared_tendencies (map snd cs)) -> (forall x, In x cs -> NoDup (keys (cp_diag (snd x)))) ->
  combination [] (declared_inputs g (map snd cs)) (t_inp c) /\ combination (t_inp c) (declared_tendencies (map snd cs)) (t_tend c) /\
  diagnostics_from (t_inp c) false "" (map snd cs) (t_diag c).
Proof. exact @main_composite_declares. Qed.
Print Assumptions c92_composite.

(** C92: so does a DiagnosticComponentComposite. *)
Theorem c92_diagnostic_composite : forall {R : Registry} ord, (forall l, NoDup l -> Permutation (ord l) l) -> forall g cs c, make_diagnostic_composite ord g cs = Ok c ->
  known (declared_inputs g (map snd cs)) -> (forall x, In x cs -> NoDup (keys (cp_diag (snd x)))) ->
  combination [] (declared_inputs g (map snd cs)) (d_inp c) /\ diagnostics_from (d_inp c) false "" (map snd cs) (d_diag c).
Proof. exact @main_diagnostic_declares. Qed.
Print Assumptions c92_diagnostic_composite.

(** The same components, as diagnostic ones. *)
Example c92_diagnostic_case : make_diagnostic_composite (fun l => l) g_tr made_d = Ok dcomp_d /\ keys (d_inp dcomp_d) = ["temperature"; "soot"; "ash"] /\ keys (d_diag dcomp_d) = ["heat"; "dust"].
Proof. exact @ex_declares_diagnostics. Qed.
