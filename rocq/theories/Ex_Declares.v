(** Concrete cases for the property theorems about what composites and time steppers declare (C92). *)
From Coq Require Import String List Bool Arith ZArith QArith Qcanon Permutation.
From Verif Require Import Prelude PreludeFacts ArithM NdArray Units DataArrayM ExampleRegistry Checks GetNp Tracers Components Composite SpecComposite SpecNested Steppers
  SpecDeclares Ex_Components Ex_Tracers Ex_Steppers Ex_Inputs.
Import ListNotations.
Open Scope string_scope.
Open Scope nat_scope.
Open Scope list_scope.

#[local] Existing Instance ex_registry | 5.

(** A component with tracers, and one that shares a tendency with it in other units and
    gives its dims by its input. *)
Definition p_d1 : cprops :=
  mkcprops [("temperature", mkprops (Some ["z"; "*"]) false (Some "K") (Some "T") false)]
           [("temperature", mkprops None false (Some "K s^-1") (Some "T") false)] [("heat", qprops ["*"] "J")] (Some ([], ["tracer"; "z"; "y"])).
Definition p_d2 : cprops :=
  mkcprops [("temperature", qprops ["*"] "K"); ("soot", qprops ["z"; "y"] "g")]
           [("temperature", qprops ["*"] "K day^-1"); ("w", qprops ["y"] "m day^-1")] [("dust", qprops ["z"] "kg")] None.
Definition made_d : list (bool * cprops) := [(true, p_d1); (true, p_d2)].
Definition cfg_d : tstep :=
  match make_tstep (fun l => l) ex_clean g_tr made_d "step" true with Ok c => c | Err _ => mktstep false "" [] [] [] end.
Definition comp_d : tcomp :=
  match make_tendency_composite (fun l => l) false g_tr made_d with Ok c => c | Err _ => mktcomp false [] [] [] "" false [] None "" end.

Lemma ex_declares : (forall l : list string, NoDup l -> Permutation ((fun l => l) l) l) /\
  make_tendency_composite (fun l => l) false g_tr made_d = Ok comp_d /\ make_tstep (fun l => l) ex_clean g_tr made_d "step" true = Ok cfg_d /\
  known (declared_inputs g_tr (map snd made_d)) /\ known (declared_tendencies (map snd made_d)) /\ (forall x, In x made_d -> NoDup (keys (cp_diag (snd x)))) /\
  known (t_inp comp_d ++ ts_out cfg_d) /\
  ts_out cfg_d = [("temperature", mkprops (Some ["*"; "z"]) false (Some "K") (Some "T") false); ("w", qprops ["y"] "m")] /\
  ts_diag cfg_d = [("heat", qprops ["*"] "J"); ("dust", qprops ["z"] "kg"); ("temperature_tendency_from_step", mkprops (Some ["*"; "z"]) false (Some "K s^-1") None false);
                   ("w_tendency_from_step", qprops ["y"] "m day^-1")] /\
  keys (ts_inp cfg_d) = ["temperature"; "soot"; "ash"; "w"] /\
  entries "temperature" (declared_tendencies (map snd made_d)) <> [].
Proof.
  split; [auto|]. split; [vm_compute; reflexivity|]. split; [vm_compute; reflexivity|]. split; [apply knownb_ok; vm_compute; reflexivity|]. split; [apply knownb_ok; vm_compute; reflexivity|].
  split. { intros x [<-|[<-|[]]]; apply nodupb_ok; reflexivity. }
  split; [apply knownb_ok; vm_compute; reflexivity|].
  split; [vm_compute; reflexivity|]. split; [vm_compute; reflexivity|]. split; [vm_compute; reflexivity|]. discriminate.
Qed.

Definition dcomp_d : dcomp := match make_diagnostic_composite (fun l => l) g_tr made_d with Ok c => c | Err _ => mkdcomp false [] [] end.

Lemma ex_declares_diagnostics : make_diagnostic_composite (fun l => l) g_tr made_d = Ok dcomp_d /\ keys (d_inp dcomp_d) = ["temperature"; "soot"; "ash"] /\ keys (d_diag dcomp_d) = ["heat"; "dust"].
Proof. vm_compute. auto. Qed.
