(** Concrete cases for construction with tracers (C16). *)
From Coq Require Import String List Bool Arith ZArith.
From Verif Require Import Prelude PreludeFacts Units ExampleRegistry DataArrayM Tracers SpecComponents Components Ex_Components SpecConstruct ConstructFacts.
Import ListNotations.
Open Scope string_scope.
Open Scope nat_scope.
Open Scope list_scope.

#[local] Existing Instance ex_registry | 5.

Definition g_soot : treg := mktreg [("soot", "kg")] ["soot"] [].
Definition opts_c (first : list (string * string)) : tracer_opts := Some (Some ["tracer"; "z"], first).

(** Properties in order, a registered tracer that is not an output, and one put first that is not either:
    made, and recorded.  The name of an output put first: refused.  Tracer dims that are missing or lack
    'tracer': ValueError. *)
Lemma construct_case : ~ tracer_is_output g_soot [("dust", "kg")] (keys tend_c) /\ tracer_is_output g_soot [("T", "K")] (keys tend_c) /\
  (exists c, make_tendency_component false g_soot inp_c tend_c diag_c "heat" true (opts_c [("dust", "kg")]) "s" =
     (mktreg [("soot", "kg")] ["soot"] [mkpacker [("dust", "kg")] ["tracer"; "z"] (keys tend_c)], Ok c)) /\
  make_tendency_component true g_soot inp_c tend_c diag_c "heat" true (opts_c [("T", "K")]) "s" = (g_soot, Err EInvalidProps) /\
  make_tendency_component true g_soot inp_c tend_c diag_c "heat" true (Some (None, [])) "s" = (g_soot, Err EValue) /\
  make_tendency_component true g_soot inp_c tend_c diag_c "heat" true (Some (Some ["z"], [])) "s" = (g_soot, Err EValue).
Proof.
  split. { intros (n & [[<-|[]]|[<-|[]]] & H); vm_compute in H; repeat (destruct H as [H|H]; [discriminate H|]); exact H. }
  split. { exists "T". split; [left; left; reflexivity|]. apply mem_In. reflexivity. }
  split; [eexists; vm_compute; reflexivity|]. split; [vm_compute; reflexivity|]. split; vm_compute; reflexivity.
Qed.
