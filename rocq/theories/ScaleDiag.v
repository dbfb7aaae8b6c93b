(** C103: DiagnosticComponentComposite on rescaled states. *)
From Coq Require Import String List Bool Arith ZArith QArith Qcanon.
From Verif Require Import Prelude PreludeFacts ArithM NdArray Units DataArrayM Tracers Components Composite SpecScale ScaleMain SpecScaleDiag.
Import ListNotations.
Open Scope string_scope.
Open Scope nat_scope.
Open Scope list_scope.

Section Diag.
  Context {R : Registry} {U : Type} (f fd : string -> Qc) (st : state Qc).

  Lemma scale_diagnostic_loop (cs : list (dcaller (T:=Qc) U)) : Forall (scales_diagnostic f fd st) cs -> forall u diag,
    diagnostic_loop cs u (by_name times_value f st) (by_name times_da fd diag) =
    (fst (diagnostic_loop cs u st diag), result_map (by_name times_da fd) (snd (diagnostic_loop cs u st diag))).
  Proof.
    intros H. induction H as [ | c cs Hc H IH]; intros u diag; cbn [diagnostic_loop]; [reflexivity | ].
    rewrite (Hc u). destruct (c u st) as [u' [d | e]]; cbn [fst snd result_map bind]; [ | reflexivity].
    assert (E : ensure_no_shared_keys (by_name times_da fd diag) (by_name times_da fd d) = ensure_no_shared_keys diag d) by (unfold ensure_no_shared_keys; rewrite by_name_keys; f_equal; induction (keys diag) as [ | k ks IHk]; cbn [existsb]; [reflexivity | ]; rewrite IHk; unfold dmem; rewrite by_name_get; destruct (dget k d); reflexivity).
    rewrite E. destruct (ensure_no_shared_keys diag d) as [[] | e]; cbn [bind fst snd result_map]; [ | reflexivity].
    rewrite times_update. apply IH.
  Qed.

  Theorem scale_diagnostic_composite (cs : list (dcaller (T:=Qc) U)) :
    Forall (scales_diagnostic f fd st) cs -> scales_diagnostic f fd st (diagnostic_composite_call cs).
  Proof. intros H u. exact (scale_diagnostic_loop cs H u []). Qed.
End Diag.
