(** C97, put together: what happens to the distance from the equilibrium over a run. *)
From Coq Require Import String List Bool Arith ZArith QArith Qcanon Lia Lqa.
From Verif Require Import Prelude PreludeFacts ArithM NdArray Units DataArrayM Components Composite Steppers Basic
  SpecUnits SpecArrays SpecDa SpecComposite SpecSteppers SpecBasic SpecOrder SpecRound SpecRelax SpecConverge
  StepAlgebra ConvergeAlg RelaxFacts RelaxMain RelaxAlg BasicMain RKFacts.
Import ListNotations.
Open Scope string_scope.
Open Scope nat_scope.
Open Scope list_scope.

Lemma part_of : forall h s : Qc, (0 < h)%Qc -> (h <= s)%Qc -> s <> 0%Qc /\ (0 < h / s)%Qc /\ (h / s <= 1)%Qc.
Proof.
  intros h s H0 H1. assert (Hs : (0 < s)%Qc) by qc_lra. assert (Hn : s <> 0%Qc) by (intros X; rewrite X in Hs; qc_lra).
  destruct (div_convex h s Hs (Qclt_le_weak _ _ H0) H1) as (A & B). split; [exact Hn|]. split; [|exact B].
  destruct (Qclt_le_dec 0 (h / s)) as [X|X]; [exact X|exfalso]. apply (Qcmult_le_compat_r _ _ s) in X; [|apply Qclt_le_weak; exact Hs].
  replace (h / s * s)%Qc with h in X by (field; exact Hn). rewrite Qcmult_0_l in X. qc_lra.
Qed.

Lemma secs_pos : forall dt : Z, (0 < dt)%Z -> (0 < Q2Qc (dt # 1000000))%Qc.
Proof. intros dt H. unfold Qclt. rewrite this_0, this_Q2Qc. unfold Qlt. cbn [Qnum Qden]. lia. Qed.

Lemma within_back : forall e ve y, within e y 0%Qc -> within e (ve + y)%Qc ve.
Proof. intros e ve y (A & B). split; qc_lra. Qed.

Section Runs.
  Context {R : Registry} (Hsane : sane_registry R) (Hps : per_second_law R).
  Context (over_s : string -> res string) (q u tu name : string) (tid : bool) (c : tcomp).
  Context (Hos : over_second_law R over_s) (Ho : over_s u = Ok tu) (Hn : new_relaxation over_s q u name tid = Ok c).
  Context (prog : icaller (T:=Qc) unit) (Hprog : prog = (fun w (st : state Qc) d => implicit_composite_call [inr (stateless (relaxation_call c q))] d w st)).

  Lemma relax_ab : forall cfg dt o a0 w0 calls a w p ve vs nows (st : state Qc) v s' st', new_ab o = Ok a0 -> is_order o 1 ->
    after (adams_bashforth cfg prog) calls (a0, w0) = (a, w) -> wf_state st -> NoDup (keys st) ->
    in_a_row (adams_bashforth cfg prog) dt (a, w) st nows s' st' -> relaxing q p ve vs v st -> vs <> 0%Qc ->
    relaxing q p ve vs (ve + decay 1 (Q2Qc (dt # 1000000) / vs) ^ length nows * (v - ve))%Qc st'.
  Proof. subst prog. exact (relax_ab_run over_s q u tu name tid c Ho Hn Hsane Hps Hos). Qed.

  Lemma relax_rk : forall cfg dt z k0 u0 p ve vs nows calls k w (st : state Qc) v s' st',
    new_rk z = Ok k0 -> after (ssp_rk cfg prog) calls (k0, u0) = (k, w) -> wf_state st -> NoDup (keys st) ->
    in_a_row (ssp_rk cfg prog) dt (k, w) st nows s' st' -> relaxing q p ve vs v st -> vs <> 0%Qc ->
    relaxing q p ve vs (ve + decay (Z.to_nat z) (Q2Qc (dt # 1000000) / vs) ^ length nows * (v - ve))%Qc st'.
  Proof. subst prog. exact (relax_rk_run over_s q u tu name tid c Ho Hn Hsane Hps Hos). Qed.

  Lemma relax_leap : forall cfg dt alpha w log s p ve vs v,
    lhistory cfg prog dt (new_leap 0%Qc alpha, w) log s ->
    (forall e, In e log -> wf_state (l_st e) /\ NoDup (keys (l_st e))) ->
    (forall pre a b post, log = pre ++ a :: b :: post -> forall X, X <> "time" -> dget X (l_st b) = dget X (l_new a)) ->
    (forall e, In e log -> exists now, dget "time" (l_st e) = Some (VTime now)) ->
    (forall e post, log = e :: post -> relaxing q p ve vs v (l_st e)) -> vs <> 0%Qc ->
    forall k e, nth_error log k = Some e ->
      relaxing q p ve vs (ve + leap_off (Q2Qc (dt # 1000000) / vs) (v - ve) k)%Qc (l_st e) /\
      relaxing q p ve vs (ve + leap_off (Q2Qc (dt # 1000000) / vs) (v - ve) (S k))%Qc (l_new e).
  Proof. subst prog. exact (relax_leap_run over_s q u tu name tid c Ho Hn Hsane Hps Hos). Qed.

  (** The one-step schemes come near, from one side. *)
  Lemma relax_ab_near : forall dt p ve vs v eps, (0 < dt)%Z -> (Q2Qc (dt # 1000000) <= vs)%Qc -> (0 < eps)%Qc ->
    exists N, forall cfg o a0 w0 calls a w nows (st : state Qc) s' st', new_ab o = Ok a0 -> is_order o 1 ->
      after (adams_bashforth cfg prog) calls (a0, w0) = (a, w) -> wf_state st -> NoDup (keys st) ->
      in_a_row (adams_bashforth cfg prog) dt (a, w) st nows s' st' -> relaxing q p ve vs v st ->
      exists v', relaxing q p ve vs v' st' /\ between v v' ve /\ (N <= length nows -> within eps v' ve).
  Proof.
    intros dt p ve vs v eps Hdt Hvs He. destruct (part_of _ _ (secs_pos dt Hdt) Hvs) as (Hn0 & Z0 & Z1).
    destruct (decay_tends 1 _ (v - ve)%Qc eps ltac:(lia) Z0 Z1 He) as (N & HN). exists N.
    intros cfg o a0 w0 calls a w nows st s' st' H1 H2 H3 H4 H5 H6 H7. eexists. split; [eapply relax_ab; eauto|]. split.
    - apply decay_between; [lia|apply Qclt_le_weak; exact Z0|exact Z1].
    - intros Hl. apply within_back. apply HN. exact Hl.
  Qed.

  Lemma relax_rk_near : forall dt p ve vs v eps, (0 < dt)%Z -> (Q2Qc (dt # 1000000) <= vs)%Qc -> (0 < eps)%Qc ->
    exists N, forall cfg z k0 u0 calls k w nows (st : state Qc) s' st', new_rk z = Ok k0 ->
      after (ssp_rk cfg prog) calls (k0, u0) = (k, w) -> wf_state st -> NoDup (keys st) ->
      in_a_row (ssp_rk cfg prog) dt (k, w) st nows s' st' -> relaxing q p ve vs v st ->
      exists v', relaxing q p ve vs v' st' /\ between v v' ve /\ (N <= length nows -> within eps v' ve).
  Proof.
    intros dt p ve vs v eps Hdt Hvs He. destruct (part_of _ _ (secs_pos dt Hdt) Hvs) as (Hn0 & Z0 & Z1).
    destruct (decay_tends 2 _ (v - ve)%Qc eps ltac:(lia) Z0 Z1 He) as (N2 & HN2).
    destruct (decay_tends 3 _ (v - ve)%Qc eps ltac:(lia) Z0 Z1 He) as (N3 & HN3). exists (Nat.max N2 N3).
    intros cfg z k0 u0 calls k w nows st s' st' H1 H3 H4 H5 H6 H7. eexists. split; [eapply relax_rk; eauto|].
    destruct (rk_reachable cfg prog z k0 u0 calls k w H1 H3) as (_ & _ & Hz). split.
    - apply decay_between; [lia|apply Qclt_le_weak; exact Z0|exact Z1].
    - intros Hl. apply within_back. destruct Hz as [-> | ->]; [apply HN2|apply HN3]; lia.
  Qed.

  (** Leapfrog without a filter goes away. *)
  Lemma relax_leap_away : forall dt p ve vs v B, (0 < dt)%Z -> (0 < vs)%Qc -> v <> ve ->
    exists N, forall cfg alpha w log s, lhistory cfg prog dt (new_leap 0%Qc alpha, w) log s ->
      (forall e, In e log -> wf_state (l_st e) /\ NoDup (keys (l_st e))) ->
      (forall pre a b post, log = pre ++ a :: b :: post -> forall X, X <> "time" -> dget X (l_st b) = dget X (l_new a)) ->
      (forall e, In e log -> exists now, dget "time" (l_st e) = Some (VTime now)) ->
      (forall e post, log = e :: post -> relaxing q p ve vs v (l_st e)) ->
      forall k e, nth_error log k = Some e -> N <= k ->
        exists v', relaxing q p ve vs v' (l_st e) /\ ((B <= v' - ve)%Qc \/ (v' - ve <= - B)%Qc).
  Proof.
    intros dt p ve vs v B Hdt Hvs Hv. assert (Hn0 : vs <> 0%Qc) by (intros X; rewrite X in Hvs; qc_lra).
    assert (Z0 : (0 < Q2Qc (dt # 1000000) / vs)%Qc).
    { assert (H := secs_pos dt Hdt). set (h := Q2Qc (dt # 1000000)) in *. clearbody h.
      destruct (Qclt_le_dec 0 (h / vs)) as [X|X]; [exact X|exfalso]. apply (Qcmult_le_compat_r _ _ vs) in X; [|apply Qclt_le_weak; exact Hvs].
      replace (h / vs * vs)%Qc with h in X by (field; exact Hn0). rewrite Qcmult_0_l in X. qc_lra. }
    destruct (leap_diverges _ (v - ve)%Qc B Z0) as (N & HN).
    { intros X. apply Hv. transitivity (v - ve + ve)%Qc; [ring|rewrite X; ring]. }
    exists N. intros cfg alpha w log s H1 H2 H3 H4 H5 k e Hk Hle.
    destruct (relax_leap cfg dt alpha w log s p ve vs v H1 H2 H3 H4 H5 Hn0 k e Hk) as (H & _).
    eexists. split; [exact H|]. specialize (HN k Hle). set (y := leap_off _ _ _) in *. replace (ve + y - ve)%Qc with y by ring. exact HN.
  Qed.
End Runs.
