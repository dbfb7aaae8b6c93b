(** The stages of SSPRungeKutta when the components return proper tendencies on the states of a run only. *)
From Coq Require Import String List Bool Arith ZArith QArith Qcanon Lia.
From Verif Require Import Prelude PreludeFacts ArithM NdArray NdFacts Units DataArrayM GetNp Components Composite Steppers
  SpecUnits UnitsFacts SpecDa DaFacts SpecComposite SpecSteppers SteppersFacts ABFacts RKFacts StepAlgebra StepExact.
Import ListNotations.
Open Scope string_scope.
Open Scope nat_scope.
Open Scope list_scope.

Section Inv.
  Context {R : Registry} {U : Type} (prog : icaller (T:=Qc) U) (dt : Z) (K : state Qc -> Prop).
  Context (K_proper : forall st, K st -> proper_state st)
          (K_tend : forall u st u' tend diag, K st -> prog u st dt = (u', Ok (tend, diag)) -> proper tend)
          (K_euler : forall u st u' tend diag st', K st -> prog u st dt = (u', Ok (tend, diag)) -> euler_step dt st tend st' -> proper_state st' -> K st')
          (K_comb : forall f st st' out, K st -> K st' -> combination f st st' out -> proper_state out -> K out).

  Lemma inner_euler_inv : forall a u (st : state Qc) a' u' diag new, ab_order a = 1 -> K st ->
    inner_euler prog (a, u) st dt = ((a', u'), Ok (diag, new)) ->
    exists tend, prog u st dt = (u', Ok (tend, diag)) /\ euler_step dt st tend new /\ K new.
  Proof.
    intros a u st a' u' diag new Ho Hk H. unfold inner_euler in H.
    destruct (ab_call prog (a, u) st dt) as [[a1 u1] [[d0 n0]|e]] eqn:Ec; cbn [bind fst snd] in H; [|discriminate].
    injection H as <- <- <- <-. apply ab_call_ok in Ec as (t0 & t & new0 & _ & Hp & Hc & Hs & -> & _).
    rewrite Ho, perform_step_1 in Hs. rewrite copy_untouched_idem. exists t0. split; auto.
    destruct (euler_ok st t0 t dt new0 Hc Hs (K_proper _ Hk) (K_tend _ _ _ _ _ Hk Hp)) as (E1 & E2). split; eauto.
  Qed.

  Lemma ab_one_inv : forall cfg a u (st : state Qc) a' u' diag new, ab_order a = 1 -> K st ->
    adams_bashforth cfg prog (a, u) st dt = ((a', u'), Ok (diag, new)) ->
    ab_order a' = 1 /\ exists tend diag0, prog u st dt = (u', Ok (tend, diag0)) /\ euler_step dt st tend new /\ K new.
  Proof.
    intros cfg a u st a' u' diag new Ho Hk H. unfold adams_bashforth in H.
    destruct (ab_call prog (a, u) st dt) as [[a1 u1] r] eqn:Ec. injection H as -> -> H.
    apply finish_ok in H as (d0 & n0 & -> & -> & _). split; [rewrite <- Ho; eapply ab_order_call; eauto|].
    apply ab_call_ok in Ec as (t0 & t & new0 & _ & Hp & Hc & Hs & -> & _).
    rewrite Ho, perform_step_1 in Hs. rewrite copy_untouched_idem. exists t0, d0. split; auto.
    destruct (euler_ok st t0 t dt new0 Hc Hs (K_proper _ Hk) (K_tend _ _ _ _ _ Hk Hp)) as (E1 & E2). split; eauto.
  Qed.

  Lemma rk3_inv : forall cfg e u (st : state Qc) s' diag new, ab_order e = 1 -> K st ->
    ssp_rk cfg prog (mkrk 3 e, u) st dt = (s', Ok (diag, new)) ->
    exists u1 u2 u3 tend1 tend2 tend3 diag1 diag2 diag3 st1 st15 st2 st25,
      prog u st dt = (u1, Ok (tend1, diag1)) /\ euler_step dt st tend1 st1 /\
      prog u1 st1 dt = (u2, Ok (tend2, diag2)) /\ euler_step dt st1 tend2 st15 /\
      combination (fun x y => (Q2Qc (3 # 4) * x + Q2Qc (1 # 4) * y)%Qc) st st15 st2 /\
      prog u2 st2 dt = (u3, Ok (tend3, diag3)) /\ euler_step dt st2 tend3 st25 /\
      combination (fun x y => (Q2Qc (1 # 3) * x + Q2Qc (2 # 3) * y)%Qc) st st25 new /\
      K st1 /\ K st15 /\ K st2 /\ K st25 /\ K new.
  Proof.
    intros cfg e u st s' diag new Ho Hk H. unfold ssp_rk in H. cbn [rk_stages rk_euler Nat.eqb] in H.
    destruct (rk3 prog (e, u) st dt) as [[e3 u3] r] eqn:E. injection H as <- H.
    apply finish_ok in H as (d0 & n0 & -> & Hn & Hd). unfold rk3 in E.
    destruct (inner_euler prog (e, u) st dt) as [[e1 u1] [[dg1 st1]|x1]] eqn:E1; [|discriminate].
    pose proof (inner_euler_order _ _ _ _ _ _ _ _ E1) as O1.
    apply inner_euler_inv in E1 as (t1 & P1 & S1 & W1); auto.
    destruct (inner_euler prog (e1, u1) st1 dt) as [[e2 u2] [[dg2 st15]|x2]] eqn:E2; cbn [bind fst snd] in E; [|discriminate].
    pose proof (inner_euler_order _ _ _ _ _ _ _ _ E2) as O2.
    apply inner_euler_inv in E2 as (t2 & P2 & S2 & W2); auto; [|congruence].
    destruct (multiply (aofQ (3 # 4)) st) as [a|x3] eqn:Ma; cbn [bind] in E; [|discriminate].
    destruct (multiply (aofQ (1 # 4)) st15) as [b|x4] eqn:Mb; cbn [bind] in E; [|discriminate].
    destruct (add_states a b) as [st2|x5] eqn:Mc; [|discriminate].
    destruct (mix_ok _ _ _ _ _ _ _ (K_proper _ Hk) (K_proper _ W2) Ma Mb Mc) as (C2 & W3).
    assert (K2 : K st2) by (eapply K_comb; [exact Hk|exact W2|exact C2|exact W3]).
    destruct (inner_euler prog (e2, u2) st2 dt) as [[e3' u3'] [[dg3 st25]|x6]] eqn:E3; cbn [bind fst snd] in E; [|discriminate].
    apply inner_euler_inv in E3 as (t3 & P3 & S3 & W4); auto; [|congruence].
    destruct (multiply (aofQ (1 # 3)) st) as [a'|x7] eqn:Ma'; cbn [bind] in E; [|discriminate].
    destruct (multiply (aofQ (2 # 3)) st25) as [b'|x8] eqn:Mb'; cbn [bind] in E; [|discriminate].
    destruct (add_states a' b') as [out|x9] eqn:Mc'; cbn [bind] in E; [|discriminate].
    destruct (mix_ok _ _ _ _ _ _ _ (K_proper _ Hk) (K_proper _ W4) Ma' Mb' Mc') as (C3 & W5).
    injection E as -> -> -> ->. pose proof (combination_copy _ _ _ _ C3) as Hcp. rewrite <- Hn in Hcp.
    exists u1, u2, u3, t1, t2, t3, d0, dg2, dg3, st1, st15, st2, st25.
    pose proof (combination_get _ _ _ _ _ Hcp C3) as C4.
    assert (W6 : proper_state new).
    { apply (proper_state_get _ _ Hcp); auto. subst new. apply NoDup_copy_untouched. apply W5. }
    assert (K6 : K new) by (eapply K_comb; [exact Hk|exact W4|exact C4|exact W6]).
    repeat match goal with |- _ /\ _ => split end; auto.
  Qed.

  Lemma rk2_inv : forall cfg e u (st : state Qc) s' diag new, ab_order e = 1 -> K st ->
    ssp_rk cfg prog (mkrk 2 e, u) st dt = (s', Ok (diag, new)) ->
    exists u1 u2 tend1 tend2 diag1 diag2 st1 st2,
      prog u st dt = (u1, Ok (tend1, diag1)) /\ euler_step dt st tend1 st1 /\
      prog u1 st1 dt = (u2, Ok (tend2, diag2)) /\ euler_step dt st1 tend2 st2 /\
      combination (fun x y => (Q2Qc (1 # 2) * x + Q2Qc (1 # 2) * y)%Qc) st st2 new /\
      K st1 /\ K st2 /\ K new.
  Proof.
    intros cfg e u st s' diag new Ho Hk H. unfold ssp_rk in H. cbn [rk_stages rk_euler Nat.eqb] in H.
    destruct (rk2 prog (e, u) st dt) as [[e3 u3] r] eqn:E. injection H as <- H.
    apply finish_ok in H as (d0 & n0 & -> & Hn & Hd). unfold rk2 in E.
    destruct (inner_euler prog (e, u) st dt) as [[e1 u1] [[dg1 st1]|x1]] eqn:E1; [|discriminate].
    pose proof (inner_euler_order _ _ _ _ _ _ _ _ E1) as O1.
    apply inner_euler_inv in E1 as (t1 & P1 & S1 & W1); auto.
    destruct (inner_euler prog (e1, u1) st1 dt) as [[e2 u2] [[dg2 st2]|x2]] eqn:E2; cbn [bind fst snd] in E; [|discriminate].
    apply inner_euler_inv in E2 as (t2 & P2 & S2 & W2); auto; [|congruence].
    destruct (add_states st st2) as [s|x5] eqn:Mc; cbn [bind] in E; [|discriminate].
    destruct (multiply (aofQ (1 # 2)) s) as [out|x7] eqn:Ma'; cbn [bind] in E; [|discriminate].
    destruct (half_sum_ok _ _ _ _ _ (K_proper _ Hk) (K_proper _ W2) Mc Ma') as (C3 & W5).
    injection E as -> -> -> ->. pose proof (combination_copy _ _ _ _ C3) as Hcp. rewrite <- Hn in Hcp.
    exists u1, u3, t1, t2, d0, dg2, st1, st2.
    pose proof (combination_get _ _ _ _ _ Hcp C3) as C4.
    assert (W6 : proper_state new).
    { apply (proper_state_get _ _ Hcp); auto. subst new. apply NoDup_copy_untouched. apply W5. }
    assert (K6 : K new) by (eapply K_comb; [exact Hk|exact W2|exact C4|exact W6]).
    repeat match goal with |- _ /\ _ => split end; auto.
    eapply combination_ext; [|exact C4]. intros x y. cbn [aadd amul aofQ ArithQc]. ring.
  Qed.
End Inv.
