(** Main lemmas for C91. *)
From Coq Require Import String List Bool Arith ZArith QArith Qcanon Lia.
From Verif Require Import Prelude PreludeFacts ArithM NdArray NdFacts Units DataArrayM GetNp SpecUnits UnitsFacts SpecDa DaFacts
  Components Composite SpecComposite Steppers SpecSteppers SteppersFacts LeapFacts StepAlgebra StepRuns StepExact StepSteady SpecLeapOrder.
Import ListNotations.
Open Scope string_scope.
Open Scope nat_scope.
Open Scope list_scope.

(** One number under Leapfrog: the current value after the call, and the next one. *)
Fixpoint leap_seq (h nu alpha x0 : Qc) (y : nat -> Qc) (k : nat) : Qc * Qc :=
  match k with
  | 0 => (x0, (x0 + h * y 0%nat)%Qc)
  | S k => let '(o, x) := leap_seq h nu alpha x0 y k in leapfrog_values h nu alpha o x (y (S k))
  end.

Lemma time_after_S : forall t h k, time_after t h (S k) = (time_after t h k + h)%Qc.
Proof.
  intros t h k. unfold time_after.
  replace (Q2Qc (inject_Z (Z.of_nat (S k)))) with (Q2Qc (inject_Z (Z.of_nat k)) + 1)%Qc; [ring|].
  apply Qc_is_canon. cbn [this Qcplus Q2Qc]. rewrite !Qred_correct, Nat2Z.inj_succ. unfold Z.succ. rewrite inject_Z_plus. reflexivity.
Qed.

Lemma time_after_0 : forall t h, time_after t h 0 = t.
Proof. intros t h. unfold time_after. replace (Q2Qc (inject_Z (Z.of_nat 0))) with 0%Qc by (apply Qc_is_canon; reflexivity). ring. Qed.

Section LeapOrder.
  Context {R : Registry}.

  Lemma leap_follows : forall {U} cfg (prog : icaller (T:=Qc) U) dt nu alpha u e0 log s,
    lhistory cfg prog dt (new_leap nu alpha, u) (e0 :: log) s -> wf_llog (e0 :: log) ->
    forall X c x0 y, carried X (e0 :: log) -> is_value (l_st e0) X c x0 ->
    (forall k e, nth_error (e0 :: log) k = Some e ->
      exists td, dget X (l_tend e) = Some td /\ in_grid td c /\ rate (l_st e) X td c (y k)) ->
    forall k e, nth_error (e0 :: log) k = Some e ->
      is_value (l_after e) X c (fst (leap_seq (Q2Qc (dt # 1000000)) nu alpha x0 y k)) /\
      is_value (l_new e) X c (snd (leap_seq (Q2Qc (dt # 1000000)) nu alpha x0 y k)).
  Proof.
    intros U cfg prog dt nu alpha u e0 log s H Hw X c x0 y Hc (x & Ex & Gx & Vx) Hy.
    destruct (leap_formula_lemma cfg prog dt nu alpha u _ s H Hw) as (F0 & FS).
    induction k as [|k IH]; intros e He.
    - injection He as <-. destruct (F0 e0 log eq_refl) as (Ha & Heu). cbn [leap_seq fst snd].
      split; [rewrite Ha; exists x; auto|]. destruct (Hy 0 e0 eq_refl) as (td & Et & Gt & Hr).
      destruct (euler_point dt _ _ _ X td x c _ Heu Et Hr Gt Ex Gx) as (r & G1 & G2 & G3).
      exists r. split; auto. split; auto. rewrite G3, Vx. ring.
    - assert (Hk : exists p, nth_error (e0 :: log) k = Some p).
      { destruct (nth_error (e0 :: log) k) as [p|] eqn:E; [eauto|]. apply nth_error_None in E.
        assert (nth_error (e0 :: log) (S k) <> None) by congruence. apply nth_error_Some in H0. lia. }
      destruct Hk as (p & Hp). destruct (IH p Hp) as ((o & Eo & Go & Vo) & (n & En & Gn & Vn)).
      assert (Hs : exists pre post, e0 :: log = pre ++ p :: e :: post).
      { destruct (nth_error_split _ _ Hp) as (pre & post & E & L). exists pre.
        rewrite E in He. rewrite nth_error_app2 in He by lia. replace (S k - length pre) with 1 in He by lia.
        destruct post as [|e' post]; [discriminate He|]. injection He as ->. exists post. exact E. }
      destruct Hs as (pre & post & E). destruct (Hy (S k) e He) as (td & Et & Gt & Hr).
      destruct (FS pre p e post E) as (_ & _ & L). destruct (L X td Et) as (o' & x1 & x' & n' & Eo' & Ex1 & Ex' & En' & X1 & X2 & V1 & V2).
      rewrite Eo in Eo'. injection Eo' as <-. rewrite (Hc pre p e post E), En in Ex1. injection Ex1 as <-.
      assert (Gx' : in_grid x' c) by (apply (in_grid_extends _ _ _ _ X1); [exact Gn|constructor]).
      assert (Gn' : in_grid n' c) by (apply (in_grid_extends _ _ _ _ X2); [exact Go|constructor; [exact Gt|constructor]]).
      destruct (V1 c Gn) as (_ & _ & y1 & Hy1 & W1). destruct (V2 c Gn') as (_ & _ & y2 & Hy2 & W2).
      rewrite (rate_fun _ _ _ _ _ _ Hy1 Hr) in W1. rewrite (rate_fun _ _ _ _ _ _ Hy2 Hr) in W2.
      cbn [leap_seq]. destruct (leap_seq (Q2Qc (dt # 1000000)) nu alpha x0 y k) as [a b]. cbn [fst snd] in Vo, Vn. subst a b.
      split; [exists x'|exists n']; auto.
  Qed.

  Lemma leap_seq_linear : forall h nu alpha t a b k,
    leap_seq h nu alpha (peval [a; b] t) (fun k => peval (pderiv [a; b]) (time_after t h k)) k =
    (peval [a; b] (time_after t h k), peval [a; b] (time_after t h (S k))).
  Proof.
    intros h nu alpha t a b k. induction k as [|k IH]; cbn [leap_seq].
    - rewrite time_after_S, time_after_0. f_equal. cbn [pderiv pderiv_from peval]. ring.
    - rewrite IH. rewrite !time_after_S. set (tk := time_after t h k). clearbody tk. unfold leapfrog_values.
      cbn [aadd amul asub aofQ aeqb ArithQc pderiv pderiv_from peval].
      f_equal; [|match goal with |- (if ?b then _ else _) = _ => destruct b end]; qc_ring.
  Qed.

  (** The error of the first step, carried by every second state. *)
  Definition lag (h b2 : Qc) (k : nat) : Qc := if Nat.odd k then (b2 * (h * h))%Qc else 0%Qc.

  Lemma leap_seq_quadratic : forall h alpha t a b b2 k,
    leap_seq h 0%Qc alpha (peval [a; b; b2] t) (fun k => peval (pderiv [a; b; b2]) (time_after t h k)) k =
    (peval [a; b; b2] (time_after t h k) - lag h b2 k, peval [a; b; b2] (time_after t h (S k)) - lag h b2 (S k))%Qc.
  Proof.
    intros h alpha t a b b2 k. induction k as [|k IH]; cbn [leap_seq].
    - rewrite time_after_S, time_after_0. unfold lag. cbn [Nat.odd Nat.even negb]. f_equal; cbn [pderiv pderiv_from peval]; ring.
    - rewrite IH. rewrite !time_after_S. set (tk := time_after t h k). clearbody tk. unfold leapfrog_values.
      assert (L : lag h b2 (S (S k)) = lag h b2 k) by reflexivity. rewrite L.
      generalize (lag h b2 k) (lag h b2 (S k)). intros l l'.
      cbn [aadd amul asub aofQ aeqb ArithQc pderiv pderiv_from peval].
      f_equal; [|match goal with |- (if ?b then _ else _) = _ => destruct b end]; qc_ring.
  Qed.

  Lemma leap_linear : forall {U} cfg (prog : icaller (T:=Qc) U) dt nu alpha u e0 log s,
    lhistory cfg prog dt (new_leap nu alpha, u) (e0 :: log) s -> wf_llog (e0 :: log) ->
    forall X c a b t, let h := Q2Qc (dt # 1000000) in
    carried X (e0 :: log) -> is_value (l_st e0) X c (peval [a; b] t) -> rates_are (e0 :: log) X c [a; b] t h ->
    forall k e, nth_error (e0 :: log) k = Some e ->
      is_value (l_after e) X c (peval [a; b] (time_after t h k)) /\
      is_value (l_new e) X c (peval [a; b] (time_after t h (S k))).
  Proof.
    intros U cfg prog dt nu alpha u e0 log s H Hw X c a b t h Hc Hx Hy k e He.
    assert (G := leap_follows cfg prog dt nu alpha u e0 log s H Hw X c _ _ Hc Hx Hy k e He).
    fold h in G. rewrite leap_seq_linear in G. exact G.
  Qed.

  Lemma leap_quadratic : forall {U} cfg (prog : icaller (T:=Qc) U) dt alpha u e0 log s,
    lhistory cfg prog dt (new_leap 0%Qc alpha, u) (e0 :: log) s -> wf_llog (e0 :: log) ->
    forall X c a b b2 t, let h := Q2Qc (dt # 1000000) in
    carried X (e0 :: log) -> is_value (l_st e0) X c (peval [a; b; b2] t) -> rates_are (e0 :: log) X c [a; b; b2] t h ->
    forall k e, nth_error (e0 :: log) k = Some e ->
      is_value (l_new e) X c
        (peval [a; b; b2] (time_after t h (S k)) - (if Nat.even k then b2 * (h * h) else 0))%Qc.
  Proof.
    intros U cfg prog dt alpha u e0 log s H Hw X c a b b2 t h Hc Hx Hy k e He.
    assert (G := leap_follows cfg prog dt 0%Qc alpha u e0 log s H Hw X c _ _ Hc Hx Hy k e He).
    fold h in G. rewrite leap_seq_quadratic in G. destruct G as (_ & G). cbn [snd] in G.
    unfold lag in G. rewrite Nat.odd_succ in G. exact G.
  Qed.
End LeapOrder.
