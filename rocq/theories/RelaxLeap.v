(** Runs of a single RelaxationTendencyComponent with Leapfrog and any filter (C97). *)
From Coq Require Import String List Bool Arith ZArith QArith Qcanon Lia Lqa.
From Verif Require Import Prelude PreludeFacts ArithM NdArray NdFacts Units DataArrayM GetNp Components Composite Steppers Basic
  SpecUnits UnitsFacts SpecArrays SpecDa SpecComposite SpecSteppers SpecBasic SpecOrder SpecRound SpecRelax
  DaFacts ABFacts RKFacts LeapFacts StepAlgebra StepRuns StepExact SteppersMain BasicFacts BasicMain RKInv ConvergeAlg RelaxFacts RelaxMain RelaxAlg RelaxRuns.
Import ListNotations.
Open Scope string_scope.
Open Scope nat_scope.
Open Scope list_scope.

(** ** Sequences where each number comes from the two before it *)

Lemma power_tends : forall (f M eps : Qc), (0 <= f)%Qc -> (f < 1)%Qc -> (0 <= M)%Qc -> (0 < eps)%Qc -> exists N, forall k, N <= k -> (f ^ k * M <= eps)%Qc.
Proof.
  intros f M eps F0 F1 HM He. set (w := (1 - f)%Qc). assert (Hw : (0 < w)%Qc) by (unfold w; qc_lra).
  destruct (archimedes_mul M (eps * w)%Qc ltac:(clear - He Hw; qc_nra)) as (N & HN). exists N. intros k Hk. specialize (HN k Hk).
  assert (P := power_small f w k F0 (Qclt_le_weak _ _ Hw) ltac:(unfold w; qc_lra)). assert (Q := power_nonneg f k F0).
  eapply Qcle_trans; [apply mul_le; [exact Q|exact HN]|].
  replace (f ^ k * (nq k * (eps * w)))%Qc with ((f ^ k * (1 + nq k * w) - f ^ k) * eps)%Qc by ring.
  rewrite <- (Qcmult_1_l eps) at 2. apply Qcmult_le_compat_r; [|apply Qclt_le_weak; auto].
  revert P Q. generalize (f ^ k * (1 + nq k * w))%Qc (f ^ k)%Qc. intros. qc_lra.
Qed.

Lemma size_of : forall x : Qc, exists m, (0 <= m /\ x <= m /\ - x <= m)%Qc /\ (m = x \/ m = - x)%Qc.
Proof. intros x. destruct (Qclt_le_dec x 0); [exists (- x)%Qc|exists x]; (split; [repeat split; qc_lra|auto]). Qed.

Lemma size_mul : forall a b A B : Qc, (0 <= A)%Qc -> (0 <= B)%Qc -> (a <= A /\ - a <= A)%Qc -> (b <= B /\ - b <= B)%Qc ->
  (a * b <= A * B /\ - (a * b) <= A * B)%Qc.
Proof. intros a b A B HA HB (a1 & a2) (b1 & b2). split; qc_nra. Qed.

Section Two.
  Context (T D : Qc) (x : nat -> Qc) (Hx : forall k, x (S (S k)) = (T * x (S k) + D * x k)%Qc) (HD : (0 <= D)%Qc).

  Lemma two_tends : (T + D < 1)%Qc -> (D - T < 1)%Qc -> forall eps, (0 < eps)%Qc -> exists N, forall k, N <= k -> within eps (x k) 0%Qc.
  Proof.
    intros H1 H2 eps He. destruct (size_of T) as (t & (T0 & T1 & T2) & Et).
    set (r := (t + D)%Qc). assert (R0 : (0 <= r)%Qc) by (unfold r; qc_lra).
    assert (R1 : (r < 1)%Qc) by (unfold r; destruct Et as [-> | ->]; qc_lra).
    destruct (size_of (x 0)) as (m0 & (A0 & A1 & A2) & _). destruct (size_of (x 1)) as (m1 & (B0 & B1 & B2) & _).
    set (M := (m0 + m1)%Qc). assert (HM : (0 <= M)%Qc) by (unfold M; qc_lra).
    assert (G : forall k, (x (2 * k) <= r ^ k * M /\ - x (2 * k) <= r ^ k * M)%Qc /\ (x (S (2 * k)) <= r ^ k * M /\ - x (S (2 * k)) <= r ^ k * M)%Qc).
    { induction k as [|k ((I1 & I2) & (I3 & I4))].
      - cbn [Qcpower Nat.mul Nat.add]. unfold M. split; split; qc_lra.
      - replace (2 * S k) with (S (S (2 * k))) by lia. rewrite (Hx (S (2 * k))), (Hx (2 * k)).
        set (y0 := x (2 * k)) in *. set (y1 := x (S (2 * k))) in *. cbn [Qcpower].
        assert (P := power_nonneg r k R0). set (c := (r ^ k * M)%Qc) in *.
        assert (C : (0 <= c)%Qc) by (unfold c; apply mul_pos; auto).
        replace (r * r ^ k * M)%Qc with (r * c)%Qc by (unfold c; ring).
        clearbody y0 y1 c.
        destruct (size_mul T y1 t c T0 C (conj T1 T2) (conj I3 I4)) as (U1 & U2).
        destruct (size_mul D y0 D c HD C ltac:(split; qc_lra) (conj I1 I2)) as (V1 & V2).
        destruct (size_mul D y1 D c HD C ltac:(split; qc_lra) (conj I3 I4)) as (X1 & X2).
        assert (E : (r * c = t * c + D * c)%Qc) by (unfold r; ring).
        assert (W : (T * y1 + D * y0 <= r * c /\ - (T * y1 + D * y0) <= r * c)%Qc) by (rewrite E; split; qc_lra).
        split; [exact W|].
        assert (Rc : (0 <= r * c)%Qc) by (apply mul_pos; auto).
        destruct (size_mul T _ t (r * c)%Qc T0 Rc (conj T1 T2) W) as (Y1 & Y2).
        assert (Z : (t * (r * c) <= t * c)%Qc).
        { apply mul_le; auto. rewrite <- (Qcmult_1_l c) at 2. apply Qcmult_le_compat_r; [apply Qclt_le_weak; exact R1|exact C]. }
        rewrite E. revert Y1 Y2 Z X1 X2. rewrite E. generalize (T * (T * y1 + D * y0))%Qc (t * (t * c + D * c))%Qc (t * c)%Qc (D * c)%Qc (D * y1)%Qc. intros. split; qc_lra. }
    destruct (power_tends r M eps R0 R1 HM He) as (N & HN). exists (2 * N). intros k Hk.
    assert (Hp : exists j, N <= j /\ (k = 2 * j \/ k = S (2 * j))).
    { exists (Nat.div2 k). pose proof (Nat.div2_odd k) as E. destruct (Nat.odd k); cbn [Nat.b2n] in E; split; lia. }
    destruct Hp as (j & Hj & Ek). specialize (HN j Hj). destruct (G j) as ((J1 & J2) & (J3 & J4)). revert HN J1 J2 J3 J4.
    generalize (r ^ j * M)%Qc. intros c Hc J1 J2 J3 J4. destruct Ek as [-> | ->]; split.
    - revert J1 Hc. generalize (x (2 * j)). intros. qc_lra.
    - revert J2 Hc. generalize (x (2 * j)). intros. qc_lra.
    - revert J3 Hc. generalize (x (S (2 * j))). intros. qc_lra.
    - revert J4 Hc. generalize (x (S (2 * j))). intros. qc_lra.
  Qed.

  Lemma two_unit : (0 <= T)%Qc -> (T + D <= 1)%Qc -> (0 <= x 0 <= 1)%Qc -> (0 <= x 1 <= 1)%Qc -> forall k, (0 <= x k <= 1)%Qc.
  Proof.
    intros T0 H1 X0 X1 k. assert (G : (0 <= x k <= 1)%Qc /\ (0 <= x (S k) <= 1)%Qc); [|apply G].
    induction k as [|k ((A0 & A1) & (B0 & B1))]; [auto|]. split; [auto|]. rewrite Hx. revert A0 A1 B0 B1. generalize (x k) (x (S k)). intros a b A0 A1 B0 B1.
    pose proof (mul_pos _ _ T0 B0). pose proof (mul_pos _ _ HD A0). pose proof (mul_le T _ _ T0 B1) as M1. pose proof (mul_le D _ _ HD A1) as M2.
    rewrite Qcmult_1_r in M1, M2. revert H H0 M1 M2. generalize (T * b)%Qc (D * a)%Qc. intros. split; qc_lra.
  Qed.
End Two.

(** ** The distances of a filtered run *)
Section Filter.
  Context (nu alpha z : Qc).

  Lemma pair_lin : forall d k, leap_pair nu alpha z d k = (d * fst (leap_pair nu alpha z 1 k), d * snd (leap_pair nu alpha z 1 k))%Qc.
  Proof.
    intros d k. induction k as [|k IH]; cbn [leap_pair]; [cbn [fst snd]; f_equal; ring|]. rewrite IH.
    destruct (leap_pair nu alpha z 1 k) as [a b]. cbn [fst snd]. f_equal; ring.
  Qed.

  Lemma given_lin : forall d k, leap_given nu alpha z d k = (d * leap_given nu alpha z 1 k)%Qc.
  Proof. intros d [|k]; cbn [leap_given]; [ring|]. rewrite pair_lin. reflexivity. Qed.

  Lemma given_step : forall d k, leap_given nu alpha z d (S (S (S k))) =
    ((nu + (1 - alpha) * (nu * z) - Q2Qc (2 # 1) * z) * leap_given nu alpha z d (S (S k)) + (1 - nu + alpha * (nu * z)) * leap_given nu alpha z d (S k))%Qc.
  Proof.
    intros d k. cbn [leap_given leap_pair]. destruct (leap_pair nu alpha z d k) as [a b]. cbn [snd fst].
    assert (H2 : (Q2Qc (1 # 2) * Q2Qc (2 # 1) = 1)%Qc) by (apply Qc_is_canon; reflexivity).
    assert (H3 : Q2Qc (2 # 1) = (1 + 1)%Qc) by (apply Qc_is_canon; reflexivity).
    set (h := Q2Qc (1 # 2)) in *. clearbody h. rewrite H3 in *. 
    assert (Hh : forall y, (h * y + h * y = y)%Qc) by (intros y; transitivity (h * (1 + 1) * y)%Qc; [ring|rewrite H2; ring]).
    set (w := (h * nu * (a - (1 + 1) * b + (a - (1 + 1) * z * b)))%Qc).
    assert (Ew : w = (nu * (a - (1 + z) * b))%Qc).
    { unfold w. transitivity (h * (1 + 1) * (nu * (a - (1 + z) * b)))%Qc; [ring|rewrite H2; ring]. }
    rewrite Ew.
    set (a' := (b + alpha * (nu * (a - (1 + z) * b)))%Qc). set (b' := (a - (1 + 1) * z * b + (alpha - 1) * (nu * (a - (1 + z) * b)))%Qc).
    assert (Ew' : (h * nu * (a' - (1 + 1) * b' + (a' - (1 + 1) * z * b')) = nu * (a' - (1 + z) * b'))%Qc).
    { transitivity (h * (1 + 1) * (nu * (a' - (1 + z) * b')))%Qc; [ring|rewrite H2; ring]. }
    rewrite Ew'. unfold a', b'. ring.
  Qed.

  Context (Hnu : (0 < nu)%Qc) (Hnu1 : (nu <= 1)%Qc) (Ha : (0 <= alpha)%Qc) (Ha1 : (alpha <= 1)%Qc) (Hz : (0 < z)%Qc).

  Lemma given_tends : (z * (Q2Qc (2 # 1) - nu + Q2Qc (2 # 1) * (alpha * nu)) < Q2Qc (2 # 1) * nu)%Qc ->
    forall d eps, (0 < eps)%Qc -> exists N, forall k, N <= k -> within eps (leap_given nu alpha z d k) 0%Qc.
  Proof.
    intros Hc d eps He.
    assert (nz : (0 < nu * z)%Qc) by (clear - Hnu Hz; qc_nra). assert (anz : (0 <= alpha * (nu * z))%Qc) by (apply mul_pos; [exact Ha|apply Qclt_le_weak; exact nz]).
    assert (nz1 : (nu * z <= z)%Qc). { rewrite <- (Qcmult_1_l z) at 2. apply Qcmult_le_compat_r; [exact Hnu1|apply Qclt_le_weak; exact Hz]. }
    replace (z * (Q2Qc (2 # 1) - nu + Q2Qc (2 # 1) * (alpha * nu)))%Qc with (Q2Qc (2 # 1) * z - nu * z + Q2Qc (2 # 1) * (alpha * (nu * z)))%Qc in Hc by ring.
    destruct (two_tends (nu + (1 - alpha) * (nu * z) - Q2Qc (2 # 1) * z)%Qc (1 - nu + alpha * (nu * z))%Qc (fun k => leap_given nu alpha z d (S k))) with (eps := eps) as (N & HN).
    - intros k. apply given_step.
    - revert anz. generalize (alpha * (nu * z))%Qc. intros. qc_lra.
    - replace ((1 - alpha) * (nu * z))%Qc with (nu * z - alpha * (nu * z))%Qc by ring. revert nz nz1. generalize (alpha * (nu * z))%Qc (nu * z)%Qc. intros. qc_lra.
    - replace ((1 - alpha) * (nu * z))%Qc with (nu * z - alpha * (nu * z))%Qc by ring. revert nz nz1 Hc. generalize (alpha * (nu * z))%Qc (nu * z)%Qc. intros. qc_lra.
    - exact He.
    - exists (S N). intros [|k] Hk; [lia|]. apply HN. lia.
  Qed.

  Lemma given_unit : (Q2Qc (2 # 1) * z <= nu)%Qc -> forall k, (0 <= leap_given nu alpha z 1 k <= 1)%Qc.
  Proof.
    intros Hc [|k]; [split; [discriminate|apply Qcle_refl]|].
    assert (nz : (0 < nu * z)%Qc) by (clear - Hnu Hz; qc_nra). assert (anz : (0 <= alpha * (nu * z))%Qc) by (apply mul_pos; [exact Ha|apply Qclt_le_weak; exact nz]).
    assert (anz1 : (alpha * (nu * z) <= nu * z)%Qc). { rewrite <- (Qcmult_1_l (nu * z)) at 2. apply Qcmult_le_compat_r; [exact Ha1|apply Qclt_le_weak; exact nz]. }
    assert (nz1 : (nu * z <= z)%Qc). { rewrite <- (Qcmult_1_l z) at 2. apply Qcmult_le_compat_r; [exact Hnu1|apply Qclt_le_weak; exact Hz]. }
    apply (two_unit (nu + (1 - alpha) * (nu * z) - Q2Qc (2 # 1) * z)%Qc (1 - nu + alpha * (nu * z))%Qc (fun k => leap_given nu alpha z 1 (S k))).
    - intros j. apply given_step.
    - revert anz. generalize (alpha * (nu * z))%Qc. intros. qc_lra.
    - replace ((1 - alpha) * (nu * z))%Qc with (nu * z - alpha * (nu * z))%Qc by ring. revert anz1 Hc. generalize (alpha * (nu * z))%Qc (nu * z)%Qc. intros. qc_lra.
    - replace ((1 - alpha) * (nu * z))%Qc with (nu * z - alpha * (nu * z))%Qc by ring. revert nz nz1. generalize (alpha * (nu * z))%Qc (nu * z)%Qc. intros. qc_lra.
    - cbn [leap_given leap_pair snd]. rewrite Qcmult_1_r. split; qc_lra.
    - assert (E : leap_given nu alpha z 1 2 = (1 - Q2Qc (2 # 1) * z + Q2Qc (2 # 1) * (z * z) - (nu * z - alpha * (nu * z)) * z)%Qc).
      { cbn [leap_given leap_pair snd]. qc_ring. }
      rewrite E.
      assert (zz : (0 <= z * z)%Qc) by (apply mul_pos; apply Qclt_le_weak; exact Hz).
      assert (zz1 : (z * z <= z)%Qc). { rewrite <- (Qcmult_1_l z) at 3. apply Qcmult_le_compat_r; [qc_lra|apply Qclt_le_weak; exact Hz]. }
      assert (b0 : (0 <= (nu * z - alpha * (nu * z)) * z)%Qc). { apply mul_pos; [|apply Qclt_le_weak; exact Hz]. revert anz1. generalize (alpha * (nu * z))%Qc (nu * z)%Qc. intros. qc_lra. }
      assert (b1 : ((nu * z - alpha * (nu * z)) * z <= z * z)%Qc). { apply Qcmult_le_compat_r; [|apply Qclt_le_weak; exact Hz]. revert anz nz1. generalize (alpha * (nu * z))%Qc (nu * z)%Qc. intros. qc_lra. }
      revert zz zz1 b0 b1. generalize ((nu * z - alpha * (nu * z)) * z)%Qc (z * z)%Qc. intros. split; qc_lra.
  Qed.

  Lemma given_between : (Q2Qc (2 # 1) * z <= nu)%Qc -> forall v ve k, between v (ve + leap_given nu alpha z (v - ve) k)%Qc ve.
  Proof.
    intros Hc v ve k. rewrite given_lin. destruct (given_unit Hc k) as (P & Q). revert P Q. generalize (leap_given nu alpha z 1 k). clear. intros g P Q.
    unfold between. destruct (Qclt_le_dec v ve) as [H|H]; [left|right]; split; qc_nra.
  Qed.

  Lemma short_enough : (Q2Qc (2 # 1) * z <= nu)%Qc -> (z * (Q2Qc (2 # 1) - nu + Q2Qc (2 # 1) * (alpha * nu)) < Q2Qc (2 # 1) * nu)%Qc.
  Proof.
    intros Hc. assert (nz : (0 < nu * z)%Qc) by (clear - Hnu Hz; qc_nra).
    assert (anz1 : (alpha * (nu * z) <= nu * z)%Qc). { rewrite <- (Qcmult_1_l (nu * z)) at 2. apply Qcmult_le_compat_r; [exact Ha1|apply Qclt_le_weak; exact nz]. }
    assert (nz1 : (nu * z <= z)%Qc). { rewrite <- (Qcmult_1_l z) at 2. apply Qcmult_le_compat_r; [exact Hnu1|apply Qclt_le_weak; exact Hz]. }
    replace (z * (Q2Qc (2 # 1) - nu + Q2Qc (2 # 1) * (alpha * nu)))%Qc with (Q2Qc (2 # 1) * z - nu * z + Q2Qc (2 # 1) * (alpha * (nu * z)))%Qc by ring.
    revert nz nz1 anz1. generalize (alpha * (nu * z))%Qc (nu * z)%Qc. intros. qc_lra.
  Qed.
End Filter.

Lemma leap_values_are : forall sec nu alpha o x y : Qc, leapfrog_values sec nu alpha o x y =
  (let n := o + Q2Qc (2 # 1) * y * sec in let w := Q2Qc (1 # 2) * nu * (o - Q2Qc (2 # 1) * x + n) in (x + alpha * w, n + (alpha - 1) * w))%Qc.
Proof.
  intros sec nu alpha o x y. unfold leapfrog_values. cbn [aeqb aadd amul asub aofQ ArithQc]. cbv zeta. f_equal.
  destruct (Qc_eq_bool alpha (Q2Qc (1 # 1))) eqn:E; [|reflexivity]. apply Qc_eq_bool_correct in E. rewrite E. qc_ring.
Qed.

Lemma quot_pos : forall h s : Qc, (0 < h)%Qc -> (0 < s)%Qc -> (0 < h / s)%Qc.
Proof.
  intros h s Hh Hs. assert (Hn : s <> 0%Qc) by (intros X; rewrite X in Hs; qc_lra).
  destruct (Qclt_le_dec 0 (h / s)) as [X|X]; [exact X|exfalso]. apply (Qcmult_le_compat_r _ _ s) in X; [|apply Qclt_le_weak; exact Hs].
  replace (h / s * s)%Qc with h in X by (field; exact Hn). rewrite Qcmult_0_l in X. qc_lra.
Qed.

Lemma quot_le : forall h m b s : Qc, (0 < s)%Qc -> (h * m <= b * s)%Qc -> (h / s * m <= b)%Qc.
Proof.
  intros h m b s Hs H. assert (Hn : s <> 0%Qc) by (intros X; rewrite X in Hs; qc_lra).
  destruct (Qclt_le_dec b (h / s * m)) as [X|X]; [exfalso|exact X]. apply (Qcmult_lt_compat_r _ _ s Hs) in X.
  replace (h / s * m * s)%Qc with (h * m)%Qc in X by (field; exact Hn). revert H X. generalize (b * s)%Qc (h * m)%Qc. intros. qc_lra.
Qed.

Lemma quot_lt : forall h m b s : Qc, (0 < s)%Qc -> (h * m < b * s)%Qc -> (h / s * m < b)%Qc.
Proof.
  intros h m b s Hs H. assert (Hn : s <> 0%Qc) by (intros X; rewrite X in Hs; qc_lra).
  destruct (Qclt_le_dec (h / s * m) b) as [X|X]; [exact X|exfalso]. apply (Qcmult_le_compat_r _ _ s) in X; [|apply Qclt_le_weak; exact Hs].
  replace (h / s * m * s)%Qc with (h * m)%Qc in X by (field; exact Hn). revert H X. generalize (b * s)%Qc (h * m)%Qc. intros. qc_lra.
Qed.

(** ** The runs *)
Section Runs.
  Context {R : Registry} (Hsane : sane_registry R) (Hps : per_second_law R).
  Context (over_s : string -> res string) (q u tu name : string) (tid : bool) (c : tcomp).
  Context (Hos : over_second_law R over_s) (Ho : over_s u = Ok tu) (Hn : new_relaxation over_s q u name tid = Ok c).
  Context (prog : icaller (T:=Qc) unit) (Hprog : prog = (fun w (st : state Qc) d => implicit_composite_call [inr (stateless (relaxation_call c q))] d w st)).

  Lemma relax_leap_filter : forall cfg dt nu alpha w log s p ve vs v,
    lhistory cfg prog dt (new_leap nu alpha, w) log s ->
    (forall e, In e log -> wf_state (l_st e) /\ NoDup (keys (l_st e))) ->
    (forall pre a b post, log = pre ++ a :: b :: post -> forall X, X <> "time" -> dget X (l_st b) = dget X (l_new a)) ->
    (forall e, In e log -> exists now, dget "time" (l_st e) = Some (VTime now)) ->
    (forall e post, log = e :: post -> relaxing q p ve vs v (l_st e)) -> vs <> 0%Qc ->
    forall k e, nth_error log k = Some e ->
      relaxing q p ve vs (ve + leap_given nu alpha (Q2Qc (dt # 1000000) / vs) (v - ve) k)%Qc (l_st e) /\
      relaxing q p ve vs (ve + fst (leap_pair nu alpha (Q2Qc (dt # 1000000) / vs) (v - ve) k))%Qc (l_after e) /\
      relaxing q p ve vs (ve + leap_given nu alpha (Q2Qc (dt # 1000000) / vs) (v - ve) (S k))%Qc (l_new e).
  Proof.
    subst prog. set (prog := fun w (st : state Qc) d => implicit_composite_call [inr (stateless (relaxation_call c q))] d w st).
    intros cfg dt nu alpha w log s p ve vs v H Hfit Hho Htime H0 Hvs.
    set (z := (Q2Qc (dt # 1000000) / vs)%Qc).
    assert (Hcalls : forall e, In e log -> exists w w' diag, prog w (l_st e) dt = (w', Ok (l_tend e, diag))).
    { clear - H. induction H as [|s0 log l u0 st u' tend pdiag l' st' diag new H IH Hp Hc]; intros e He; [destruct He|].
      apply in_app_or in He as [He|[<-|[]]]; [auto|]. exists u0, u', pdiag. exact Hp. }
    assert (Hw : wf_llog log).
    { intros e He. destruct (Hfit e He) as [W N]. split; [apply fit_proper; split; auto|].
      destruct (Hcalls e He) as (w1 & w2 & dg & Hc). eapply (fit_tend over_s q u tu name tid c Ho Hn); [split; [exact W|exact N]|exact Hc]. }
    destruct (leap_formula_lemma cfg prog dt nu alpha w _ s H Hw) as (F0 & FS).
    assert (M : forall k e, nth_error log k = Some e ->
      relaxing q p ve vs (ve + leap_given nu alpha z (v - ve) k)%Qc (l_st e) /\
      (relaxing q p ve vs (ve + fst (leap_pair nu alpha z (v - ve) k))%Qc (l_after e) /\
       exists x y, dget q (l_after e) = Some (VDA x) /\ dget q (l_new e) = Some (VDA y) /\ units_of y = units_of x) /\
      relaxing q p ve vs (ve + snd (leap_pair nu alpha z (v - ve) k))%Qc (l_new e)).
    { induction k as [|k IH]; intros e He.
      - destruct log as [|e' log']; [discriminate He|]. injection He as ->.
        destruct (F0 e log' eq_refl) as (Ea & Eu). pose proof (H0 e log' eq_refl) as Hr. rewrite Ea.
        destruct (Hcalls e (or_introl eq_refl)) as (w1 & w2 & dg & Hc). destruct (Hfit e (or_introl eq_refl)) as [W N].
        destruct (relax_euler over_s q u tu name tid c Ho Hn Hsane Hps Hos _ _ _ _ _ _ _ _ _ _ _ (conj W N) Hc Eu Hr Hvs) as (H1 & _).
        cbn [leap_given leap_pair fst snd]. replace (ve + (v - ve))%Qc with v by ring.
        split; [exact Hr|]. split.
        + split; [exact Hr|]. destruct Hr as (x & e1 & s1 & ux & G1 & _ & _ & P1 & _ & _ & Ux & V & _). exists x.
          destruct (relax_tend over_s q u tu name tid c Ho Hn _ _ _ _ _ _ (conj W N) Hc) as (_ & _ & _ & _ & r & _ & _ & _ & _ & Ht & _).
          assert (Hq : dget q (l_tend e) = Some r) by (rewrite Ht, String.eqb_refl; auto).
          destruct (proj2 Eu q r Hq) as (x2 & y & Ex2 & Ey & (_ & Ay & _) & _). rewrite G1 in Ex2. injection Ex2 as <-.
          exists y. split; [auto|]. split; [auto|]. unfold units_of. rewrite Ay. auto.
        + replace (ve + (1 - z) * (v - ve))%Qc with (v + Q2Qc (dt # 1000000) * ((ve - v) / vs))%Qc; [exact H1|]. unfold z. field; auto.
      - assert (Hk : exists b, nth_error log k = Some b).
        { destruct (nth_error log k) as [b|] eqn:E; [eauto|]. apply nth_error_None in E.
          assert (X : nth_error log (S k) <> None) by congruence. apply nth_error_Some in X. lia. }
        destruct Hk as (b & Hb). destruct (IH b Hb) as (Ist & (Iaf & xa & xn & Xa & Xn & Un) & Inew).
        assert (HA : in_grid xa p /\ da_at xa p = (ve + fst (leap_pair nu alpha z (v - ve) k))%Qc).
        { destruct Iaf as (x & _ & _ & _ & G1 & _ & _ & P1 & _ & _ & _ & V & _). rewrite Xa in G1. injection G1 as <-. auto. }
        destruct HA as (Pa & Va).
        assert (Hs : exists pre post, log = pre ++ b :: e :: post).
        { destruct (nth_error_split _ _ Hb) as (pre & post & E & Ln). exists pre.
          rewrite E in He. rewrite nth_error_app2 in He by lia. replace (S k - length pre) with 1 in He by lia.
          destruct post as [|e' post]; [discriminate He|]. injection He as ->. exists post. exact E. }
        destruct Hs as (pre & post & E).
        assert (Hbi : In b log) by (eapply nth_error_In; eauto). assert (Hei : In e log) by (eapply nth_error_In; eauto).
        destruct (Htime b Hbi) as (now & Hnow).
        pose proof (relaxing_next over_s q u name tid c Hn _ _ _ _ _ _ _ _ _ Ist Hnow (Hho pre b e post E) Inew) as Rst.
        split; [exact Rst|].
        destruct (Hcalls e Hei) as (w1 & w2 & dg & Hc). destruct (Hfit e Hei) as [W N].
        destruct (FS pre b e post E) as (L1 & L2 & L3).
        destruct (relax_tend over_s q u tu name tid c Ho Hn _ _ _ _ _ _ (conj W N) Hc) as (x0 & e0 & s0 & t & r & X1 & X2 & X3 & Hrel & Ht & Hs & _).
        pose proof Rst as (x & ee & ss & ux & G1 & G2 & G3 & P1 & P2 & P3 & Ux & V & Ve & Vs).
        rewrite G1 in X1. injection X1 as <-. rewrite G2 in X2. injection X2 as <-. rewrite G3 in X3. injection X3 as <-.
        assert (Hq : dget q (l_tend e) = Some r) by (rewrite Ht, String.eqb_refl; auto).
        destruct (L3 q r Hq) as (o & x1 & x' & n' & Eo & Ex & Ex' & En' & Y1 & Y2 & V1 & V2).
        rewrite Xa in Eo. injection Eo as <-. rewrite G1 in Ex. injection Ex as <-.
        destruct (V1 p P1) as (Po & Pr & y1 & Hy1 & W1).
        assert (Px' : in_grid x' p) by (eapply in_grid_extends; [exact Y1|exact P1|constructor]).
        assert (Pn' : in_grid n' p) by (eapply in_grid_extends; [exact Y2|exact Pa|constructor; [exact Pr|constructor]]).
        destruct (V2 p Pn') as (_ & _ & y2 & Hy2 & W2).
        rewrite leap_values_are in W1, W2. cbv zeta in W1, W2. cbn [fst snd] in W1, W2.
        rewrite (relax_rate over_s q u tu name tid c Ho Hn Hsane Hps Hos _ _ _ _ _ _ p ve vs _ r y1 (conj W N) Hc Rst Hvs Hq Hy1) in W1.
        rewrite (relax_rate over_s q u tu name tid c Ho Hn Hsane Hps Hos _ _ _ _ _ _ p ve vs _ r y2 (conj W N) Hc Rst Hvs Hq Hy2) in W2.
        destruct (relax_names q) as (N1 & N2 & _).
        assert (Hkn : forall X, X <> q -> dget X (l_new e) = dget X (l_st e)).
        { intros X HX. apply L2. intros Hin. apply In_keys_dget in Hin as (d & Hd). rewrite Ht in Hd. apply String.eqb_neq in HX. rewrite HX in Hd. discriminate Hd. }
        assert (Uo : units_of n' = Some ux).
        { destruct Y2 as (_ & An & _). unfold units_of in *. rewrite An, <- Un.
          rewrite (Hho pre b e post E q (nt_names over_s q u name tid c Hn _ _ _ _ _ _ Ist Hnow q (or_introl eq_refl))), Xn in G1. injection G1 as <-. exact Ux. }
        assert (Hka : forall X, X <> q -> dget X (l_after e) = dget X (l_st e)).
        { intros X HX. apply L1. intros Hin. apply In_keys_dget in Hin as (d & Hd). rewrite Ht in Hd. apply String.eqb_neq in HX. rewrite HX in Hd. discriminate Hd. }
        assert (Ua : units_of x' = Some ux) by (destruct Y1 as (_ & A1 & _); unfold units_of in *; rewrite A1; auto).
        cbn [leap_given] in V, W1, W2. rewrite V, Va in W1, W2. cbn [leap_pair]. destruct (leap_pair nu alpha z (v - ve) k) as [da db] eqn:El.
        cbn [fst snd] in *. cbn [aofQ ArithQc] in W1, W2.
        assert (En : (ve + da + Q2Qc (2 # 1) * ((ve - (ve + db)) / vs) * Q2Qc (dt # 1000000) = ve + (da - Q2Qc (2 # 1) * z * db))%Qc) by (unfold z; field; auto).
        rewrite En in W1, W2.
        split.
        { split; [|exists x', n'; split; [auto|]; split; [auto|congruence]].
          exists x', ee, ss, ux. split; [exact Ex'|]. split; [rewrite Hka; auto|]. split; [rewrite Hka; auto|]. split; [auto|]. split; [auto|]. split; [auto|].
          split; [exact Ua|]. split; [|auto]. rewrite W1. replace (Q2Qc (2 # 1)) with (1 + 1)%Qc by (apply Qc_is_canon; reflexivity). generalize (Q2Qc (1 # 2)). intros. ring. }
        exists n', ee, ss, ux. split; [exact En'|]. split; [rewrite Hkn; auto|]. split; [rewrite Hkn; auto|]. split; [auto|]. split; [auto|]. split; [auto|].
        split; [exact Uo|]. split; [|auto]. rewrite W2. replace (Q2Qc (2 # 1)) with (1 + 1)%Qc by (apply Qc_is_canon; reflexivity). generalize (Q2Qc (1 # 2)). intros. ring. }
    intros k e He. destruct (M k e He) as (A & (B & _) & C). auto.
  Qed.

  (** The run comes near to the equilibrium when the filter is strong enough for the timestep. *)
  Lemma relax_leap_limit : forall dt nu alpha p ve vs v eps, (0 < dt)%Z -> (0 < vs)%Qc -> (0 < nu)%Qc -> (nu <= 1)%Qc -> (0 <= alpha)%Qc -> (alpha <= 1)%Qc ->
    (Q2Qc (dt # 1000000) * (Q2Qc (2 # 1) - nu + Q2Qc (2 # 1) * (alpha * nu)) < Q2Qc (2 # 1) * nu * vs)%Qc -> (0 < eps)%Qc ->
    exists N, forall cfg w log s, lhistory cfg prog dt (new_leap nu alpha, w) log s ->
      (forall e, In e log -> wf_state (l_st e) /\ NoDup (keys (l_st e))) ->
      (forall pre a b post, log = pre ++ a :: b :: post -> forall X, X <> "time" -> dget X (l_st b) = dget X (l_new a)) ->
      (forall e, In e log -> exists now, dget "time" (l_st e) = Some (VTime now)) ->
      (forall e post, log = e :: post -> relaxing q p ve vs v (l_st e)) ->
      forall k e, nth_error log k = Some e -> N <= k ->
        exists x y, relaxing q p ve vs x (l_st e) /\ relaxing q p ve vs y (l_new e) /\ within eps x ve /\ within eps y ve.
  Proof.
    intros dt nu alpha p ve vs v eps Hdt Hvs N0 N1 A0 A1 Hc He. pose proof (secs_pos dt Hdt) as Hh.
    assert (Hn0 : vs <> 0%Qc) by (intros X; rewrite X in Hvs; qc_lra).
    pose proof (quot_pos _ _ Hh Hvs) as Z0. pose proof (quot_lt _ _ _ _ Hvs Hc) as Z1.
    destruct (given_tends nu alpha _ N0 N1 A0 Z0 Z1 (v - ve)%Qc eps He) as (N & HN). exists N.
    intros cfg w log s H1 H2 H3 H4 H5 k e Hk Hle.
    destruct (relax_leap_filter cfg dt nu alpha w log s p ve vs v H1 H2 H3 H4 H5 Hn0 k e Hk) as (X & _ & Y).
    do 2 eexists. split; [exact X|]. split; [exact Y|]. split; apply within_back; apply HN; lia.
  Qed.

  (** With a timestep of at most half the filter times the timescale it never goes past the equilibrium. *)
  Lemma relax_leap_near : forall dt nu alpha p ve vs v eps, (0 < dt)%Z -> (0 < nu)%Qc -> (nu <= 1)%Qc -> (0 <= alpha)%Qc -> (alpha <= 1)%Qc ->
    (Q2Qc (2 # 1) * Q2Qc (dt # 1000000) <= nu * vs)%Qc -> (0 < eps)%Qc ->
    exists N, forall cfg w log s, lhistory cfg prog dt (new_leap nu alpha, w) log s ->
      (forall e, In e log -> wf_state (l_st e) /\ NoDup (keys (l_st e))) ->
      (forall pre a b post, log = pre ++ a :: b :: post -> forall X, X <> "time" -> dget X (l_st b) = dget X (l_new a)) ->
      (forall e, In e log -> exists now, dget "time" (l_st e) = Some (VTime now)) ->
      (forall e post, log = e :: post -> relaxing q p ve vs v (l_st e)) ->
      forall k e, nth_error log k = Some e ->
        exists x y, relaxing q p ve vs x (l_st e) /\ relaxing q p ve vs y (l_new e) /\ between v x ve /\ between v y ve /\
          (N <= k -> within eps x ve /\ within eps y ve).
  Proof.
    intros dt nu alpha p ve vs v eps Hdt N0 N1 A0 A1 Hc He. pose proof (secs_pos dt Hdt) as Hh.
    assert (Hvs : (0 < vs)%Qc).
    { destruct (Qclt_le_dec 0 vs) as [X|X]; [exact X|exfalso]. apply (mul_le nu _ _ (Qclt_le_weak _ _ N0)) in X.
      replace (nu * 0)%Qc with 0%Qc in X by ring. revert Hc X Hh. generalize (nu * vs)%Qc (Q2Qc (dt # 1000000)). intros. qc_lra. }
    assert (Hn0 : vs <> 0%Qc) by (intros X; rewrite X in Hvs; qc_lra).
    pose proof (quot_pos _ _ Hh Hvs) as Z0. rewrite Qcmult_comm in Hc. pose proof (quot_le _ _ _ _ Hvs Hc) as Z1. rewrite Qcmult_comm in Z1.
    destruct (given_tends nu alpha _ N0 N1 A0 Z0 (short_enough nu alpha _ N0 N1 A1 Z0 Z1) (v - ve)%Qc eps He) as (N & HN). exists N.
    intros cfg w log s H1 H2 H3 H4 H5 k e Hk.
    destruct (relax_leap_filter cfg dt nu alpha w log s p ve vs v H1 H2 H3 H4 H5 Hn0 k e Hk) as (X & _ & Y).
    do 2 eexists. split; [exact X|]. split; [exact Y|]. split; [apply given_between; auto|]. split; [apply given_between; auto|].
    intros Hle. split; apply within_back; apply HN; lia.
  Qed.
End Runs.
