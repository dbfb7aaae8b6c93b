(** Leapfrog with a filter too weak for its timestep, relaxing to an equilibrium (C97). *)
From Coq Require Import String List Bool Arith ZArith QArith Qcanon Lia Lqa.
From Verif Require Import Prelude PreludeFacts ArithM NdArray NdFacts Units DataArrayM GetNp Components Composite Steppers Basic
  SpecUnits UnitsFacts SpecArrays SpecDa SpecComposite SpecSteppers SpecBasic SpecOrder SpecRound SpecRelax
  StepAlgebra ConvergeAlg RelaxFacts RelaxMain RelaxAlg RelaxRuns RelaxLeap.
Import ListNotations.
Open Scope string_scope.
Open Scope nat_scope.
Open Scope list_scope.

Lemma mul_lt0 : forall a b : Qc, (0 < a)%Qc -> (0 < b)%Qc -> (0 < a * b)%Qc.
Proof. intros a b Ha Hb. rewrite <- (Qcmult_0_l b). apply Qcmult_lt_compat_r; auto. Qed.

Section Grow.
  Context (s D : Qc) (x : nat -> Qc) (Hx : forall k, x (S (S k)) = (D * x k - s * x (S k))%Qc) (Hs : (0 < s)%Qc) (HD : (0 < D)%Qc).

  (** Two numbers in a row on different sides of 0, both at least [m] away from it. *)
  Definition apart (m : Qc) (k : nat) : Prop := (m <= x k /\ x (S k) <= - m)%Qc \/ (x k <= - m /\ m <= x (S k))%Qc.

  Section Big.
    Context (Hr : (1 < s + D)%Qc).

    Lemma grow_one : forall m k, (0 <= m)%Qc -> apart m k ->
      apart m (S k) /\ ((s + D) * m <= x (S (S k)) \/ x (S (S k)) <= - ((s + D) * m))%Qc /\ apart ((s + D) * m)%Qc (S (S k)).
    Proof.
      intros m k Hm H.
      assert (S0 : (0 <= s)%Qc) by (apply Qclt_le_weak; exact Hs). assert (D0 : (0 <= D)%Qc) by (apply Qclt_le_weak; exact HD).
      assert (E : ((s + D) * m = s * m + D * m)%Qc) by ring.
      assert (E2 : (m <= (s + D) * m)%Qc). { rewrite <- (Qcmult_1_l m) at 1. apply Qcmult_le_compat_r; [apply Qclt_le_weak; exact Hr|exact Hm]. }
      assert (M1 : (0 <= s * m)%Qc) by (apply mul_pos; auto). assert (M2 : (0 <= D * m)%Qc) by (apply mul_pos; auto).
      unfold apart. rewrite (Hx (S k)), (Hx k). destruct H as [[H1 H2]|[H1 H2]].
      - set (a := x k) in *. set (b := x (S k)) in *. clearbody a b.
        pose proof (mul_le D _ _ D0 H1) as A1. pose proof (mul_le s _ _ S0 H2) as A2. replace (s * - m)%Qc with (- (s * m))%Qc in A2 by ring.
        assert (G : ((s + D) * m <= D * a - s * b)%Qc) by (rewrite E; revert A1 A2; generalize (D * a)%Qc (s * b)%Qc (D * m)%Qc (s * m)%Qc; intros; qc_lra).
        set (c := (D * a - s * b)%Qc) in *. clearbody c. set (g := ((s + D) * m)%Qc) in *.
        pose proof (mul_le D _ _ D0 H2) as B1. replace (D * - m)%Qc with (- (D * m))%Qc in B1 by ring.
        assert (Gm : (m <= c)%Qc) by (eapply Qcle_trans; eauto). 
        pose proof (mul_le s _ _ S0 G) as B2.
        assert (B3 : (s * m <= s * g)%Qc) by (apply mul_le; auto).
        split; [right; split; [exact H2|exact Gm]|]. split; [left; exact G|]. left. split; [exact G|].
        rewrite E. revert B1 B2 B3. generalize (D * b)%Qc (s * c)%Qc (D * m)%Qc (s * m)%Qc (s * g)%Qc. intros. qc_lra.
      - set (a := x k) in *. set (b := x (S k)) in *. clearbody a b.
        pose proof (mul_le D _ _ D0 H1) as A1. pose proof (mul_le s _ _ S0 H2) as A2. replace (D * - m)%Qc with (- (D * m))%Qc in A1 by ring.
        assert (G : (D * a - s * b <= - ((s + D) * m))%Qc) by (rewrite E; revert A1 A2; generalize (D * a)%Qc (s * b)%Qc (D * m)%Qc (s * m)%Qc; intros; qc_lra).
        set (c := (D * a - s * b)%Qc) in *. clearbody c. set (g := ((s + D) * m)%Qc) in *.
        pose proof (mul_le D _ _ D0 H2) as B1.
        assert (Gm : (c <= - m)%Qc) by (revert G E2; clear; intros; qc_lra).
        pose proof (mul_le s _ _ S0 G) as B2. replace (s * - g)%Qc with (- (s * g))%Qc in B2 by ring.
        assert (B3 : (s * m <= s * g)%Qc) by (apply mul_le; auto).
        split; [left; split; [exact H2|exact Gm]|]. split; [right; exact G|]. right. split; [exact G|].
        rewrite E. revert B1 B2 B3. generalize (D * b)%Qc (s * c)%Qc (D * m)%Qc (s * m)%Qc (s * g)%Qc. intros. qc_lra.
    Qed.

    Lemma grow_far : forall m k, (0 < m)%Qc -> apart m k -> forall B, exists N, forall n, N <= n -> (B <= x n \/ x n <= - B)%Qc.
    Proof.
      intros m k Hm H B. set (w := (s + D - 1)%Qc). assert (Hw : (0 < w)%Qc) by (unfold w; qc_lra).
      assert (G : forall j n, k + 2 * j <= n -> apart (m + nq j * (w * m))%Qc n).
      { assert (Up : forall m n i, (0 <= m)%Qc -> apart m n -> n <= i -> apart m i).
        { intros m0 n i Hm0 Ha Hi. induction Hi as [|i Hi IH]; [exact Ha|]. apply (grow_one m0 i Hm0 IH). }
        assert (Dn : forall a b n, (a <= b)%Qc -> apart b n -> apart a n).
        { intros a b n Hab [[H1 H2]|[H1 H2]]; [left|right]; revert H1 H2; generalize (x n) (x (S n)); intros; split; qc_lra. }
        assert (W0 : (0 <= w * m)%Qc) by (apply mul_pos; apply Qclt_le_weak; auto).
        assert (C : forall j, (0 <= m + nq j * (w * m))%Qc).
        { intros j. pose proof (mul_pos _ _ (nq_nonneg j) W0) as X. revert X. generalize (nq j * (w * m))%Qc. intros. qc_lra. }
        induction j as [|j IH]; intros n Hn.
        - cbn [nq]. replace (m + 0 * (w * m))%Qc with m by ring. apply (Up m k n); [apply Qclt_le_weak; exact Hm|exact H|lia].
        - destruct n as [|[|n]]; [lia|lia|].
          pose proof (IH n ltac:(lia)) as Ha. apply (grow_one _ _ (C j)) in Ha as (_ & _ & Ha). eapply Dn; [|exact Ha].
          cbn [nq]. replace ((s + D) * (m + nq j * (w * m)))%Qc with (m + nq j * (w * m) + (w * m + nq j * (w * (w * m))))%Qc by (unfold w; ring).
          assert (X : (0 <= nq j * (w * (w * m)))%Qc) by (apply mul_pos; [apply nq_nonneg|apply mul_pos; [apply Qclt_le_weak; exact Hw|exact W0]]).
          replace (m + (nq j + 1) * (w * m))%Qc with (m + nq j * (w * m) + w * m)%Qc by ring.
          revert X. generalize (nq j * (w * (w * m)))%Qc (w * m)%Qc (nq j * (w * m))%Qc. intros. qc_lra. }
      destruct (archimedes_mul B (w * m)%Qc (mul_lt0 _ _ Hw Hm)) as (N & HN). exists (k + 2 * N). intros n Hn.
      pose proof (G N n Hn) as Ha. specialize (HN N (le_n N)). revert Ha HN. generalize (nq N * (w * m))%Qc. intros c Ha HN.
      destruct Ha as [[Ha _]|[Ha _]]; [left|right]; revert Ha; generalize (x n); intros; qc_lra.
    Qed.
  End Big.

  (** The sequence does come to both sides of 0. *)
  Context (p0 : Qc) (Hp : p0 = (x 1 * x 1 - x 0 * x 2)%Qc) (Hp0 : (0 < p0)%Qc).

  Lemma two_sides : (0 < x 0)%Qc -> exists k, (0 < x k /\ x (S k) <= 0)%Qc.
  Proof.
    intros X0.
    set (r := (D / (D + s * s))%Qc). assert (Ss : (0 < s * s)%Qc) by (apply mul_lt0; auto).
    assert (Q0 : (0 < D + s * s)%Qc) by (revert Ss; generalize (s * s)%Qc; intros; qc_lra).
    assert (Qn : (D + s * s)%Qc <> 0%Qc) by (intros E; rewrite E in Q0; qc_lra).
    assert (R0 : (0 <= r)%Qc) by (apply Qclt_le_weak, quot_pos; auto).
    assert (R1 : (r < 1)%Qc).
    { unfold r. replace (D / (D + s * s))%Qc with (D / (D + s * s) * 1)%Qc by ring. apply quot_lt; [exact Q0|]. revert Ss. generalize (s * s)%Qc. intros. qc_lra. }
    (* how small it has to get *)
    set (c := (p0 * (s * s) / (D * D))%Qc). assert (DD : (0 < D * D)%Qc) by (apply mul_lt0; auto).
    assert (DDn : (D * D)%Qc <> 0%Qc) by (intros E; rewrite E in DD; qc_lra).
    assert (C0 : (0 < c)%Qc) by (apply quot_pos; [apply mul_lt0; auto|exact DD]).
    assert (He : exists eps, (0 < eps /\ eps * eps < c)%Qc).
    { destruct (Qclt_le_dec c 1) as [Hc|Hc].
      - exists c. split; [exact C0|]. rewrite <- (Qcmult_1_l c) at 3. apply Qcmult_lt_compat_r; auto.
      - exists (Q2Qc (1 # 2)). split; [reflexivity|]. eapply Qclt_le_trans; [|exact Hc]. reflexivity. }
    destruct He as (eps & E0 & E1).
    destruct (power_tends r (x 0) eps R0 R1 (Qclt_le_weak _ _ X0) E0) as (N & HN). specialize (HN N (le_n N)).
    assert (Alt : forall K, (exists k, (0 < x k /\ x (S k) <= 0)%Qc) \/ (forall k, k <= K -> (0 < x k)%Qc)).
    { induction K as [|K [IH|IH]]; [right; intros k Hk; replace k with 0 by lia; exact X0|left; exact IH|].
      destruct (Qclt_le_dec 0 (x (S K))) as [H|H]; [right|left; exists K; auto]. intros k Hk. destruct (Nat.eq_dec k (S K)) as [->|Hne]; [exact H|apply IH; lia]. }
    destruct (Alt (2 * N + 3)) as [H|Hpos]; [exact H|exfalso].
    (* two steps take a part away *)
    assert (Dec : forall j, j <= N -> (x (2 * j) <= r ^ j * (D ^ j * x 0))%Qc).
    { induction j as [|j IH]; intros Hj; [cbn [Nat.mul Nat.add Qcpower]; rewrite !Qcmult_1_l; apply Qcle_refl|].
      specialize (IH ltac:(lia)). cbn [Qcpower].
      assert (P3 := Hpos (S (S (S (2 * j)))) ltac:(lia)). rewrite Hx in P3. pose proof (Hx (2 * j)) as E2.
      replace (2 * S j) with (S (S (2 * j))) by lia.
      assert (F : (x (S (S (2 * j))) * (D + s * s) <= D * D * x (2 * j))%Qc).
      { rewrite E2 in *. revert P3. generalize (x (2 * j)) (x (S (2 * j))). intros a b P3.
        assert (P4 : (0 < s * (D * b - s * (D * a - s * b)))%Qc) by (apply mul_lt0; auto).
        replace ((D * a - s * b) * (D + s * s))%Qc with (D * D * a - s * (D * b - s * (D * a - s * b)))%Qc by ring.
        revert P4. generalize (s * (D * b - s * (D * a - s * b)))%Qc (D * D * a)%Qc. intros. qc_lra. }
      assert (F2 : (x (S (S (2 * j))) <= r * D * x (2 * j))%Qc).
      { destruct (Qclt_le_dec (r * D * x (2 * j)) (x (S (S (2 * j))))) as [X|X]; [exfalso|exact X].
        apply (Qcmult_lt_compat_r _ _ _ Q0) in X. replace (r * D * x (2 * j) * (D + s * s))%Qc with (D * D * x (2 * j))%Qc in X by (unfold r; field; exact Qn).
        revert X F. generalize (D * D * x (2 * j))%Qc (x (S (S (2 * j))) * (D + s * s))%Qc. intros. qc_lra. }
      eapply Qcle_trans; [exact F2|]. replace (r * r ^ j * (D * D ^ j * x 0))%Qc with (r * D * (r ^ j * (D ^ j * x 0)))%Qc by ring.
      apply mul_le; [|exact IH]. apply mul_pos; [exact R0|apply Qclt_le_weak; exact HD]. }
    (* what is kept *)
    assert (Keep : forall j, (x (S (2 * j)) * x (S (2 * j)) - x (2 * j) * x (S (S (2 * j))) = D ^ j * D ^ j * p0)%Qc).
    { induction j as [|j IH]; [cbn [Nat.mul Nat.add Qcpower]; rewrite Hp; ring|].
      replace (2 * S j) with (S (S (2 * j))) by lia. cbn [Qcpower].
      replace (D * D ^ j * (D * D ^ j) * p0)%Qc with (D * D * (D ^ j * D ^ j * p0))%Qc by ring. rewrite <- IH.
      rewrite (Hx (S (S (2 * j)))), (Hx (S (2 * j))), (Hx (2 * j)). generalize (x (2 * j)) (x (S (2 * j))). intros. ring. }
    specialize (Dec N (le_n N)). specialize (Keep N).
    assert (Pa := Hpos (2 * N) ltac:(lia)). assert (Pb := Hpos (S (2 * N)) ltac:(lia)). assert (Pc := Hpos (S (S (2 * N))) ltac:(lia)). pose proof (Hx (2 * N)) as E2.
    set (g := (D ^ N)%Qc) in *.
    assert (Gp : (0 < g)%Qc).
    { unfold g. clear - HD. induction N as [|N IH]; cbn [Qcpower]; [reflexivity|]. apply mul_lt0; auto. }
    set (e := (r ^ N * x 0)%Qc) in *. replace (r ^ N * (g * x 0))%Qc with (e * g)%Qc in Dec by (unfold e; ring).
    assert (Pe : (0 <= e)%Qc) by (unfold e; apply mul_pos; [apply power_nonneg; exact R0|apply Qclt_le_weak; exact X0]).
    clearbody g e. revert Pa Pb Pc E2 Keep Dec. generalize (x (2 * N)) (x (S (2 * N))) (x (S (S (2 * N)))). intros a b d Pa Pb Pc E2 Keep Dec.
    assert (Sb : (s * b <= D * a)%Qc) by (revert Pc E2; generalize (D * a)%Qc (s * b)%Qc; intros; subst; qc_lra).
    assert (Sb2 : (s * b * (s * b) <= D * a * (D * a))%Qc).
    { assert (0 <= s * b)%Qc by (apply mul_pos; apply Qclt_le_weak; auto). assert (0 <= D * a)%Qc by (apply mul_pos; apply Qclt_le_weak; auto).
      eapply Qcle_trans; [apply mul_le; [exact H|exact Sb]|]. apply Qcmult_le_compat_r; auto. }
    assert (A2 : (a * a <= e * g * (e * g))%Qc).
    { assert (0 <= e * g)%Qc by (apply mul_pos; [exact Pe|apply Qclt_le_weak; exact Gp]). apply Qclt_le_weak in Pa.
      eapply Qcle_trans; [apply mul_le; [exact Pa|exact Dec]|]. apply Qcmult_le_compat_r; auto. }
    assert (B2 : (g * g * p0 <= b * b)%Qc).
    { rewrite <- Keep. assert (0 < a * d)%Qc by (apply mul_lt0; auto). revert H. generalize (a * d)%Qc (b * b)%Qc. intros. qc_lra. }
    assert (Ee : (e * e <= eps * eps)%Qc).
    { eapply Qcle_trans; [apply mul_le; [exact Pe|exact HN]|]. apply Qcmult_le_compat_r; [exact HN|apply Qclt_le_weak; exact E0]. }
    assert (Fc : (c * (D * D) = p0 * (s * s))%Qc) by (unfold c; field; intros Z; rewrite Z in HD; qc_lra).
    assert (GG : (0 < g * g)%Qc) by (apply mul_lt0; auto).
    (* g g p0 s s <= s s b b <= D D a a <= D D e e g g < D D c g g *)
    assert (I1 : (s * s * (g * g * p0) <= s * s * (b * b))%Qc) by (apply mul_le; [apply Qclt_le_weak; exact Ss|exact B2]).
    assert (I2 : (D * D * (a * a) <= D * D * (e * g * (e * g)))%Qc) by (apply mul_le; [apply Qclt_le_weak; exact DD|exact A2]).
    assert (I3 : (e * e * (D * D * (g * g)) < c * (D * D * (g * g)))%Qc).
    { apply Qcmult_lt_compat_r; [apply mul_lt0; auto|]. eapply Qcle_lt_trans; eauto. }
    replace (c * (D * D * (g * g)))%Qc with (c * (D * D) * (g * g))%Qc in I3 by ring. rewrite Fc in I3.
    replace (D * D * (e * g * (e * g)))%Qc with (e * e * (D * D * (g * g)))%Qc in I2 by ring.
    replace (s * s * (g * g * p0))%Qc with (p0 * (s * s) * (g * g))%Qc in I1 by ring.
    replace (s * b * (s * b))%Qc with (s * s * (b * b))%Qc in Sb2 by ring. replace (D * a * (D * a))%Qc with (D * D * (a * a))%Qc in Sb2 by ring.
    revert I1 I2 I3 Sb2. generalize (p0 * (s * s) * (g * g))%Qc (s * s * (b * b))%Qc (D * D * (a * a))%Qc (e * e * (D * D * (g * g)))%Qc. intros. qc_lra.
  Qed.

  Lemma turns_apart : (0 < x 0)%Qc \/ (x 0 <= 0 /\ 0 < x 1)%Qc -> exists m k, (0 < m)%Qc /\ apart m k.
  Proof.
    intros H.
    assert (K : exists k, (0 < x k /\ x (S k) <= 0)%Qc \/ (x k <= 0 /\ 0 < x (S k))%Qc).
    { destruct H as [H|H]; [destruct (two_sides H) as (k & Hk); exists k; auto|exists 0; auto]. }
    assert (Mi : forall a b : Qc, (0 < a)%Qc -> (0 < b)%Qc -> exists m, (0 < m /\ m <= a /\ m <= b)%Qc).
    { intros a b Ha Hb. destruct (Qclt_le_dec a b) as [L|L]; [exists a|exists b]; repeat split; auto; try qc_lra; apply Qcle_refl. }
    destruct K as (k & [[H1 H2]|[H1 H2]]).
    - (* x k > 0 >= x (k+1): then x (k+2) > 0 and x (k+3) < 0 *)
      pose proof (Hx k) as E2. pose proof (Hx (S k)) as E3.
      assert (P2 : (0 < x (S (S k)))%Qc).
      { rewrite E2. pose proof (mul_lt0 _ _ HD H1) as Y. pose proof (mul_le s _ _ (Qclt_le_weak _ _ Hs) H2) as Z. replace (s * 0)%Qc with 0%Qc in Z by ring.
        revert Y Z. generalize (D * x k)%Qc (s * x (S k))%Qc. intros. qc_lra. }
      assert (P3 : (0 < - x (S (S (S k))))%Qc).
      { rewrite E3. pose proof (mul_lt0 _ _ Hs P2) as Y. pose proof (mul_le D _ _ (Qclt_le_weak _ _ HD) H2) as Z. replace (D * 0)%Qc with 0%Qc in Z by ring.
        revert Y Z. generalize (D * x (S k))%Qc (s * x (S (S k)))%Qc. intros. qc_lra. }
      destruct (Mi _ _ P2 P3) as (m & M0 & M1 & M2). exists m, (S (S k)). split; [exact M0|]. left. split; [exact M1|]. revert M2. generalize (x (S (S (S k)))). intros. qc_lra.
    - pose proof (Hx k) as E2.
      assert (P2 : (0 < - x (S (S k)))%Qc).
      { rewrite E2. pose proof (mul_lt0 _ _ Hs H2) as Y. pose proof (mul_le D _ _ (Qclt_le_weak _ _ HD) H1) as Z. replace (D * 0)%Qc with 0%Qc in Z by ring.
        revert Y Z. generalize (D * x k)%Qc (s * x (S k))%Qc. intros. qc_lra. }
      destruct (Mi _ _ H2 P2) as (m & M0 & M1 & M2). exists m, (S k). split; [exact M0|]. left. split; [exact M1|]. revert M2. generalize (x (S (S k))). intros. qc_lra.
  Qed.
End Grow.

(** ** Filtered runs *)
Lemma given_away : forall nu alpha z d B, (0 <= nu)%Qc -> (nu < 1)%Qc -> (0 <= alpha)%Qc -> (alpha <= 1)%Qc -> (0 < z)%Qc -> d <> 0%Qc ->
  (Q2Qc (2 # 1) * nu < z * (Q2Qc (2 # 1) - nu + Q2Qc (2 # 1) * (alpha * nu)))%Qc ->
  exists N, forall k, N <= k -> (B <= leap_given nu alpha z d k \/ leap_given nu alpha z d k <= - B)%Qc.
Proof.
  intros nu alpha z d B N0 N1 A0 A1 Z0 Hd Hc.
  set (D := (1 - nu + alpha * (nu * z))%Qc). set (s := (Q2Qc (2 # 1) * z - nu - (1 - alpha) * (nu * z))%Qc).
  set (x := fun k => leap_given nu alpha z 1 (S k)).
  assert (nz : (0 <= nu * z)%Qc) by (apply mul_pos; [exact N0|apply Qclt_le_weak; exact Z0]).
  assert (nz1 : (nu * z <= z)%Qc). { rewrite <- (Qcmult_1_l z) at 2. apply Qcmult_le_compat_r; [apply Qclt_le_weak; exact N1|apply Qclt_le_weak; exact Z0]. }
  assert (anz : (0 <= alpha * (nu * z))%Qc) by (apply mul_pos; auto).
  assert (anz1 : (alpha * (nu * z) <= nu * z)%Qc). { rewrite <- (Qcmult_1_l (nu * z)) at 2. apply Qcmult_le_compat_r; auto. }
  replace (z * (Q2Qc (2 # 1) - nu + Q2Qc (2 # 1) * (alpha * nu)))%Qc with (Q2Qc (2 # 1) * z - nu * z + Q2Qc (2 # 1) * (alpha * (nu * z)))%Qc in Hc by ring.
  assert (HD : (0 < D)%Qc) by (unfold D; revert anz; generalize (alpha * (nu * z))%Qc; intros; qc_lra).
  assert (Hsd : (1 < s + D)%Qc).
  { unfold s, D. replace ((1 - alpha) * (nu * z))%Qc with (nu * z - alpha * (nu * z))%Qc by ring. revert Hc. generalize (alpha * (nu * z))%Qc (nu * z)%Qc. intros. qc_lra. }
  assert (Hs : (0 < s)%Qc).
  { destruct (Qclt_le_dec 1 z) as [Hz|Hz].
    - unfold s. replace ((1 - alpha) * (nu * z))%Qc with (nu * z - alpha * (nu * z))%Qc by ring. revert nz1 anz. generalize (alpha * (nu * z))%Qc (nu * z)%Qc. intros. qc_lra.
    - assert (X : (alpha * (nu * z) <= nu)%Qc).
      { eapply Qcle_trans; [exact anz1|]. rewrite <- (Qcmult_1_r nu) at 2. apply mul_le; auto. }
      revert Hsd. unfold D. revert X. generalize s (alpha * (nu * z))%Qc. intros. qc_lra. }
  assert (Hx : forall k, x (S (S k)) = (D * x k - s * x (S k))%Qc).
  { intros k. unfold x. rewrite given_step. unfold D, s. ring. }
  assert (E1 : x 0 = (1 - z)%Qc) by (unfold x; cbn [leap_given leap_pair snd]; ring).
  assert (E2 : x 1 = ((1 - z) * (1 - z) + (1 - (1 - alpha) * nu) * (z * z))%Qc).
  { unfold x. cbn [leap_given leap_pair snd]. qc_ring. }
  set (b := (1 - (1 - alpha) * nu)%Qc) in *.
  assert (Hb : (0 < b)%Qc).
  { assert (X : ((1 - alpha) * nu <= 1 * nu)%Qc) by (apply Qcmult_le_compat_r; [qc_lra|exact N0]). unfold b. revert X. generalize ((1 - alpha) * nu)%Qc. intros. rewrite Qcmult_1_l in X. qc_lra. }
  assert (Zz : (0 < z * z)%Qc) by (apply mul_lt0; auto).
  set (p0 := (b * (z * z) * D)%Qc). assert (Hp0 : (0 < p0)%Qc) by (unfold p0; apply mul_lt0; [apply mul_lt0; auto|exact HD]).
  assert (Hp : p0 = (x 1%nat * x 1%nat - x 0%nat * x 2%nat)%Qc).
  { rewrite (Hx 0), E1, E2. unfold p0, D, s, b. replace (Q2Qc (2 # 1)) with (1 + 1)%Qc by (apply Qc_is_canon; reflexivity). ring. }
  assert (Start : (0 < x 0%nat)%Qc \/ (x 0%nat <= 0 /\ 0 < x 1%nat)%Qc).
  { destruct (Qclt_le_dec 0 (x 0)) as [X|X]; [left; exact X|right]. split; [exact X|]. rewrite E2.
    pose proof (mul_lt0 _ _ Hb Zz) as Y. assert (W : (0 <= (1 - z) * (1 - z))%Qc) by (generalize (1 - z)%Qc; clear; intros w; destruct (Qclt_le_dec w 0) as [L|L]; [replace (w * w)%Qc with (- w * - w)%Qc by ring; apply mul_pos; qc_lra|apply mul_pos; exact L]).
    revert Y W. generalize (b * (z * z))%Qc ((1 - z) * (1 - z))%Qc. intros. qc_lra. }
  destruct (turns_apart s D x Hx Hs HD p0 Hp Hp0 Start) as (m & k0 & M0 & Ha).
  (* scale by the size of d *)
  destruct (size_of d) as (t & (T0 & T1 & T2) & Et).
  assert (Tn : (0 < t)%Qc).
  { destruct (Qclt_le_dec 0 t) as [X|X]; [exact X|exfalso]. apply Hd. destruct Et as [-> | ->].
    - apply Qcle_antisym; auto.
    - apply Qcle_antisym; [|qc_lra]. qc_lra. }
  destruct (grow_far s D x Hx Hs HD Hsd m k0 M0 Ha (B / t)%Qc) as (N & HN). exists (S N).
  intros [|k] Hk; [lia|]. specialize (HN k ltac:(lia)). rewrite given_lin. change (leap_given nu alpha z 1 (S k)) with (x k).
  revert HN. generalize (x k). intros y Hy.
  assert (Tn0 : t <> 0%Qc) by (intros E; rewrite E in Tn; qc_lra).
  assert (Bt : (B / t * t = B)%Qc) by (field; exact Tn0).
  assert (Hy' : (B <= y * t \/ y * t <= - B)%Qc).
  { destruct Hy as [Hy|Hy]; [left|right]; apply (Qcmult_le_compat_r _ _ t) in Hy; auto.
    - rewrite Bt in Hy. exact Hy.
    - replace (- (B / t) * t)%Qc with (- (B / t * t))%Qc in Hy by ring. rewrite Bt in Hy. exact Hy. }
  destruct Et as [Et|Et].
  - rewrite Et in Hy'. rewrite (Qcmult_comm d y). exact Hy'.
  - replace (d * y)%Qc with (- (y * t))%Qc by (rewrite Et; ring). revert Hy'. generalize (y * t)%Qc. intros c [H|H]; [right|left]; qc_lra.
Qed.

Section Runs.
  Context {R : Registry} (Hsane : sane_registry R) (Hps : per_second_law R).
  Context (over_s : string -> res string) (q u tu name : string) (tid : bool) (c : tcomp).
  Context (Hos : over_second_law R over_s) (Ho : over_s u = Ok tu) (Hn : new_relaxation over_s q u name tid = Ok c).
  Context (prog : icaller (T:=Qc) unit) (Hprog : prog = (fun w (st : state Qc) d => implicit_composite_call [inr (stateless (relaxation_call c q))] d w st)).

  Lemma relax_leap_filter_away : forall dt nu alpha p ve vs v B, (0 < dt)%Z -> (0 < vs)%Qc -> v <> ve ->
    (0 <= nu)%Qc -> (nu < 1)%Qc -> (0 <= alpha)%Qc -> (alpha <= 1)%Qc ->
    (Q2Qc (2 # 1) * nu * vs < Q2Qc (dt # 1000000) * (Q2Qc (2 # 1) - nu + Q2Qc (2 # 1) * (alpha * nu)))%Qc ->
    exists N, forall cfg w log s, lhistory cfg prog dt (new_leap nu alpha, w) log s ->
      (forall e, In e log -> wf_state (l_st e) /\ NoDup (keys (l_st e))) ->
      (forall pre a b post, log = pre ++ a :: b :: post -> forall X, X <> "time" -> dget X (l_st b) = dget X (l_new a)) ->
      (forall e, In e log -> exists now, dget "time" (l_st e) = Some (VTime now)) ->
      (forall e post, log = e :: post -> relaxing q p ve vs v (l_st e)) ->
      forall k e, nth_error log k = Some e -> N <= k ->
        exists v', relaxing q p ve vs v' (l_st e) /\ ((B <= v' - ve)%Qc \/ (v' - ve <= - B)%Qc).
  Proof.
    intros dt nu alpha p ve vs v B Hdt Hvs Hv N0 N1 A0 A1 Hc. assert (Hn0 : vs <> 0%Qc) by (intros X; rewrite X in Hvs; qc_lra).
    pose proof (quot_pos _ _ (secs_pos dt Hdt) Hvs) as Z0.
    destruct (given_away nu alpha _ (v - ve)%Qc B N0 N1 A0 A1 Z0) as (N & HN).
    { intros X. apply Hv. transitivity (v - ve + ve)%Qc; [ring|rewrite X; ring]. }
    { destruct (Qclt_le_dec (Q2Qc (2 # 1) * nu) (Q2Qc (dt # 1000000) / vs * (Q2Qc (2 # 1) - nu + Q2Qc (2 # 1) * (alpha * nu)))%Qc) as [X|X]; [exact X|exfalso].
      apply (Qcmult_le_compat_r _ _ vs) in X; [|apply Qclt_le_weak; exact Hvs]. set (h := Q2Qc (dt # 1000000)) in *. set (g := (Q2Qc (2 # 1) - nu + Q2Qc (2 # 1) * (alpha * nu))%Qc) in *.
      replace (h / vs * g * vs)%Qc with (h * g)%Qc in X by (field; exact Hn0). revert X Hc. generalize (h * g)%Qc (Q2Qc (2 # 1) * nu * vs)%Qc. intros. qc_lra. }
    exists N. intros cfg w log s H1 H2 H3 H4 H5 k e Hk Hle.
    destruct (relax_leap_filter Hsane Hps over_s q u tu name tid c Hos Ho Hn prog Hprog cfg dt nu alpha w log s p ve vs v H1 H2 H3 H4 H5 Hn0 k e Hk) as (H & _).
    eexists. split; [exact H|]. specialize (HN k Hle). set (y := leap_given _ _ _ _ _) in *. replace (ve + y - ve)%Qc with y by ring. exact HN.
  Qed.
End Runs.
