(** The numbers of C97: the factors of the one-step schemes, and what Leapfrog does. *)
From Coq Require Import String List Bool Arith ZArith QArith Qround Qcanon Lia Lqa.
From Verif Require Import SpecBasic SpecRelax SpecRound StepAlgebra ConvergeAlg.
Open Scope nat_scope.

Lemma qc_half : forall z : Qc, (Q2Qc (2 # 1) * (Q2Qc (1 # 2) * z) = z)%Qc.
Proof. qc_ring. Qed.

(** ** One-step schemes *)

Lemma decay_bounds : forall n z, 1 <= n <= 3 -> (0 <= z)%Qc -> (z <= 1)%Qc ->
  (0 <= decay n z)%Qc /\ (decay n z <= 1 - Q2Qc (1 # 2) * z)%Qc.
Proof.
  intros n z Hn H0 H1.
  assert (Z2 : (0 <= z * z)%Qc) by qc_nra. assert (Z3 : (z * z <= z)%Qc) by qc_nra.
  assert (Z4 : (0 <= z * z * z)%Qc) by qc_nra. assert (Z5 : (z * z * z <= z * z)%Qc) by qc_nra.
  assert (Hn' : n = 1 \/ n = 2 \/ n = 3) by lia.
  destruct Hn' as [-> | [-> | ->]]; unfold decay; revert Z2 Z3 Z4 Z5; generalize (z * z * z)%Qc (z * z)%Qc; intros; split; qc_lra.
Qed.

Fixpoint nq (n : nat) : Qc := match n with 0 => 0%Qc | S n => (nq n + 1)%Qc end.

Lemma nq_nonneg : forall n, (0 <= nq n)%Qc.
Proof. induction n as [|n IH]; cbn [nq]; [qc_lra|]. revert IH. generalize (nq n). intros. qc_lra. Qed.

Lemma nq_le : forall m n, m <= n -> (nq m <= nq n)%Qc.
Proof. intros m n H. induction H as [|n H IH]; [qc_lra|]. cbn [nq]. revert IH. generalize (nq n) (nq m). intros. qc_lra. Qed.

Lemma nq_Q : forall n, (this (nq n) == inject_Z (Z.of_nat n))%Q.
Proof.
  induction n as [|n IH]; [reflexivity|]. cbn [nq]. rewrite this_plus, IH. rewrite Nat2Z.inj_succ. unfold Z.succ. rewrite inject_Z_plus. reflexivity.
Qed.

Lemma archimedes : forall x : Qc, exists n, (x <= nq n)%Qc.
Proof.
  intros x. exists (Z.to_nat (Qceiling (this x))). unfold Qcle. rewrite nq_Q.
  eapply Qle_trans; [apply Qle_ceiling|]. rewrite <- Zle_Qle. lia.
Qed.

Lemma archimedes_mul : forall x w : Qc, (0 < w)%Qc -> exists n, forall m, n <= m -> (x <= nq m * w)%Qc.
Proof.
  intros x w Hw. destruct (archimedes (x / w)%Qc) as (n & Hn). exists n. intros m Hm.
  assert (H := nq_le n m Hm). assert (H1 : (x / w <= nq m)%Qc) by (eapply Qcle_trans; eauto).
  apply (Qcmult_le_compat_r _ _ w) in H1; [|apply Qclt_le_weak; auto].
  replace (x / w * w)%Qc with x in H1; [exact H1|]. field. intros ->. qc_lra.
Qed.

Lemma power_nonneg : forall (f : Qc) n, (0 <= f)%Qc -> (0 <= f ^ n)%Qc.
Proof. intros f n H. induction n as [|n IH]; cbn [Qcpower]; [qc_lra|]. revert IH. generalize (f ^ n)%Qc. intros. qc_nra. Qed.

Lemma power_le_one : forall (f : Qc) n, (0 <= f)%Qc -> (f <= 1)%Qc -> (f ^ n <= 1)%Qc.
Proof.
  intros f n H H1. induction n as [|n IH]; cbn [Qcpower]; [qc_lra|]. assert (P := power_nonneg f n H).
  revert IH P. generalize (f ^ n)%Qc. intros. qc_nra.
Qed.

Lemma power_small : forall (f w : Qc) n, (0 <= f)%Qc -> (0 <= w)%Qc -> (f <= 1 - w)%Qc -> (f ^ n * (1 + nq n * w) <= 1)%Qc.
Proof.
  intros f w n H Hw Hf. induction n as [|n IH]; cbn [Qcpower nq].
  - replace (1 * (1 + 0 * w))%Qc with 1%Qc by ring. apply Qcle_refl.
  - assert (P := power_nonneg f n H). assert (N := nq_nonneg n). eapply Qcle_trans; [|exact IH].
    revert P N. clear IH. generalize (f ^ n)%Qc (nq n). intros g m P N.
    assert (E : (f * (1 + (m + 1) * w) <= 1 + m * w)%Qc).
    { assert (A1 : (f * (1 + (m + 1) * w) <= (1 - w) * (1 + (m + 1) * w))%Qc).
      { assert (A2 : (0 <= m * w)%Qc) by qc_nra. apply Qcmult_le_compat_r; auto.
        replace (1 + (m + 1) * w)%Qc with (1 + (m * w + w))%Qc by ring. revert A2. generalize (m * w)%Qc. intros. qc_lra. }
      eapply Qcle_trans; [exact A1|]. assert (A3 : (0 <= w * w)%Qc) by qc_nra. assert (A4 : (0 <= m * (w * w))%Qc) by qc_nra.
      replace ((1 - w) * (1 + (m + 1) * w))%Qc with (1 + m * w - w * w - m * (w * w))%Qc by ring.
      revert A3 A4. generalize (m * (w * w))%Qc (w * w)%Qc (m * w)%Qc. intros. qc_lra. }
    replace (f * g * (1 + (m + 1) * w))%Qc with (f * (1 + (m + 1) * w) * g)%Qc by ring.
    replace (g * (1 + m * w))%Qc with ((1 + m * w) * g)%Qc by ring. apply Qcmult_le_compat_r; auto.
Qed.

Lemma decay_tends : forall n z d eps, 1 <= n <= 3 -> (0 < z)%Qc -> (z <= 1)%Qc -> (0 < eps)%Qc ->
  exists N, forall k, N <= k -> within eps (decay n z ^ k * d)%Qc 0%Qc.
Proof.
  intros n z d eps Hn H0 H1 He.
  destruct (decay_bounds n z Hn (Qclt_le_weak _ _ H0) H1) as (B1 & B2). set (f := decay n z) in *. clearbody f.
  set (w := (Q2Qc (1 # 2) * z)%Qc) in *. assert (Hw : (0 < w)%Qc) by (unfold w; qc_lra). clearbody w.
  assert (G : forall D, (0 <= D)%Qc -> exists N, forall k, N <= k -> (f ^ k * D <= eps)%Qc).
  { intros D HD. destruct (archimedes_mul D (eps * w)%Qc ltac:(qc_nra)) as (N & HN). exists N. intros k Hk. specialize (HN k Hk).
    assert (P := power_small f w k B1 (Qclt_le_weak _ _ Hw) B2). assert (Q := power_nonneg f k B1). assert (M := nq_nonneg k).
    eapply Qcle_trans; [apply (Qcle_trans _ (f ^ k * (nq k * (eps * w)))%Qc)|].
    - rewrite (Qcmult_comm _ D), (Qcmult_comm _ (nq k * (eps * w))%Qc). apply Qcmult_le_compat_r; auto.
    - apply Qcle_refl.
    - replace (f ^ k * (nq k * (eps * w)))%Qc with ((f ^ k * (1 + nq k * w) - f ^ k) * eps)%Qc by ring.
      rewrite <- (Qcmult_1_l eps) at 2. apply Qcmult_le_compat_r; [|apply Qclt_le_weak; auto].
      revert P Q. generalize (f ^ k * (1 + nq k * w))%Qc (f ^ k)%Qc. intros. qc_lra. }
  destruct (Qclt_le_dec d 0) as [Hd|Hd].
  - destruct (G (- d)%Qc ltac:(qc_lra)) as (N & HN). exists N. intros k Hk. specialize (HN k Hk). assert (Q := power_nonneg f k B1).
    replace (f ^ k * - d)%Qc with (- (f ^ k * d))%Qc in HN by ring.
    assert (X : (f ^ k * d <= 0)%Qc) by (revert Q; generalize (f ^ k)%Qc; intros; qc_nra).
    revert HN X. generalize (f ^ k * d)%Qc. intros. split; qc_lra.
  - destruct (G d Hd) as (N & HN). exists N. intros k Hk. specialize (HN k Hk). assert (Q := power_nonneg f k B1).
    assert (X : (0 <= f ^ k * d)%Qc) by (revert Q; generalize (f ^ k)%Qc; intros; qc_nra).
    revert HN X. generalize (f ^ k * d)%Qc. intros. split; qc_lra.
Qed.

Lemma decay_between : forall n z k v ve, 1 <= n <= 3 -> (0 <= z)%Qc -> (z <= 1)%Qc -> between v (ve + decay n z ^ k * (v - ve))%Qc ve.
Proof.
  intros n z k v ve Hn H0 H1. destruct (decay_bounds n z Hn H0 H1) as (B1 & B2).
  assert (B3 : (decay n z <= 1)%Qc) by (revert B2; generalize (decay n z); intros; qc_lra).
  assert (P := power_nonneg _ k B1). assert (Q := power_le_one _ k B1 B3). revert P Q. generalize (decay n z ^ k)%Qc. intros g P Q.
  unfold between. destruct (Qclt_le_dec v ve) as [H|H]; [left|right]; split; qc_nra.
Qed.

(** ** Leapfrog *)

Lemma leap_off_step : forall z d k, leap_off z d (S (S k)) = (leap_off z d k - Q2Qc (2 # 1) * z * leap_off z d (S k))%Qc.
Proof. intros z d k. unfold leap_off. cbn [leap_two]. destruct (leap_two z d k) as [a b]. reflexivity. Qed.

Lemma leap_off_0 : forall z d, leap_off z d 0 = d.
Proof. reflexivity. Qed.

Lemma leap_off_1 : forall z d, leap_off z d 1 = ((1 - z) * d)%Qc.
Proof. reflexivity. Qed.

Lemma leap_off_lin : forall z d k, leap_off z d k = (d * leap_off z 1 k)%Qc.
Proof.
  intros z d k. assert (H : leap_off z d k = (d * leap_off z 1 k)%Qc /\ leap_off z d (S k) = (d * leap_off z 1 (S k))%Qc).
  { induction k as [|k (IH1 & IH2)]; [rewrite !leap_off_0, !leap_off_1; split; ring|]. split; auto. rewrite !leap_off_step, IH1, IH2. ring. }
  apply H.
Qed.

Lemma one_plus : forall z : Qc, (0 < z)%Qc -> (1 + z)%Qc <> 0%Qc.
Proof. intros z Hz X. assert (Y : (0 < 1 + z)%Qc) by qc_lra. rewrite X in Y. qc_lra. Qed.

Section Leap.
  Context (z : Qc) (Hz : (0 < z)%Qc).
  Let x := leap_off z 1.

  Lemma x_step : forall k, x (S (S k)) = (x k - Q2Qc (2 # 1) * z * x (S k))%Qc.
  Proof. intros k. apply leap_off_step. Qed.

  (** A quadratic quantity of two successive distances keeps its size. *)
  Lemma x_inv : forall k, let Q := (x (S k) * x (S k) + Q2Qc (2 # 1) * z * (x k * x (S k)) - x k * x k)%Qc in Q = (z * z)%Qc \/ Q = (- (z * z))%Qc.
  Proof.
    induction k as [|k IH]; cbv zeta in *.
    - right. unfold x. rewrite leap_off_0, leap_off_1. qc_ring.
    - rewrite (x_step k). destruct IH as [E|E]; [right|left].
      + rewrite <- E. qc_ring.
      + transitivity (- - (z * z))%Qc; [rewrite <- E; qc_ring|ring].
  Qed.

  Let m := (z / (1 + z))%Qc.

  Lemma m_pos : (0 < m)%Qc /\ (m * (1 + z) = z)%Qc.
  Proof.
    assert (E : (m * (1 + z) = z)%Qc) by (unfold m; field; apply one_plus; exact Hz). split; [|exact E].
    destruct (Qclt_le_dec 0 m) as [H|H]; [exact H|exfalso].
    assert (X := Qcmult_le_compat_r _ _ (1 + z)%Qc H ltac:(qc_lra)). rewrite E, Qcmult_0_l in X. qc_lra.
  Qed.

  Lemma sum_large : forall k, (0 <= x k)%Qc -> (0 <= x (S k))%Qc -> (m <= x k + x (S k))%Qc.
  Proof.
    intros k H1 H2. destruct m_pos as (M1 & M2). assert (I := x_inv k). cbv zeta in I. revert H1 H2 I. clearbody m. generalize (x k) (x (S k)). intros a b H1 H2 I.
    destruct (Qclt_le_dec (a + b) m) as [H|H]; [exfalso|exact H].
    assert (S1 : ((a + b) * (1 + z) < m * (1 + z))%Qc) by (apply Qcmult_lt_compat_r; [qc_lra|exact H]). rewrite M2 in S1.
    set (s := (a + b)%Qc) in *. assert (Hs : (0 <= s)%Qc) by (unfold s; qc_lra).
    assert (S2 : ((s * (1 + z)) * (s * (1 + z)) < z * z)%Qc).
    { assert (Hp : (0 <= s * (1 + z))%Qc) by qc_nra. revert S1 Hp. generalize (s * (1 + z))%Qc. intros. qc_nra. }
    assert (S3 : (z * z <= s * s * (1 + z))%Qc).
    { assert (A1 : (0 <= a * a)%Qc) by qc_nra. assert (A2 : (0 <= b * b)%Qc) by qc_nra. assert (A3 : (0 <= a * b)%Qc) by qc_nra.
      assert (A4 : (0 <= z * (a * a))%Qc) by qc_nra. assert (A5 : (0 <= z * (b * b))%Qc) by qc_nra. assert (A6 : (0 <= z * (a * b))%Qc) by qc_nra.
      replace (s * s * (1 + z))%Qc with (a * a + b * b + Q2Qc (2 # 1) * (a * b) + z * (a * a) + z * (b * b) + Q2Qc (2 # 1) * (z * (a * b)))%Qc by (unfold s; qc_ring).
      replace (Q2Qc (2 # 1) * z * (a * b))%Qc with (Q2Qc (2 # 1) * (z * (a * b)))%Qc in I by ring.
      assert (J : (z * z <= b * b + Q2Qc (2 # 1) * (z * (a * b)) - a * a)%Qc \/ (b * b + Q2Qc (2 # 1) * (z * (a * b)) - a * a <= - (z * z))%Qc)
        by (destruct I as [I|I]; rewrite I; [left|right]; apply Qcle_refl). clear I.
      revert A1 A2 A3 A4 A5 A6 J. generalize (z * (a * b))%Qc (z * (b * b))%Qc (z * (a * a))%Qc (a * a)%Qc (b * b)%Qc (a * b)%Qc (z * z)%Qc. intros.
      destruct J as [J|J]; qc_lra. }
    assert (S4 : (s * s * (1 + z) <= s * (1 + z) * (s * (1 + z)))%Qc).
    { replace (s * (1 + z) * (s * (1 + z)))%Qc with (s * s * (1 + z) + z * (s * s * (1 + z)))%Qc by ring.
      assert (A : (0 <= s * s)%Qc) by qc_nra. assert (B : (0 <= s * s * (1 + z))%Qc) by (revert A; generalize (s * s)%Qc; intros; qc_nra).
      revert B. generalize (s * s * (1 + z))%Qc. intros. qc_nra. }
    revert S2 S3 S4. generalize (s * (1 + z) * (s * (1 + z)))%Qc (s * s * (1 + z))%Qc (z * z)%Qc. intros. qc_lra.
  Qed.

  Definition opposite (k : nat) : Prop := (x k * x (S k) <= 0)%Qc.

  Lemma mul_nonpos : forall a b : Qc, (0 < a)%Qc -> (b <= 0)%Qc -> (a * b <= 0)%Qc.
  Proof. intros. qc_nra. Qed.

  (** Distances of one sign cannot go on: they would fall by a fixed amount every two steps. *)
  Lemma falls : forall j, (exists k, opposite k) \/
    (0 < x (2 * j) /\ 0 < x (S (2 * j)) /\ x (2 * j) + x (S (2 * j)) <= Q2Qc (2 # 1) - nq j * (Q2Qc (2 # 1) * z * m))%Qc.
  Proof.
    induction j as [|j [IH|(P1 & P2 & P3)]]; [|left; exact IH|].
    - change (2 * 0) with 0. destruct (Qclt_le_dec 0 (x 1)) as [H|H].
      + right. unfold x in *. rewrite leap_off_0, leap_off_1 in *. cbn [nq]. split; [qc_lra|]. split; [exact H|].
        replace (1 + (1 - z) * 1)%Qc with (Q2Qc (2 # 1) - z)%Qc by qc_ring.
        replace (Q2Qc (2 # 1) - 0 * (Q2Qc (2 # 1) * z * m))%Qc with (Q2Qc (2 # 1)) by ring. qc_lra.
      + left. exists 0. unfold opposite. apply mul_nonpos; [unfold x; rewrite leap_off_0; qc_lra|exact H].
    - replace (2 * S j) with (S (S (2 * j))) by lia. set (k := 2 * j) in *.
      destruct (Qclt_le_dec 0 (x (S (S k)))) as [H|H]; [|left; exists (S k); unfold opposite; apply mul_nonpos; auto].
      destruct (Qclt_le_dec 0 (x (S (S (S k))))) as [H'|H']; [|left; exists (S (S k)); unfold opposite; apply mul_nonpos; auto].
      right. split; [exact H|]. split; [exact H'|].
      assert (L := sum_large (S k) (Qclt_le_weak _ _ P2) (Qclt_le_weak _ _ H)).
      assert (E : (x (S (S k)) + x (S (S (S k))) = x k + x (S k) - Q2Qc (2 # 1) * z * (x (S k) + x (S (S k))))%Qc).
      { rewrite (x_step (S k)), (x_step k). qc_ring. }
      rewrite E. cbn [nq].
      replace (Q2Qc (2 # 1) - (nq j + 1) * (Q2Qc (2 # 1) * z * m))%Qc with (Q2Qc (2 # 1) - nq j * (Q2Qc (2 # 1) * z * m) - Q2Qc (2 # 1) * z * m)%Qc by ring.
      assert (D : (Q2Qc (2 # 1) * z * m <= Q2Qc (2 # 1) * z * (x (S k) + x (S (S k))))%Qc).
      { rewrite !(Qcmult_comm (Q2Qc (2 # 1) * z)%Qc). apply Qcmult_le_compat_r; [exact L|]. clear - Hz. qc_lra. }
      revert P3 D. generalize (x (S k) + x (S (S k)))%Qc (x k + x (S k))%Qc. intros a b. generalize (Q2Qc (2 # 1) * z * a)%Qc (nq j * (Q2Qc (2 # 1) * z * m))%Qc (Q2Qc (2 # 1) * z * m)%Qc.
      clear. intros. qc_lra.
  Qed.

  Lemma turns : exists k, opposite k.
  Proof.
    destruct m_pos as (M1 & _).
    destruct (archimedes_mul (Q2Qc (2 # 1)) (Q2Qc (2 # 1) * z * m)%Qc) as (j & Hj).
    { clear - Hz M1. clearbody m. assert (X : (0 < z * m)%Qc) by qc_nra. replace (Q2Qc (2 # 1) * z * m)%Qc with (Q2Qc (2 # 1) * (z * m))%Qc by ring.
      revert X. generalize (z * m)%Qc. intros. qc_lra. }
    destruct (falls j) as [H|(P1 & P2 & P3)]; [exact H|exfalso]. specialize (Hj j (le_n _)).
    revert P1 P2 P3 Hj. generalize (x (2 * j)) (x (S (2 * j))) (nq j * (Q2Qc (2 # 1) * z * m))%Qc. clear. intros. qc_lra.
  Qed.

  (** From then on the signs alternate. *)
  Lemma alternates : forall k n, opposite k -> opposite (k + n).
  Proof.
    intros k n H. induction n as [|n IH]; [rewrite Nat.add_0_r; exact H|]. replace (k + S n) with (S (k + n)) by lia. unfold opposite in *.
    rewrite x_step. revert IH. generalize (x (k + n)) (x (S (k + n))). intros a b IH.
    replace (b * (a - Q2Qc (2 # 1) * z * b))%Qc with (a * b - Q2Qc (2 # 1) * (z * (b * b)))%Qc by ring.
    assert (X : (0 <= b * b)%Qc) by qc_nra. assert (Y : (0 <= z * (b * b))%Qc) by (revert X; generalize (b * b)%Qc; intros; clear IH; qc_nra).
    revert IH Y. generalize (a * b)%Qc (z * (b * b))%Qc. clear. intros. qc_lra.
  Qed.

  Definition energy (k : nat) : Qc := (x k * x k + x (S k) * x (S k))%Qc.

  Lemma square_grows : forall k, opposite k -> (x k * x k + Q2Qc (4 # 1) * (z * z) * (x (S k) * x (S k)) <= x (S (S k)) * x (S (S k)))%Qc.
  Proof.
    intros k H. rewrite x_step. unfold opposite in H. revert H. generalize (x k) (x (S k)). intros a b H.
    replace ((a - Q2Qc (2 # 1) * z * b) * (a - Q2Qc (2 # 1) * z * b))%Qc with (a * a + Q2Qc (4 # 1) * (z * - (a * b)) + Q2Qc (4 # 1) * (z * z) * (b * b))%Qc by qc_ring.
    assert (X : (0 <= z * - (a * b))%Qc) by (revert H; generalize (a * b)%Qc; intros; qc_nra).
    revert X. generalize (z * - (a * b))%Qc (a * a)%Qc (Q2Qc (4 # 1) * (z * z) * (b * b))%Qc. clear. intros. qc_lra.
  Qed.

  Lemma sq : forall a : Qc, (0 <= a * a)%Qc.
  Proof. intros. qc_nra. Qed.

  Lemma energy_pos : forall k, (0 < energy k)%Qc.
  Proof.
    intros k. unfold energy. assert (I := x_inv k). cbv zeta in I. revert I. generalize (x k) (x (S k)). intros a b I.
    assert (A := sq a). assert (B := sq b). destruct (Qclt_le_dec 0 (a * a + b * b)) as [H|H]; [exact H|exfalso].
    assert (A0 : (a * a <= 0)%Qc) by (revert A B H; generalize (a * a)%Qc (b * b)%Qc; clear; intros; qc_lra).
    assert (B0 : (b * b <= 0)%Qc) by (revert A B H; generalize (a * a)%Qc (b * b)%Qc; clear; intros; qc_lra).
    assert (Za : a = 0%Qc). { destruct (Qc_eq_dec a 0) as [E|E]; auto. exfalso. assert (E1 : (a * a)%Qc = 0%Qc) by (apply Qcle_antisym; auto). apply Qcmult_integral in E1 as [E1|E1]; auto. }
    assert (Zb : b = 0%Qc). { destruct (Qc_eq_dec b 0) as [E|E]; auto. exfalso. assert (E1 : (b * b)%Qc = 0%Qc) by (apply Qcle_antisym; auto). apply Qcmult_integral in E1 as [E1|E1]; auto. }
    subst a b. assert (Z : (0 < z * z)%Qc) by (clear - Hz; qc_nra).
    assert (E : (0 * 0 + Q2Qc (2 # 1) * z * (0 * 0) - 0 * 0)%Qc = 0%Qc) by ring. rewrite E in I.
    destruct I as [I|I].
    - rewrite <- I in Z. revert Z. clear. intros. qc_lra.
    - assert (Z' : (- (z * z) < 0)%Qc) by (revert Z; generalize (z * z)%Qc; clear; intros; qc_lra). rewrite <- I in Z'. revert Z'. clear. intros. qc_lra.
  Qed.

  Lemma energy_step : forall k, opposite k -> (energy k <= energy (S k))%Qc.
  Proof.
    intros k H. assert (G := square_grows k H). unfold energy. assert (A := sq (x (S k))). assert (Z := sq z).
    assert (Y : (0 <= Q2Qc (4 # 1) * (z * z) * (x (S k) * x (S k)))%Qc).
    { revert A Z. generalize (x (S k) * x (S k))%Qc (z * z)%Qc. clear. intros. qc_nra. }
    revert G Y. generalize (Q2Qc (4 # 1) * (z * z) * (x (S k) * x (S k)))%Qc (x (S k) * x (S k))%Qc (x k * x k)%Qc (x (S (S k)) * x (S (S k)))%Qc. clear. intros. qc_lra.
  Qed.

  Lemma energy_two : forall k, opposite k -> (energy k + Q2Qc (4 # 1) * (z * z) * energy k <= energy (S (S k)))%Qc.
  Proof.
    intros k H. assert (H1 : opposite (S k)) by (replace (S k) with (k + 1) by lia; apply alternates; auto).
    assert (G0 := square_grows k H). assert (G1 := square_grows (S k) H1). assert (E1 := energy_step k H). assert (Z := sq z).
    assert (E2 : (Q2Qc (4 # 1) * (z * z) * energy k <= Q2Qc (4 # 1) * (z * z) * energy (S k))%Qc).
    { rewrite !(Qcmult_comm (Q2Qc (4 # 1) * (z * z))%Qc). apply Qcmult_le_compat_r; [exact E1|]. revert Z. generalize (z * z)%Qc. clear. intros. qc_lra. }
    unfold energy in *. replace (Q2Qc (4 # 1) * (z * z) * (x (S k) * x (S k) + x (S (S k)) * x (S (S k))))%Qc with
      (Q2Qc (4 # 1) * (z * z) * (x (S k) * x (S k)) + Q2Qc (4 # 1) * (z * z) * (x (S (S k)) * x (S (S k))))%Qc in E2 by ring.
    revert G0 G1 E2. generalize (Q2Qc (4 # 1) * (z * z) * (x (S k) * x (S k)))%Qc (Q2Qc (4 # 1) * (z * z) * (x (S (S k)) * x (S (S k))))%Qc
      (Q2Qc (4 # 1) * (z * z) * (x k * x k + x (S k) * x (S k)))%Qc.
    generalize (x k * x k)%Qc (x (S k) * x (S k))%Qc (x (S (S k)) * x (S (S k)))%Qc (x (S (S (S k))) * x (S (S (S k))))%Qc. clear. intros. qc_lra.
  Qed.

  Lemma energy_mono : forall k n, opposite k -> (energy k <= energy (k + n))%Qc.
  Proof.
    intros k n H. induction n as [|n IH]; [rewrite Nat.add_0_r; apply Qcle_refl|]. replace (k + S n) with (S (k + n)) by lia.
    eapply Qcle_trans; [exact IH|]. apply energy_step, alternates, H.
  Qed.

  Lemma energy_linear : forall k j, opposite k -> (nq j * (Q2Qc (4 # 1) * (z * z) * energy k) <= energy (k + 2 * j))%Qc.
  Proof.
    intros k j H. induction j as [|j IH].
    - cbn [nq]. replace (0 * (Q2Qc (4 # 1) * (z * z) * energy k))%Qc with 0%Qc by ring. apply Qclt_le_weak, energy_pos.
    - replace (k + 2 * S j) with (S (S (k + 2 * j))) by lia. assert (T := energy_two _ (alternates k (2 * j) H)).
      assert (M := energy_mono k (2 * j) H). assert (Z := sq z).
      assert (E2 : (Q2Qc (4 # 1) * (z * z) * energy k <= Q2Qc (4 # 1) * (z * z) * energy (k + 2 * j))%Qc).
      { rewrite !(Qcmult_comm (Q2Qc (4 # 1) * (z * z))%Qc). apply Qcmult_le_compat_r; [exact M|]. revert Z. generalize (z * z)%Qc. clear. intros. qc_lra. }
      cbn [nq]. replace ((nq j + 1) * (Q2Qc (4 # 1) * (z * z) * energy k))%Qc with (nq j * (Q2Qc (4 # 1) * (z * z) * energy k) + Q2Qc (4 # 1) * (z * z) * energy k)%Qc by ring.
      revert IH T E2. generalize (nq j * (Q2Qc (4 # 1) * (z * z) * energy k))%Qc (Q2Qc (4 # 1) * (z * z) * energy k)%Qc (Q2Qc (4 # 1) * (z * z) * energy (k + 2 * j))%Qc
        (energy (k + 2 * j)) (energy (S (S (k + 2 * j)))). clear. intros. qc_lra.
  Qed.

  Lemma energy_unbounded : forall B, exists N, forall k, N <= k -> opposite k /\ (B <= energy k)%Qc.
  Proof.
    intros B. destruct turns as (k0 & H0). assert (P := energy_pos k0).
    destruct (archimedes_mul B (Q2Qc (4 # 1) * (z * z) * energy k0)%Qc) as (j & Hj).
    { assert (Z : (0 < z * z)%Qc) by (clear - Hz; qc_nra). revert Z P. generalize (z * z)%Qc (energy k0). clear. intros. qc_nra. }
    exists (k0 + 2 * j). intros k Hk. split.
    - replace k with (k0 + (k - k0)) by lia. apply alternates, H0.
    - eapply Qcle_trans; [apply (Hj j (le_n _))|]. eapply Qcle_trans; [apply energy_linear, H0|].
      replace k with (k0 + 2 * j + (k - (k0 + 2 * j))) by lia. apply energy_mono, alternates, H0.
  Qed.

  Lemma square_unbounded : forall B, exists N, forall k, N <= k -> (B <= x k * x k)%Qc.
  Proof.
    intros B. set (g := if Qclt_le_dec (Q2Qc (4 # 1) * (z * z)) 1 then (Q2Qc (4 # 1) * (z * z))%Qc else 1%Qc).
    assert (Z : (0 < z * z)%Qc) by (clear - Hz; qc_nra).
    assert (G : (0 < g)%Qc /\ (g <= 1)%Qc /\ (g <= Q2Qc (4 # 1) * (z * z))%Qc).
    { unfold g. destruct (Qclt_le_dec (Q2Qc (4 # 1) * (z * z)) 1) as [H|H]; revert Z H; generalize (z * z)%Qc; clear; intros; repeat split; qc_lra. }
    destruct G as (G1 & G2 & G3). clearbody g.
    destruct (energy_unbounded (B / g)%Qc) as (N & HN). exists (S (S N)). intros k Hk. destruct k as [|[|k]]; [lia|lia|].
    destruct (HN k ltac:(lia)) as (H & E). assert (S := square_grows k H). unfold energy in E.
    assert (E1 : (B <= g * (x k * x k + x (Datatypes.S k) * x (Datatypes.S k)))%Qc).
    { apply (Qcmult_le_compat_r _ _ g) in E; [|apply Qclt_le_weak; auto]. rewrite (Qcmult_comm _ g) in E. rewrite (Qcmult_comm _ g) in E.
      replace (g * (B / g))%Qc with B in E; [exact E|]. field. intros X. rewrite X in G1. clear - G1. qc_lra. }
    assert (A := sq (x k)). assert (A' := sq (x (Datatypes.S k))).
    eapply Qcle_trans; [exact E1|]. eapply Qcle_trans; [|exact S]. revert A A'. generalize (x k * x k)%Qc (x (Datatypes.S k) * x (Datatypes.S k))%Qc. intros a b A A'.
    replace (g * (a + b))%Qc with (g * a + g * b)%Qc by ring. rewrite <- (Qcmult_1_l a) at 2. apply Qcplus_le_compat; apply Qcmult_le_compat_r; auto.
  Qed.
End Leap.

(** Leapfrog without a filter leaves the equilibrium, at any timestep. *)
Lemma leap_diverges : forall z d B, (0 < z)%Qc -> d <> 0%Qc ->
  exists N, forall k, N <= k -> (B <= leap_off z d k)%Qc \/ (leap_off z d k <= - B)%Qc.
Proof.
  intros z d B Hz Hd. assert (D : (0 < d * d)%Qc).
  { destruct (Qclt_le_dec 0 (d * d)) as [H|H]; auto. exfalso. assert (E : (d * d)%Qc = 0%Qc) by (apply Qcle_antisym; [exact H|apply sq]). apply Qcmult_integral in E as [E|E]; auto. }
  destruct (square_unbounded z Hz (B * B / (d * d))%Qc) as (N & HN). exists N. intros k Hk. specialize (HN k Hk).
  apply (Qcmult_le_compat_r _ _ (d * d)%Qc) in HN; [|apply Qclt_le_weak; auto].
  replace (B * B / (d * d) * (d * d))%Qc with (B * B)%Qc in HN; [|field; auto].
  replace (leap_off z 1 k * leap_off z 1 k * (d * d))%Qc with (leap_off z d k * leap_off z d k)%Qc in HN by (rewrite (leap_off_lin z d k); ring).
  revert HN. generalize (leap_off z d k). clear. intros y H.
  destruct (Qclt_le_dec y B) as [H1|H1]; [right|left; exact H1].
  destruct (Qclt_le_dec (- B) y) as [H2|H2]; [exfalso|exact H2]. to_q. nra.
Qed.
