(** Inequalities in exact arithmetic for C95. *)
From Coq Require Import String List Bool Arith ZArith QArith Qcanon Lia Lqa.
From Verif Require Import Prelude PreludeFacts ArithM NdArray Units DataArrayM Components Composite Steppers SpecSteppers StepAlgebra SpecOrder SpecConverge.
Import ListNotations.
Open Scope nat_scope.
Open Scope list_scope.

Ltac to_q := unfold Qcle, Qclt in *;
  repeat match goal with
  | H : (_ <= _)%Q |- _ => progress rewrite ?this_plus, ?this_minus, ?this_opp, ?this_mult, ?this_Q2Qc, ?this_0, ?this_1 in H
  | H : (_ < _)%Q |- _ => progress rewrite ?this_plus, ?this_minus, ?this_opp, ?this_mult, ?this_Q2Qc, ?this_0, ?this_1 in H
  end; repeat rewrite ?this_plus, ?this_minus, ?this_opp, ?this_mult, ?this_Q2Qc, ?this_0, ?this_1.

Ltac qc_lra := to_q; lra.
Ltac qc_nra := to_q; nra.

(** Products of bounds. *)
Lemma mul_le : forall a x b : Qc, (0 <= a)%Qc -> (x <= b)%Qc -> (a * x <= a * b)%Qc.
Proof. intros a x b Ha H. to_q. nra. Qed.

Lemma mul_pos : forall a b : Qc, (0 <= a)%Qc -> (0 <= b)%Qc -> (0 <= a * b)%Qc.
Proof. intros a b Ha Hb. to_q. nra. Qed.

Lemma mul_neg : forall a q : Qc, (0 < a)%Qc -> (q < 0)%Qc -> (a * q < 0)%Qc.
Proof. intros a q Ha Hb. to_q. nra. Qed.

Lemma mul_gt : forall a q x : Qc, (0 < a)%Qc -> (x < q)%Qc -> (a * x < a * q)%Qc.
Proof. intros a q x Ha Hb. to_q. nra. Qed.

(** A weight of either sign. *)
Lemma weight_le : forall w a x b : Qc, (w <= a)%Qc -> (- w <= a)%Qc -> (x <= b)%Qc -> (- x <= b)%Qc -> (w * x <= a * b)%Qc.
Proof. intros w a x b H1 H2 H3 H4. to_q. nra. Qed.

(** ** Powers *)

Lemma pow_S : forall (x : Qc) n, (x ^ S n = x * x ^ n)%Qc.
Proof. reflexivity. Qed.

Lemma pow_add : forall (x : Qc) a b, (x ^ (a + b) = x ^ a * x ^ b)%Qc.
Proof. intros x a b. induction a as [|a IH]; [simpl; ring|]. cbn [Nat.add]. rewrite !pow_S, IH. ring. Qed.

Lemma pow_mul : forall (x : Qc) a b, (x ^ (a * b) = (x ^ a) ^ b)%Qc.
Proof.
  intros x a b. induction b as [|b IH]; [rewrite Nat.mul_0_r; reflexivity|].
  rewrite Nat.mul_succ_r, pow_add, IH, pow_S. ring.
Qed.

Lemma pow_nonneg : forall (x : Qc) n, (0 <= x)%Qc -> (0 <= x ^ n)%Qc.
Proof. intros x n H. induction n as [|n IH]; [simpl; qc_lra|]. rewrite pow_S. apply mul_pos; auto. Qed.

Lemma pow_mono : forall (x y : Qc) n, (0 <= x)%Qc -> (x <= y)%Qc -> (x ^ n <= y ^ n)%Qc.
Proof.
  intros x y n H0 H. induction n as [|n IH]; [simpl; qc_lra|]. rewrite !pow_S.
  assert (Hx := pow_nonneg x n H0). generalize dependent (x ^ n)%Qc. generalize (y ^ n)%Qc. intros p q H1 H2. qc_nra.
Qed.

Lemma pow_ge_1 : forall (x : Qc) n, (1 <= x)%Qc -> (1 <= x ^ n)%Qc.
Proof. intros x n H. induction n as [|n IH]; [simpl; qc_lra|]. rewrite pow_S. generalize dependent (x ^ n)%Qc. intros p H1. qc_nra. Qed.

Lemma of_nat_S : forall n, of_nat (S n) = (of_nat n + 1)%Qc.
Proof. intros n. unfold of_nat. rewrite Nat2Z.inj_succ. unfold Z.succ. rewrite inject_Z_plus. qc_ring. Qed.

Lemma of_nat_0 : of_nat 0 = 0%Qc.
Proof. reflexivity. Qed.

Lemma of_nat_nonneg : forall n, (0 <= of_nat n)%Qc.
Proof. induction n as [|n IH]; [rewrite of_nat_0; qc_lra|]. rewrite of_nat_S. qc_lra. Qed.

Lemma bernoulli : forall (x : Qc) n, (0 <= 1 + x)%Qc -> (1 + of_nat n * x <= (1 + x) ^ n)%Qc.
Proof.
  intros x n H. induction n as [|n IH]; [rewrite of_nat_0; simpl; qc_lra|].
  rewrite of_nat_S, pow_S. assert (Hn := of_nat_nonneg n).
  generalize dependent ((1 + x) ^ n)%Qc. generalize dependent (of_nat n). intros k Hk p Hp.
  assert (X := mul_le _ _ _ H Hp). assert (Y : (0 <= k * (x * x))%Qc) by (apply mul_pos; [auto|to_q; nra]).
  replace ((1 + x) * (1 + k * x))%Qc with (1 + (k + 1) * x + k * (x * x))%Qc in X by ring.
  generalize dependent (k * (x * x))%Qc. generalize dependent ((1 + x) * p)%Qc. generalize ((k + 1) * x)%Qc. intros. qc_lra.
Qed.

Lemma pow_prod : forall (x y : Qc) n, ((x * y) ^ n = x ^ n * y ^ n)%Qc.
Proof. intros x y n. induction n as [|n IH]; [simpl; ring|]. rewrite !pow_S, IH. ring. Qed.

Lemma pow_one : forall n, (1 ^ n = 1)%Qc.
Proof. induction n as [|n IH]; [reflexivity|]. rewrite pow_S, IH. ring. Qed.

(** [(1 + w)^n] is at most 2 as long as [n w] is at most 1/2. *)
Lemma pow_two : forall (w : Qc) n, (0 <= w)%Qc -> (of_nat n * w <= Q2Qc (1 # 2))%Qc -> ((1 + w) ^ n <= Q2Qc (2 # 1))%Qc.
Proof.
  intros w n Hw Hn. assert (Hne : (1 + w <> 0)%Qc).
  { intros E. assert (X : (1 + w <= 0)%Qc) by (rewrite E; qc_lra). qc_lra. }
  set (q := (/ (1 + w))%Qc). assert (Hq : ((1 + w) * q = 1)%Qc) by (apply Qcmult_inv_r; exact Hne).
  assert (Hq0 : (0 <= q)%Qc).
  { apply Qcnot_lt_le. intros H. assert (X : ((1 + w) * q < 0)%Qc) by (apply mul_neg; [qc_lra|exact H]). rewrite Hq in X. qc_lra. }
  assert (Hq1 : (q <= 1)%Qc).
  { apply Qcnot_lt_le. intros H. assert (X := mul_gt (1 + w)%Qc _ _ ltac:(qc_lra) H). rewrite Hq in X. qc_lra. }
  assert (B := bernoulli (q - 1)%Qc n). replace (1 + (q - 1))%Qc with q in B by ring. specialize (B Hq0).
  assert (E : (of_nat n * (q - 1) = - (of_nat n * w * q))%Qc).
  { replace (q - 1)%Qc with (q - (1 + w) * q)%Qc by (rewrite Hq; reflexivity). ring. }
  rewrite E in B. assert (P : ((1 + w) ^ n * q ^ n = 1)%Qc) by (rewrite <- pow_prod, Hq; apply pow_one).
  assert (H2 : (Q2Qc (1 # 2) <= q ^ n)%Qc).
  { generalize dependent (of_nat n * w)%Qc. intros z Hz. intros. clear E. generalize dependent (q ^ n)%Qc. intros. clear Hq. qc_nra. }
  assert (Hp : (0 <= (1 + w) ^ n)%Qc) by (apply pow_nonneg; qc_lra).
  apply Qcnot_lt_le. intros H. generalize dependent ((1 + w) ^ n)%Qc. generalize dependent (q ^ n)%Qc. intros.
  assert (X : (1 < q1 * q0)%Qc) by (to_q; nra). rewrite P in X. qc_lra.
Qed.

(** With [n z <= m], [(1 + z)^n] is at most [4^m]. *)
Lemma pow_four : forall (z : Qc) n m, (0 <= z)%Qc -> (of_nat n * z <= of_nat m)%Qc -> ((1 + z) ^ n <= Q2Qc (4 # 1) ^ m)%Qc.
Proof.
  intros z n m Hz H. destruct m as [|m].
  - rewrite of_nat_0 in H. simpl (_ ^ 0)%Qc. destruct n as [|n]; [simpl; qc_lra|].
    assert (z = 0)%Qc.
    { apply Qcle_antisym; auto. rewrite of_nat_S in H. assert (Hn := of_nat_nonneg n). generalize dependent (of_nat n). intros. qc_nra. }
    subst z. replace (1 + 0)%Qc with 1%Qc by ring. rewrite pow_one. qc_lra.
  - set (k := of_nat (2 * S m)).
    assert (Hk : (0 < k)%Qc).
    { unfold k. replace (2 * S m) with (S (m + S m)) by lia. rewrite of_nat_S. assert (Hn := of_nat_nonneg (m + S m)). qc_lra. }
    assert (Hkne : (k <> 0)%Qc) by (intros E; rewrite E in Hk; qc_lra).
    assert (Ek : (k = Q2Qc (2 # 1) * of_nat (S m))%Qc).
    { unfold k. replace (2 * S m) with (S m + S m) by lia. unfold of_nat. rewrite Nat2Z.inj_add, inject_Z_plus. qc_ring. }
    set (w := (z / k)%Qc). assert (Ew : (w * k = z)%Qc) by (unfold w; field; exact Hkne).
    assert (Hw : (0 <= w)%Qc).
    { apply Qcnot_lt_le. intros X. assert (Y := mul_neg _ _ Hk X). rewrite Qcmult_comm, Ew in Y. qc_lra. }
    assert (B : (1 + z <= (1 + w) ^ (2 * S m))%Qc).
    { rewrite <- Ew. rewrite (Qcmult_comm w k). apply bernoulli. qc_lra. }
    apply Qcle_trans with (((1 + w) ^ (2 * S m)) ^ n)%Qc; [apply pow_mono; [qc_lra|exact B]|].
    rewrite <- pow_mul, Nat.mul_comm, pow_mul.
    assert (T : ((1 + w) ^ n <= Q2Qc (2 # 1))%Qc).
    { apply pow_two; [exact Hw|]. rewrite Ek in Ew. rewrite <- Ew in H.
      assert (Hm : (1 <= of_nat (S m))%Qc) by (rewrite of_nat_S; assert (Hn := of_nat_nonneg m); qc_lra).
      clearbody w. clear Ek Hkne Hk k B Ew. generalize dependent (of_nat (S m)). generalize (of_nat n). intros a b H Hm.
      apply Qcnot_lt_le. intros X. assert (Y : (b < a * (w * (Q2Qc (2 # 1) * b)))%Qc); [|to_q; lra].
      replace (a * (w * (Q2Qc (2 # 1) * b)))%Qc with (Q2Qc (2 # 1) * b * (a * w))%Qc by ring.
      generalize dependent (a * w)%Qc. intros. to_q. nra. }
    apply Qcle_trans with (Q2Qc (2 # 1) ^ (2 * S m))%Qc; [apply pow_mono; [apply pow_nonneg; qc_lra|exact T]|].
    rewrite pow_mul. replace (Q2Qc (2 # 1) ^ 2)%Qc with (Q2Qc (4 # 1)) by (apply Qc_is_canon; reflexivity). qc_lra.
Qed.

(** ** Accumulated errors *)

Lemma total_nonneg : forall d k, (forall j, 0 <= d j)%Qc -> (0 <= total_error d k)%Qc.
Proof. intros d k H. induction k as [|k IH]; cbn [total_error]; [qc_lra|]. specialize (H k). qc_lra. Qed.

Lemma bound_nonneg : forall K d e0 k, (0 <= K)%Qc -> (0 <= e0)%Qc -> (forall j, 0 <= d j)%Qc -> (0 <= bound K d e0 k)%Qc.
Proof.
  intros K d e0 k HK He Hd. induction k as [|k IH]; cbn [bound]; auto. specialize (Hd k). assert (X := mul_pos _ _ HK IH). qc_lra.
Qed.

Lemma bound_mono : forall K d e0 k, (1 <= K)%Qc -> (0 <= e0)%Qc -> (forall j, 0 <= d j)%Qc -> (bound K d e0 k <= bound K d e0 (S k))%Qc.
Proof.
  intros K d e0 k HK He Hd. cbn [bound]. assert (X : (0 <= bound K d e0 k)%Qc) by (apply bound_nonneg; auto; qc_lra).
  specialize (Hd k). generalize dependent (bound K d e0 k). intros. qc_nra.
Qed.

Lemma bound_le : forall K d e0 k j, (1 <= K)%Qc -> (0 <= e0)%Qc -> (forall j, 0 <= d j)%Qc -> j <= k -> (bound K d e0 j <= bound K d e0 k)%Qc.
Proof.
  intros K d e0 k j HK He Hd H. induction H; [qc_lra|]. eapply Qcle_trans; [exact IHle|]. apply bound_mono; auto.
Qed.

Lemma bound_pow : forall K d e0 k, (1 <= K)%Qc -> (0 <= e0)%Qc -> (forall j, 0 <= d j)%Qc ->
  (bound K d e0 k <= K ^ k * (e0 + total_error d k))%Qc.
Proof.
  intros K d e0 k HK He Hd. induction k as [|k IH]; cbn [bound total_error]; [change (K ^ 0)%Qc with 1%Qc; qc_lra|].
  assert (P := pow_ge_1 K (S k) HK). specialize (Hd k). rewrite pow_S in *. generalize dependent (bound K d e0 k).
  generalize dependent (total_error d k). generalize dependent (K ^ k)%Qc. intros p P t b H.
  assert (X : (K * b <= K * (p * (e0 + t)))%Qc) by (apply mul_le; [qc_lra|exact H]).
  assert (Y : (d k <= K * p * d k)%Qc) by (generalize dependent (K * p)%Qc; intros; qc_nra).
  replace (K * p * (e0 + (t + d k)))%Qc with (K * (p * (e0 + t)) + K * p * d k)%Qc by ring. clear H P. qc_lra.
Qed.

(** The constant does not depend on the number of steps, only on [n z]. *)
Lemma bound_constant : forall K z d e0 n m, (1 <= K)%Qc -> (K <= 1 + z)%Qc -> (0 <= e0)%Qc -> (forall j, 0 <= d j)%Qc ->
  (of_nat n * z <= of_nat m)%Qc -> (bound K d e0 n <= Q2Qc (4 # 1) ^ m * (e0 + total_error d n))%Qc.
Proof.
  intros K z d e0 n m HK Hz He Hd H. eapply Qcle_trans; [apply bound_pow; auto|].
  assert (X : (K ^ n <= Q2Qc (4 # 1) ^ m)%Qc).
  { eapply Qcle_trans; [apply pow_mono; [qc_lra|exact Hz]|]. apply pow_four; auto. qc_lra. }
  assert (Y := total_nonneg d n Hd). generalize dependent (K ^ n)%Qc. generalize dependent (Q2Qc (4 # 1) ^ m)%Qc.
  generalize dependent (total_error d n). intros. qc_nra.
Qed.

Lemma growth_small : forall n z, (0 <= z)%Qc -> (z <= 1)%Qc -> (rk_growth n z <= 1 + Q2Qc (2 # 1) * z)%Qc.
Proof.
  intros n z H0 H1. assert (X : (z * z <= z)%Qc) by qc_nra. assert (Y : (z * z * z <= z)%Qc).
  { replace (z * z * z)%Qc with ((z * z) * z)%Qc by ring. generalize dependent (z * z)%Qc. intros. qc_nra. }
  unfold rk_growth. destruct n as [|[|[|n]]]; generalize dependent (z * z * z)%Qc; generalize dependent (z * z)%Qc; intros; qc_lra.
Qed.

Lemma growth_ge : forall n z, (0 <= z)%Qc -> (1 <= rk_growth n z)%Qc.
Proof.
  intros n z H. assert (X := mul_pos _ _ H H). assert (Y := mul_pos _ _ X H). unfold rk_growth.
  destruct n as [|[|[|n]]]; generalize dependent (z * z * z)%Qc; generalize dependent (z * z)%Qc; intros; qc_lra.
Qed.
