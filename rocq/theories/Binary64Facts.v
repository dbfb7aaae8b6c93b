(** IEEE double precision rounds as C96 asks. *)
From Coq Require Import ZArith QArith Qcanon Reals Qreals Lia Lra.
From Flocq Require Import Core.Core Relative IEEE754.BinarySingleNaN.
From Verif Require Import ArithM SpecRound StepAlgebra Binary64.

Definition b64_big : Qc := Q2Qc (inject_Z (2 ^ 1023)).
Definition b64_u : Qc := Q2Qc (1 # 2 ^ 53).
Definition b64_tiny : Qc := Q2Qc (1 # 2 ^ 1022).

Notation real q := (Q2R (this q)).
Notation b64_round := (round radix2 (SpecFloat.fexp 53 1024) (round_mode mode_NE)).

Lemma real_Q2Qc : forall q, real (Q2Qc q) = Q2R q.
Proof. intros q. apply Qeq_eqR. apply this_Q2Qc. Qed.

Lemma real_plus : forall a b, real (a + b)%Qc = (real a + real b)%R.
Proof. intros a b. rewrite <- Q2R_plus. apply Qeq_eqR. apply this_plus. Qed.

Lemma real_minus : forall a b, real (a - b)%Qc = (real a - real b)%R.
Proof. intros a b. rewrite <- Q2R_minus. apply Qeq_eqR. apply this_minus. Qed.

Lemma real_mult : forall a b, real (a * b)%Qc = (real a * real b)%R.
Proof. intros a b. rewrite <- Q2R_mult. apply Qeq_eqR. apply this_mult. Qed.

Lemma real_le : forall a b, (a <= b)%Qc <-> (real a <= real b)%R.
Proof. intros a b. split; [apply Qle_Rle|apply Rle_Qle]. Qed.

Lemma real_within : forall e a b, within e a b <-> (Rabs (real a - real b) <= real e)%R.
Proof.
  intros e a b. unfold within. rewrite !real_le, !real_minus. split.
  - intros (H1 & H2). apply Rabs_le. lra.
  - intros H. apply Rabs_le_inv in H. lra.
Qed.

Lemma real_0 : real 0%Qc = 0%R.
Proof. rewrite real_Q2Qc. apply RMicromega.Q2R_0. Qed.

Lemma pow_pos : forall p, IZR (2 ^ Zpos p) = bpow radix2 (Zpos p).
Proof. intros p. rewrite <- (IZR_Zpower radix2); [reflexivity|lia]. Qed.

Lemma b64_num_real : forall x, real (b64_num x) = B2R x.
Proof.
  intros [s|s| |s m e He]; cbn [b64_num B2R]; try exact real_0. clear He. generalize (cond_Zopp s (Zpos m)). intros z. unfold F2R. cbn [Fnum Fexp].
  destruct e as [|p|p]; rewrite real_Q2Qc.
  - unfold Q2R, inject_Z. cbn [Qnum Qden]. change (2 ^ 0)%Z with 1%Z. rewrite Z.mul_1_r. cbn [bpow]. field.
  - unfold Q2R, inject_Z. cbn [Qnum Qden]. rewrite mult_IZR, pow_pos. field.
  - unfold Q2R. cbn [Qnum Qden]. rewrite Pos2Z.inj_pow, pow_pos. change (Zneg p) with (- Zpos p)%Z. rewrite bpow_opp. reflexivity.
Qed.

Lemma real_big : real b64_big = bpow radix2 1023.
Proof. unfold b64_big. rewrite real_Q2Qc. unfold Q2R, inject_Z. cbn [Qnum Qden]. rewrite pow_pos. field. Qed.

Lemma real_part : forall p, real (Q2Qc (1 # 2 ^ p)) = bpow radix2 (- Zpos p).
Proof. intros p. rewrite real_Q2Qc. unfold Q2R. cbn [Qnum Qden]. rewrite Pos2Z.inj_pow, pow_pos, bpow_opp. ring. Qed.

Lemma round_ok : forall x s, (Rabs x <= s)%R -> (s <= bpow radix2 1023)%R ->
  Rlt_bool (Rabs (b64_round x)) (bpow radix2 1024) = true /\
  (Rabs (b64_round x - x) <= bpow radix2 (-53) * (s + bpow radix2 (-1022)))%R.
Proof.
  intros x s Hx Hs. split.
  - apply Rlt_bool_true. apply Rle_lt_trans with (bpow radix2 1023); [|apply bpow_lt; lia].
    apply abs_round_le_generic; [apply fexp_correct; reflexivity|apply valid_rnd_N| |lra].
    apply generic_format_bpow. vm_compute. discriminate.
  - destruct (error_N_FLT radix2 (-1074) 53 eq_refl (fun x => negb (Z.even x)) x) as (eps & eta & He & Ht & _ & E).
    change (b64_round x) with (round radix2 (FLT_exp (-1074) 53) (Znearest (fun x => negb (Z.even x))) x). rewrite E.
    replace (x * (1 + eps) + eta - x)%R with (x * eps + eta)%R by ring.
    assert (T1 : (bpow radix2 (-53) * bpow radix2 (-1022) = /2 * bpow radix2 (-1074))%R).
    { rewrite <- bpow_plus. change (/2)%R with (bpow radix2 (-1)). rewrite <- bpow_plus. reflexivity. }
    assert (T2 : (/2 * bpow radix2 (-53 + 1) = bpow radix2 (-53))%R).
    { change (/2)%R with (bpow radix2 (-1)). rewrite <- bpow_plus. reflexivity. }
    rewrite Rmult_plus_distr_l, T1. eapply Rle_trans; [apply Rabs_triang|]. apply Rplus_le_compat; [|exact Ht].
    rewrite Rabs_mult, Rmult_comm. change (Rabs eps <= /2 * bpow radix2 (-53 + 1))%R in He. rewrite T2 in He. apply Rmult_le_compat; auto; apply Rabs_pos.
Qed.

Lemma b64_done : forall z x s, within s x 0%Qc -> (s <= b64_big)%Qc ->
  (if Rlt_bool (Rabs (b64_round (real x))) (bpow radix2 1024) then B2R z = b64_round (real x) /\ is_finite z = true else True) ->
  b64_fin z /\ within (b64_u * (s + b64_tiny))%Qc (b64_num z) x.
Proof.
  intros z x s Hx Hs H. apply real_within in Hx. rewrite real_0, Rminus_0_r in Hx. apply real_le in Hs. rewrite real_big in Hs.
  destruct (round_ok _ _ Hx Hs) as (R1 & R2). rewrite R1 in H. destruct H as (H1 & H2). split; [exact H2|].
  apply real_within. rewrite b64_num_real, H1, real_mult, real_plus. unfold b64_u, b64_tiny. rewrite !real_part. exact R2.
Qed.

Lemma b64_ofQ_rounds : forall q, if Rlt_bool (Rabs (b64_round (Q2R q))) (bpow radix2 1024) then B2R (b64_ofQ q) = b64_round (Q2R q) /\ is_finite (b64_ofQ q) = true else True.
Proof.
  intros [n d]. unfold b64_ofQ, Q2R. cbn [Qnum Qden]. destruct n as [|n|n].
  - rewrite Rmult_0_l, round_0 by apply valid_rnd_N. rewrite Rabs_R0, Rlt_bool_true by apply bpow_gt_0. split; reflexivity.
  - destruct (b64_ratio_rounds false n d) as (V & K). cbn [proj1]. fold (IZR (Zpos n) / IZR (Zpos d))%R.
    rewrite B2R_SF2B, is_finite_SF2B. destruct (Rlt_bool (Rabs (b64_round (IZR (Zpos n) / IZR (Zpos d)))) (bpow radix2 1024)); auto.
  - destruct (b64_ratio_rounds true n d) as (V & K). cbn [proj1].
    replace (IZR (Zneg n) * / IZR (Zpos d))%R with (- (IZR (Zpos n) / IZR (Zpos d)))%R by (change (Zneg n) with (- Zpos n)%Z; rewrite opp_IZR; unfold Rdiv; ring).
    rewrite B2R_SF2B, is_finite_SF2B. destruct (Rlt_bool (Rabs (b64_round (- (IZR (Zpos n) / IZR (Zpos d))))) (bpow radix2 1024)); auto.
Qed.

Lemma binary64_rounds : rounds binary64 b64_num b64_fin b64_big b64_u b64_tiny.
Proof.
  split.
  - vm_compute. discriminate.
  - apply real_le. rewrite real_0. unfold b64_tiny. rewrite real_part. apply bpow_ge_0.
  - intros q s Hs Hb. apply (b64_done _ _ _ Hs Hb). rewrite real_Q2Qc. apply b64_ofQ_rounds.
  - intros a b s Fa Fb Hs Hb. apply (b64_done _ _ _ Hs Hb). rewrite real_plus, !b64_num_real.
    assert (K := Bplus_correct 53 1024 prec_53 prec_emax_1024 mode_NE a b Fa Fb).
    destruct (Rlt_bool (Rabs (b64_round (B2R a + B2R b))) (bpow radix2 1024)); [|exact I]. split; apply K.
  - intros a b s Fa Fb Hs Hb. apply (b64_done _ _ _ Hs Hb). rewrite real_minus, !b64_num_real.
    assert (K := Bminus_correct 53 1024 prec_53 prec_emax_1024 mode_NE a b Fa Fb).
    destruct (Rlt_bool (Rabs (b64_round (B2R a - B2R b))) (bpow radix2 1024)); [|exact I]. split; apply K.
  - intros a b s Fa Fb Hs Hb. apply (b64_done _ _ _ Hs Hb). rewrite real_mult, !b64_num_real.
    assert (K := Bmult_correct 53 1024 prec_53 prec_emax_1024 mode_NE a b).
    destruct (Rlt_bool (Rabs (b64_round (B2R a * B2R b))) (bpow radix2 1024)); [|exact I]. destruct K as (K1 & K2 & _).
    split; [exact K1|]. change (is_finite (Bmult mode_NE a b) = true). rewrite K2. unfold b64_fin in Fa, Fb. rewrite Fa, Fb. reflexivity.
Qed.
