(** Rounding errors of one formula. *)
From Coq Require Import String List Bool Arith ZArith QArith Qcanon Lia Lqa.
From Verif Require Import Prelude PreludeFacts ArithM NdArray Units DataArrayM SpecDa Components Composite Steppers SpecSteppers SpecOrder
  StepAlgebra SpecConverge ConvergeAlg ConvergeMain SpecRound.
Import ListNotations.
Open Scope string_scope.
Open Scope nat_scope.
Open Scope list_scope.

Lemma within_le : forall e e' a b, within e a b -> (e <= e')%Qc -> within e' a b.
Proof. intros e e' a b (H1 & H2) H. split; qc_lra. Qed.

Lemma within_sum : forall e e' a b a' b', within e a b -> within e' a' b' -> within (e + e')%Qc (a + a')%Qc (b + b')%Qc.
Proof. intros e e' a b a' b' (H1 & H2) (H3 & H4). split; qc_lra. Qed.

Lemma within_diff : forall e e' a b a' b', within e a b -> within e' a' b' -> within (e + e')%Qc (a - a')%Qc (b - b')%Qc.
Proof. intros e e' a b a' b' (H1 & H2) (H3 & H4). split; qc_lra. Qed.

Lemma within_trans : forall e e' a b c, within e a b -> within e' b c -> within (e + e')%Qc a c.
Proof. intros e e' a b c (H1 & H2) (H3 & H4). split; qc_lra. Qed.

Lemma within_nonneg : forall e a b, within e a b -> (0 <= e)%Qc.
Proof. intros e a b (H1 & H2). qc_lra. Qed.

(** Products of sized numbers. *)
Lemma within_prod : forall s s' x y, within s x 0%Qc -> within s' y 0%Qc -> within (s * s')%Qc (x * y)%Qc 0%Qc.
Proof.
  intros s s' x y (H1 & H2) (H3 & H4).
  assert (A1 : (0 <= s - x)%Qc) by qc_lra. assert (A2 : (0 <= s + x)%Qc) by qc_lra.
  assert (B1 : (0 <= s' - y)%Qc) by qc_lra. assert (B2 : (0 <= s' + y)%Qc) by qc_lra.
  assert (P1 := mul_pos _ _ A1 B1). assert (P2 := mul_pos _ _ A2 B2). assert (P3 := mul_pos _ _ A1 B2). assert (P4 := mul_pos _ _ A2 B1).
  clear - P1 P2 P3 P4. split; qc_nra.
Qed.

Section Rel.
  Context {T : Type} (A : Arith T) (num : T -> Qc) (fin : T -> Prop) (big u tiny : Qc).
  Hypothesis RD : rounds A num fin big u tiny.

  (** [a] stands for about [x], of size [s], off by at most [(g - 1) s]. *)
  Definition rel (g s : Qc) (a : T) (x : Qc) : Prop :=
    (1 <= g)%Qc /\ fin a /\ within s x 0%Qc /\ within ((g - 1) * s)%Qc (num a) x.

  Lemma rel_size : forall g s a x, rel g s a x -> within (g * s)%Qc (num a) 0%Qc.
  Proof.
    intros g s a x (Hg & _ & Hs & H). eapply within_le; [eapply within_trans; [exact H|exact Hs]|]. apply eq_le. ring.
  Qed.

  Lemma rel_weaken : forall g g' s s' a x, rel g s a x -> (g <= g')%Qc -> (s <= s')%Qc -> rel g' s' a x.
  Proof.
    intros g g' s s' a x (Hg & Hf & Hs & H) Hgg Hss. assert (S0 := within_nonneg _ _ _ Hs).
    split; [qc_lra|]. split; [exact Hf|]. split; [eapply within_le; eauto|]. eapply within_le; [exact H|].
    eapply Qcle_trans; [apply (mul_le (g - 1)); [qc_lra|exact Hss]|].
    rewrite !(Qcmult_comm _ s'). apply mul_le; qc_lra.
  Qed.

  Lemma rel_exact : forall s a, fin a -> within s (num a) 0%Qc -> rel 1%Qc s a (num a).
  Proof.
    intros s a Hf Hs. split; [qc_lra|]. split; [exact Hf|]. split; [exact Hs|].
    replace ((1 - 1) * s)%Qc with 0%Qc by ring. split; qc_lra.
  Qed.

  (** One rounded operation. *)
  Lemma rel_op : forall g s r z x, (1 <= g)%Qc -> within s x 0%Qc -> within ((g - 1) * s)%Qc z x -> fin r ->
    within (u * (g * s + tiny))%Qc (num r) z -> rel (g * (1 + u))%Qc (s + tiny)%Qc r x.
  Proof.
    intros g s r z x Hg Hs Hz Hf Hr. destruct RD as [Hu Ht _ _ _ _]. assert (S0 := within_nonneg _ _ _ Hs).
    assert (Gu := mul_pos (g - 1) u ltac:(qc_lra) Hu).
    split; [replace (g * (1 + u))%Qc with (1 + (g - 1) + u + (g - 1) * u)%Qc by ring; generalize dependent ((g - 1) * u)%Qc; intros; qc_lra|].
    split; [exact Hf|]. split; [eapply within_le; [exact Hs|qc_lra]|].
    eapply within_le; [eapply within_trans; [exact Hr|exact Hz]|].
    replace (u * (g * s + tiny) + (g - 1) * s)%Qc with ((g * (1 + u) - 1) * s + u * tiny)%Qc by ring.
    replace ((g * (1 + u) - 1) * (s + tiny))%Qc with ((g * (1 + u) - 1) * s + u * tiny + ((g - 1) + (g - 1) * u) * tiny)%Qc by ring.
    assert (X : (0 <= ((g - 1) + (g - 1) * u) * tiny)%Qc) by (apply mul_pos; [generalize dependent ((g - 1) * u)%Qc; intros; qc_lra|exact Ht]).
    generalize dependent (((g - 1) + (g - 1) * u) * tiny)%Qc. generalize ((g * (1 + u) - 1) * s + u * tiny)%Qc. intros. qc_lra.
  Qed.

  Lemma rel_ofQ : forall q s, within s (Q2Qc q) 0%Qc -> (s <= big)%Qc -> rel (1 + u)%Qc (s + tiny)%Qc (aofQ q) (Q2Qc q).
  Proof.
    intros q s Hs Hb. destruct (rounds_ofQ _ _ _ _ _ _ RD q s Hs Hb) as (Hf & H).
    replace (1 + u)%Qc with (1 * (1 + u))%Qc by ring. eapply rel_op; [qc_lra|exact Hs| |exact Hf|].
    - instantiate (1 := Q2Qc q). replace ((1 - 1) * s)%Qc with 0%Qc by ring. split; qc_lra.
    - replace (1 * s)%Qc with s by ring. exact H.
  Qed.

  Lemma rel_add : forall g s s' a b x y, rel g s a x -> rel g s' b y -> (g * (s + s') <= big)%Qc ->
    rel (g * (1 + u))%Qc (s + s' + tiny)%Qc (aadd a b) (x + y)%Qc.
  Proof.
    intros g s s' a b x y H1 H2 Hb. assert (Z1 := rel_size _ _ _ _ H1). assert (Z2 := rel_size _ _ _ _ H2).
    destruct H1 as (Hg & F1 & S1 & W1). destruct H2 as (_ & F2 & S2 & W2).
    destruct (rounds_add _ _ _ _ _ _ RD a b (g * (s + s'))%Qc F1 F2) as (Hf & H); [|exact Hb|].
    { assert (Z := within_sum _ _ _ _ _ _ Z1 Z2). replace (0 + 0)%Qc with 0%Qc in Z by ring. eapply within_le; [exact Z|]. apply eq_le. ring. }
    eapply rel_op; [exact Hg| | |exact Hf|exact H].
    - assert (Z := within_sum _ _ _ _ _ _ S1 S2). replace (0 + 0)%Qc with 0%Qc in Z by ring. exact Z.
    - eapply within_le; [apply (within_sum _ _ _ _ _ _ W1 W2)|]. apply eq_le. ring.
  Qed.

  Lemma rel_sub : forall g s s' a b x y, rel g s a x -> rel g s' b y -> (g * (s + s') <= big)%Qc ->
    rel (g * (1 + u))%Qc (s + s' + tiny)%Qc (asub a b) (x - y)%Qc.
  Proof.
    intros g s s' a b x y H1 H2 Hb. assert (Z1 := rel_size _ _ _ _ H1). assert (Z2 := rel_size _ _ _ _ H2).
    destruct H1 as (Hg & F1 & S1 & W1). destruct H2 as (_ & F2 & S2 & W2).
    destruct (rounds_sub _ _ _ _ _ _ RD a b (g * (s + s'))%Qc F1 F2) as (Hf & H); [|exact Hb|].
    { assert (Z := within_diff _ _ _ _ _ _ Z1 Z2). replace (0 - 0)%Qc with 0%Qc in Z by ring. eapply within_le; [exact Z|]. apply eq_le. ring. }
    eapply rel_op; [exact Hg| | |exact Hf|exact H].
    - assert (Z := within_diff _ _ _ _ _ _ S1 S2). replace (0 - 0)%Qc with 0%Qc in Z by ring. exact Z.
    - eapply within_le; [apply (within_diff _ _ _ _ _ _ W1 W2)|]. apply eq_le. ring.
  Qed.

  Lemma rel_mul : forall g g' s s' a b x y, rel g s a x -> rel g' s' b y -> (g * g' * (s * s') <= big)%Qc ->
    rel (g * g' * (1 + u))%Qc (s * s' + tiny)%Qc (amul a b) (x * y)%Qc.
  Proof.
    intros g g' s s' a b x y H1 H2 Hb. assert (Z1 := rel_size _ _ _ _ H1). assert (Z2 := rel_size _ _ _ _ H2).
    destruct H1 as (Hg & F1 & S1 & W1). destruct H2 as (Hg' & F2 & S2 & W2).
    assert (T0 := within_nonneg _ _ _ S1). assert (T1 := within_nonneg _ _ _ S2).
    destruct (rounds_mul _ _ _ _ _ _ RD a b (g * g' * (s * s'))%Qc F1 F2) as (Hf & H); [|exact Hb|].
    { eapply within_le; [apply (within_prod _ _ _ _ Z1 Z2)|]. apply eq_le. ring. }
    eapply rel_op; [|apply (within_prod _ _ _ _ S1 S2)| |exact Hf|exact H].
    - replace (g * g')%Qc with (1 + (g - 1) + (g' - 1) + (g - 1) * (g' - 1))%Qc by ring.
      assert (X := mul_pos (g - 1) (g' - 1) ltac:(qc_lra) ltac:(qc_lra)). generalize dependent ((g - 1) * (g' - 1))%Qc. intros. qc_lra.
    - (* a b - x y = (a - x) b + x (b - y) *)
      assert (D1 : within ((g - 1) * s)%Qc (num a - x)%Qc 0%Qc) by (destruct W1; split; qc_lra).
      assert (D2 : within ((g' - 1) * s')%Qc (num b - y)%Qc 0%Qc) by (destruct W2; split; qc_lra).
      assert (P1 := within_prod _ _ _ _ D1 Z2). assert (P2 := within_prod _ _ _ _ S1 D2).
      assert (P := within_sum _ _ _ _ _ _ P1 P2). replace (0 + 0)%Qc with 0%Qc in P by ring.
      replace ((num a - x) * num b + x * (num b - y))%Qc with (num a * num b - x * y)%Qc in P by ring.
      replace ((g - 1) * s * (g' * s') + s * ((g' - 1) * s'))%Qc with ((g * g' - 1) * (s * s'))%Qc in P by ring.
      destruct P as (P3 & P4). generalize dependent ((g * g' - 1) * (s * s'))%Qc. clear. intros q P3 P4. split; qc_lra.
  Qed.
End Rel.

Lemma sizes_ofQ : forall tiny q, (0 <= Q2Qc q)%Qc -> @aofQ Qc (sizes tiny) q = (Q2Qc q + tiny)%Qc.
Proof. intros tiny q H. cbn [aofQ sizes]. destruct (Qclt_le_dec (Q2Qc q) 0) as [L|L]; [|reflexivity]. exfalso. qc_lra. Qed.

Section Formula.
  Context {T : Type} (A : Arith T) (num : T -> Qc) (fin : T -> Prop) (big u tiny : Qc).
  Hypothesis RD : rounds A num fin big u tiny.
  Notation p := (1 + u)%Qc.

  Lemma p_pow : forall k l, k <= l -> (1 <= p ^ k)%Qc /\ (p ^ k <= p ^ l)%Qc.
  Proof.
    assert (Hu := rounds_u _ _ _ _ _ _ RD). assert (Hp : (1 <= p)%Qc) by qc_lra.
    assert (H1 : forall k, (1 <= p ^ k)%Qc).
    { induction k as [|k IH]; cbn [Qcpower]; [qc_lra|]. assert (X := mul_le p 1%Qc (p ^ k)%Qc ltac:(qc_lra) IH). replace (p * 1)%Qc with p in X by ring.
      generalize dependent (p * p ^ k)%Qc. intros. qc_lra. }
    intros k l H. split; [apply H1|]. induction H as [|l H IH]; [apply Qcle_refl|].
    eapply Qcle_trans; [exact IH|]. cbn [Qcpower]. assert (X := H1 l). assert (Y := mul_le (p ^ l)%Qc 1%Qc p ltac:(generalize dependent (p ^ l)%Qc; intros; qc_lra) Hp).
    replace (p ^ l * 1)%Qc with (p ^ l)%Qc in Y by ring. rewrite (Qcmult_comm (p ^ l)) in Y. exact Y.
  Qed.

  (** Off by [k] roundings. *)
  Definition off (k : nat) (s : Qc) (a : T) (x : Qc) : Prop := rel num fin (p ^ k)%Qc s a x.

  Lemma off_nonneg : forall k s a x, off k s a x -> (0 <= s)%Qc.
  Proof. intros k s a x (_ & _ & H & _). eapply within_nonneg; eauto. Qed.

  Lemma off_le : forall k l s a x, off k s a x -> k <= l -> off l s a x.
  Proof. intros k l s a x H Hk. eapply rel_weaken; [exact H|apply p_pow; exact Hk|apply Qcle_refl]. Qed.

  Lemma fit : forall k s, k <= 8 -> (0 <= s)%Qc -> (p ^ 8 * s <= big)%Qc -> (p ^ k * s <= big)%Qc.
  Proof.
    intros k s Hk Hs H. eapply Qcle_trans; [|exact H]. rewrite !(Qcmult_comm _ s). apply mul_le; [exact Hs|]. apply p_pow. exact Hk.
  Qed.

  Lemma off_add : forall k s s' a b x y, off k s a x -> off k s' b y -> k <= 8 -> (p ^ 8 * (s + s') <= big)%Qc ->
    off (S k) (s + s' + tiny)%Qc (aadd a b) (x + y)%Qc.
  Proof.
    intros k s s' a b x y H1 H2 Hk Hb. unfold off. cbn [Qcpower]. rewrite (Qcmult_comm p). apply (rel_add A num fin big u tiny RD); auto.
    apply fit; auto. assert (X := off_nonneg _ _ _ _ H1). assert (Y := off_nonneg _ _ _ _ H2). qc_lra.
  Qed.

  Lemma off_sub : forall k s s' a b x y, off k s a x -> off k s' b y -> k <= 8 -> (p ^ 8 * (s + s') <= big)%Qc ->
    off (S k) (s + s' + tiny)%Qc (asub a b) (x - y)%Qc.
  Proof.
    intros k s s' a b x y H1 H2 Hk Hb. unfold off. cbn [Qcpower]. rewrite (Qcmult_comm p). apply (rel_sub A num fin big u tiny RD); auto.
    apply fit; auto. assert (X := off_nonneg _ _ _ _ H1). assert (Y := off_nonneg _ _ _ _ H2). qc_lra.
  Qed.

  Lemma p_add : forall k l, (p ^ k * p ^ l = p ^ (k + l))%Qc.
  Proof. intros k l. induction k as [|k IH]; cbn [Qcpower Nat.add]; [ring|]. rewrite <- IH. ring. Qed.

  Lemma off_mul : forall k l s s' a b x y, off k s a x -> off l s' b y -> k + l <= 8 -> (p ^ 8 * (s * s') <= big)%Qc ->
    off (S (k + l)) (s * s' + tiny)%Qc (amul a b) (x * y)%Qc.
  Proof.
    intros k l s s' a b x y H1 H2 Hk Hb. unfold off. cbn [Qcpower]. rewrite (Qcmult_comm p), <- p_add. apply (rel_mul A num fin big u tiny RD); auto.
    rewrite p_add. apply fit; auto. apply mul_pos; eapply off_nonneg; eauto.
  Qed.

  Lemma off_ofQ : forall q, (0 <= Q2Qc q)%Qc -> (Q2Qc q <= big)%Qc -> off 1 (Q2Qc q + tiny)%Qc (aofQ q) (Q2Qc q).
  Proof.
    intros q H Hb. unfold off. cbn [Qcpower]. replace (p * 1)%Qc with p by ring. apply (rel_ofQ A num fin big u tiny RD); [|exact Hb]. split; qc_lra.
  Qed.

  Lemma off_exact : forall s a, fin a -> within s (num a) 0%Qc -> off 0 s a (num a).
  Proof. intros s a Hf Hs. apply rel_exact; auto. Qed.

  Lemma below : forall s s', (s <= s')%Qc -> (p ^ 8 * s' <= big)%Qc -> (p ^ 8 * s <= big)%Qc.
  Proof.
    intros s s' H Hb. eapply Qcle_trans; [|exact Hb]. apply mul_le; auto. destruct (p_pow 8 8 (le_n _)) as (X & _).
    generalize dependent (p ^ 8)%Qc. intros. qc_lra.
  Qed.

  Lemma euler_off : forall q x y V F, (0 <= Q2Qc q)%Qc -> fin x -> fin y -> within V (num x) 0%Qc -> within F (num y) 0%Qc ->
    ab_fits big u tiny (Q2Qc q) V F 1 ->
    off 8 (ab_size_of tiny (Q2Qc q) V F 1) (aadd x (amul y (aofQ q))) (num x + num y * Q2Qc q)%Qc.
  Proof.
    intros q x y V F Hq Fx Fy Sx Sy (B & B3). unfold ab_size_of. cbn [repeat ab_formula aadd amul sizes] in *.
    assert (Ht := rounds_tiny _ _ _ _ _ _ RD). set (H := (Q2Qc q + tiny)%Qc) in *. assert (HH : (0 <= H)%Qc) by (unfold H; qc_lra).
    assert (HV := within_nonneg _ _ _ Sx). assert (HF := within_nonneg _ _ _ Sy). assert (P1 := mul_pos _ _ HF HH).
    replace (F * (1 + H))%Qc with (F + F * H)%Qc in B by ring.
    apply (off_le 3); [|lia]. apply off_add; [apply (off_le 0); [apply off_exact; auto|lia]| |lia|].
    - apply (off_mul 0 1); [apply off_exact; auto|apply off_ofQ; auto; qc_lra|lia|]. eapply below; [|exact B]. generalize dependent (F * H)%Qc. intros. qc_lra.
    - eapply below; [|exact B]. generalize dependent (F * H)%Qc. intros. qc_lra.
  Qed.

  Lemma term_off : forall q y F, (0 <= Q2Qc q)%Qc -> (Q2Qc q <= big)%Qc -> fin y -> within F (num y) 0%Qc ->
    (p ^ 8 * ((Q2Qc q + tiny) * F + tiny) <= big)%Qc ->
    off 2 ((Q2Qc q + tiny) * F + tiny)%Qc (amul (aofQ q) y) (Q2Qc q * num y)%Qc.
  Proof.
    intros q y F Hq Hb Fy Sy B. assert (Ht := rounds_tiny _ _ _ _ _ _ RD).
    apply (off_mul 1 0); [apply off_ofQ; auto|apply off_exact; auto|lia|]. eapply below; [|exact B].
    generalize ((Q2Qc q + tiny) * F)%Qc. intros. qc_lra.
  Qed.

  (** The last two operations of a step. *)
  Lemma last_off : forall q x a k I V z, (0 <= Q2Qc q)%Qc -> fin x -> within V (num x) 0%Qc -> off k I a z -> k <= 5 ->
    (p ^ 8 * (V + ((1 + (Q2Qc q + tiny)) * I + tiny) + tiny) <= big)%Qc -> (Q2Qc q + Q2Qc (3 # 1) <= big)%Qc ->
    off 8 (V + ((Q2Qc q + tiny) * I + tiny) + tiny)%Qc (aadd x (amul (aofQ q) a)) (num x + Q2Qc q * z)%Qc.
  Proof.
    intros q x a k I V z Hq Fx Sx Ha Hk B B3. assert (Ht := rounds_tiny _ _ _ _ _ _ RD).
    assert (HI := off_nonneg _ _ _ _ Ha). assert (HV := within_nonneg _ _ _ Sx).
    assert (Hqb : (Q2Qc q <= big)%Qc) by (clear - B3; generalize dependent (Q2Qc q); intros; qc_lra).
    assert (O := off_ofQ q Hq Hqb).
    assert (HH : (0 <= Q2Qc q + tiny)%Qc) by (clear - Hq Ht; generalize dependent (Q2Qc q); intros; qc_lra).
    generalize dependent (Q2Qc q + tiny)%Qc. generalize dependent (Q2Qc q). intros h Hh B3 Hhb H HB O0 HH. clear Hh B3 Hhb.
    assert (PH := mul_pos _ _ HH HI). replace ((1 + H) * I)%Qc with (I + H * I)%Qc in HB by ring.
    apply (off_le (S (S (1 + k)))); [|lia]. apply off_add; [apply (off_le 0); [apply off_exact; auto|lia]| |lia|].
    - apply (off_mul 1 k); [exact O0|exact Ha|lia|]. eapply below; [|exact HB]. clear - PH HI HV Ht. generalize dependent (H * I)%Qc. intros. qc_lra.
    - eapply below; [|exact HB]. clear - PH HI HV Ht. generalize dependent (H * I)%Qc. intros. qc_lra.
  Qed.

  Lemma inner_fits : forall H I V, (0 <= H)%Qc -> (0 <= I)%Qc -> (0 <= V)%Qc -> (p ^ 8 * (V + ((1 + H) * I + tiny) + tiny) <= big)%Qc -> (p ^ 8 * I <= big)%Qc.
  Proof.
    intros H I V HH HI HV B. eapply below; [|exact B]. assert (Ht := rounds_tiny _ _ _ _ _ _ RD). assert (PH := mul_pos _ _ HH HI).
    replace ((1 + H) * I)%Qc with (I + H * I)%Qc by ring. generalize dependent (H * I)%Qc. intros. qc_lra.
  Qed.

  Lemma two_off : forall A1 A2 a1 a2 x1 x2, (0 <= A1)%Qc -> (0 <= A2)%Qc ->
    ((p ^ 8 * A1 <= big)%Qc -> off 2 A1 a1 x1) -> ((p ^ 8 * A2 <= big)%Qc -> off 2 A2 a2 x2) ->
    (p ^ 8 * (A1 + A2 + tiny) <= big)%Qc -> off 3 (A1 + A2 + tiny)%Qc (asub a1 a2) (x1 - x2)%Qc.
  Proof.
    intros A1 A2 a1 a2 x1 x2 H1 H2 O1 O2 B. assert (Ht := rounds_tiny _ _ _ _ _ _ RD).
    apply off_sub; [apply O1|apply O2|lia|]; (eapply below; [|exact B]); qc_lra.
  Qed.

  Lemma plus_off : forall k A1 A2 a1 a2 x1 x2, (0 <= A1)%Qc -> (0 <= A2)%Qc -> 2 <= k <= 4 ->
    ((p ^ 8 * A1 <= big)%Qc -> off k A1 a1 x1) -> ((p ^ 8 * A2 <= big)%Qc -> off 2 A2 a2 x2) ->
    (p ^ 8 * (A1 + A2 + tiny) <= big)%Qc -> off (S k) (A1 + A2 + tiny)%Qc (aadd a1 a2) (x1 + x2)%Qc.
  Proof.
    intros k A1 A2 a1 a2 x1 x2 H1 H2 Hk O1 O2 B. assert (Ht := rounds_tiny _ _ _ _ _ _ RD).
    apply off_add; [apply O1|apply (off_le 2); [apply O2|lia]|lia|]; (eapply below; [|exact B]); qc_lra.
  Qed.

  Lemma minus_off : forall k A1 A2 a1 a2 x1 x2, (0 <= A1)%Qc -> (0 <= A2)%Qc -> 2 <= k <= 4 ->
    ((p ^ 8 * A1 <= big)%Qc -> off k A1 a1 x1) -> ((p ^ 8 * A2 <= big)%Qc -> off 2 A2 a2 x2) ->
    (p ^ 8 * (A1 + A2 + tiny) <= big)%Qc -> off (S k) (A1 + A2 + tiny)%Qc (asub a1 a2) (x1 - x2)%Qc.
  Proof.
    intros k A1 A2 a1 a2 x1 x2 H1 H2 Hk O1 O2 B. assert (Ht := rounds_tiny _ _ _ _ _ _ RD).
    apply off_sub; [apply O1|apply (off_le 2); [apply O2|lia]|lia|]; (eapply below; [|exact B]); qc_lra.
  Qed.

  Lemma term_nonneg : forall q F, (0 <= Q2Qc q)%Qc -> (0 <= F)%Qc -> (0 <= (Q2Qc q + tiny) * F + tiny)%Qc.
  Proof.
    intros q F Hq HF. assert (Ht := rounds_tiny _ _ _ _ _ _ RD). assert (X : (0 <= (Q2Qc q + tiny) * F)%Qc) by (apply mul_pos; [generalize dependent (Q2Qc q); intros; qc_lra|exact HF]).
    generalize dependent ((Q2Qc q + tiny) * F)%Qc. intros. qc_lra.
  Qed.

  Lemma sum_nonneg : forall a b, (0 <= a)%Qc -> (0 <= b)%Qc -> (0 <= a + b + tiny)%Qc.
  Proof. intros a b Ha Hb. assert (Ht := rounds_tiny _ _ _ _ _ _ RD). qc_lra. Qed.

  (** The weights of the formulas. *)
  Definition weight_ok (q : Q) : Prop := (0 <= Q2Qc q)%Qc /\ (Q2Qc q <= Q2Qc (3 # 1))%Qc.

  Lemma weights_ok : weight_ok (3 # 2) /\ weight_ok (1 # 2) /\ weight_ok (23 # 12) /\ weight_ok (4 # 3) /\ weight_ok (5 # 12) /\
    weight_ok (55 # 24) /\ weight_ok (59 # 24) /\ weight_ok (37 # 24) /\ weight_ok (3 # 8).
  Proof. unfold weight_ok. repeat match goal with |- _ /\ _ => split end; vm_compute; discriminate. Qed.

  Lemma sizes_weight : forall q, weight_ok q -> @aofQ Qc (sizes tiny) q = (Q2Qc q + tiny)%Qc.
  Proof. intros q (H & _). apply sizes_ofQ. exact H. Qed.

  (** One Adams-Bashforth step of order 1 to 4. *)
  Lemma ab_off : forall q x ys V F, (0 <= Q2Qc q)%Qc -> fin x -> within V (num x) 0%Qc -> Forall (fun y => fin y /\ within F (num y) 0%Qc) ys ->
    1 <= length ys <= 4 -> ab_fits big u tiny (Q2Qc q) V F (length ys) ->
    off 8 (ab_size_of tiny (Q2Qc q) V F (length ys)) (ab_formula (aofQ q) x ys)
      (num x + Q2Qc q * dot (ab_weights (length ys)) (map num ys))%Qc.
  Proof.
    intros q x ys V F Hq Fx Sx Hys Hl (B & B3). assert (HV := within_nonneg _ _ _ Sx). assert (Ht := rounds_tiny _ _ _ _ _ _ RD).
    assert (HF : (0 <= F)%Qc) by (destruct Hys as [|y ys (_ & X) _]; [simpl in Hl; lia|eapply within_nonneg; eauto]).
    assert (HH : (0 <= Q2Qc q + tiny)%Qc) by (clear - Hq Ht; generalize dependent (Q2Qc q); intros; qc_lra).
    assert (W3 : forall w, weight_ok w -> (Q2Qc w <= big)%Qc).
    { intros w (_ & Hw). clear - Hw B3 Hq. generalize dependent (Q2Qc w). generalize dependent (Q2Qc q). intros. qc_lra. }
    assert (TM : forall w y, weight_ok w -> fin y /\ within F (num y) 0%Qc -> (p ^ 8 * ((Q2Qc w + tiny) * F + tiny) <= big)%Qc ->
      off 2 ((Q2Qc w + tiny) * F + tiny)%Qc (amul (aofQ w) y) (Q2Qc w * num y)%Qc).
    { intros w y Hw (Hy1 & Hy2) Hb. apply term_off; auto. apply Hw. }
    assert (TN : forall w, weight_ok w -> (0 <= (Q2Qc w + tiny) * F + tiny)%Qc) by (intros w Hw; apply term_nonneg; [apply Hw|exact HF]).
    destruct weights_ok as (W32 & W12 & W23 & W43 & W5 & W55 & W59 & W37 & W38).
    destruct Hys as [|y1 ys Y1 Hys]; [simpl in Hl; lia|].
    destruct Hys as [|y2 ys Y2 Hys].
    { assert (E := euler_off q x y1 V F Hq Fx (proj1 Y1) Sx (proj2 Y1) (conj B B3)). cbn [length map ab_formula ab_weights dot].
      replace (num x + Q2Qc q * (1 * num y1 + 0))%Qc with (num x + num y1 * Q2Qc q)%Qc by ring. exact E. }
    destruct Hys as [|y3 ys Y3 Hys].
    { cbn [length map ab_formula ab_weights dot]. unfold ab_size_of. cbn [length repeat ab_formula] in B |- *. rewrite !sizes_weight in * by assumption. cbn [aadd amul asub sizes] in B |- *.
      replace (Q2Qc (3 # 2) * num y1 + (Q2Qc (- 1 # 2) * num y2 + 0))%Qc with (Q2Qc (3 # 2) * num y1 - Q2Qc (1 # 2) * num y2)%Qc by qc_ring.
      eapply (last_off q x _ 3); auto. assert (Bi := inner_fits _ _ _ HH (sum_nonneg _ _ (TN _ W32) (TN _ W12)) HV B).
      apply two_off; auto. }
    destruct Hys as [|y4 ys Y4 Hys].
    { cbn [length map ab_formula ab_weights dot]. unfold ab_size_of. cbn [length repeat ab_formula] in B |- *. rewrite !sizes_weight in * by assumption. cbn [aadd amul asub sizes] in B |- *.
      replace (Q2Qc (23 # 12) * num y1 + (Q2Qc (- 16 # 12) * num y2 + (Q2Qc (5 # 12) * num y3 + 0)))%Qc
        with (Q2Qc (23 # 12) * num y1 - Q2Qc (4 # 3) * num y2 + Q2Qc (5 # 12) * num y3)%Qc by qc_ring.
      eapply (last_off q x _ 4); auto. assert (S1 := sum_nonneg _ _ (TN _ W23) (TN _ W43)). assert (Bi := inner_fits _ _ _ HH (sum_nonneg _ _ S1 (TN _ W5)) HV B).
      apply plus_off; auto. intros Bj. apply two_off; auto. }
    destruct Hys as [|y5 ys Y5 Hys]; [|simpl in Hl; lia].
    cbn [length map ab_formula ab_weights dot]. unfold ab_size_of. cbn [length repeat ab_formula] in B |- *. rewrite !sizes_weight in * by assumption. cbn [aadd amul asub sizes] in B |- *.
    replace (Q2Qc (55 # 24) * num y1 + (Q2Qc (- 59 # 24) * num y2 + (Q2Qc (37 # 24) * num y3 + (Q2Qc (- 9 # 24) * num y4 + 0))))%Qc
      with (Q2Qc (55 # 24) * num y1 - Q2Qc (59 # 24) * num y2 + Q2Qc (37 # 24) * num y3 - Q2Qc (3 # 8) * num y4)%Qc by qc_ring.
    eapply (last_off q x _ 5); auto. assert (S1 := sum_nonneg _ _ (TN _ W55) (TN _ W59)). assert (S2 := sum_nonneg _ _ S1 (TN _ W37)).
    assert (Bi := inner_fits _ _ _ HH (sum_nonneg _ _ S2 (TN _ W38)) HV B).
    apply minus_off; auto. intros Bj. apply plus_off; auto. intros Bk. apply two_off; auto.
  Qed.
End Formula.
