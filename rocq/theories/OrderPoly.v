(** Main lemmas for C90: polynomial systems. *)
From Coq Require Import String List Bool Arith ZArith QArith Qcanon Lia.
From Verif Require Import Prelude PreludeFacts ArithM NdArray NdFacts Units DataArrayM GetNp SpecUnits UnitsFacts SpecDa DaFacts
  Components Composite SpecComposite Steppers SpecSteppers SteppersFacts RKFacts StepAlgebra StepRuns StepExact SpecOrder SpecOrderPoly OrderMain.
Import ListNotations.
Open Scope string_scope.
Open Scope nat_scope.
Open Scope list_scope.

(** ** Polynomials *)

Lemma peval_padd : forall p q t, peval (padd p q) t = (peval p t + peval q t)%Qc.
Proof.
  induction p as [|a p IH]; intros [|b q] t; cbn [padd peval]; try ring. rewrite IH. ring.
Qed.

Lemma peval_scale : forall a q t, peval (map (Qcmult a) q) t = (a * peval q t)%Qc.
Proof. intros a q t. induction q as [|b q IH]; cbn [map peval]; [ring|rewrite IH; ring]. Qed.

Lemma peval_pmul : forall p q t, peval (pmul p q) t = (peval p t * peval q t)%Qc.
Proof.
  induction p as [|a p IH]; intros q t; cbn [pmul peval]; [ring|]. rewrite peval_padd, peval_scale. cbn [peval]. rewrite IH. ring.
Qed.

Lemma coef_nil : forall k, coef k [] = 0%Qc.
Proof. intros [|k]; reflexivity. Qed.

Lemma coef_padd : forall k p q, coef k (padd p q) = (coef k p + coef k q)%Qc.
Proof.
  induction k as [|k IH]; intros [|a p] [|b q]; cbn [padd]; rewrite ?coef_nil; try ring; cbn [coef nth]; [ring|].
  apply IH.
Qed.

Lemma coef_scale : forall k a q, coef k (map (Qcmult a) q) = (a * coef k q)%Qc.
Proof. induction k as [|k IH]; intros a [|b q]; cbn [map coef nth]; try ring. apply (IH a q). Qed.

Lemma coef_pmul_cons : forall k a p q, coef (S k) (pmul (a :: p) q) = (a * coef (S k) q + coef k (pmul p q))%Qc.
Proof. intros. cbn [pmul]. rewrite coef_padd, coef_scale. reflexivity. Qed.

Lemma coef0_pmul : forall p q, coef 0 (pmul p q) = (coef 0 p * coef 0 q)%Qc.
Proof. intros [|a p] q; [cbn; ring|]. cbn [pmul]. rewrite coef_padd, coef_scale.
  change (coef 0 (0%Qc :: pmul p q)) with 0%Qc. change (coef 0 (a :: p)) with a. ring. Qed.

Lemma coef1_pmul : forall p q, coef 1 (pmul p q) = (coef 0 p * coef 1 q + coef 1 p * coef 0 q)%Qc.
Proof. intros [|a p] q; [cbn; ring|]. rewrite coef_pmul_cons, coef0_pmul. reflexivity. Qed.

Lemma coef2_pmul : forall p q, coef 2 (pmul p q) = (coef 0 p * coef 2 q + coef 1 p * coef 1 q + coef 2 p * coef 0 q)%Qc.
Proof. intros [|a p] q; [cbn; ring|]. rewrite coef_pmul_cons, coef1_pmul.
  change (coef 0 (a :: p)) with a. change (coef 1 (a :: p)) with (coef 0 p). change (coef 2 (a :: p)) with (coef 1 p). ring. Qed.

(** Coefficients of a product depend on those of the factors up to the same power. *)
Lemma coef_pmul_agree : forall k p p' q q', (forall j, j <= k -> coef j p = coef j p') -> (forall j, j <= k -> coef j q = coef j q') ->
  coef k (pmul p q) = coef k (pmul p' q').
Proof.
  induction k as [|k IH]; intros p p' q q' Hp Hq.
  - rewrite !coef0_pmul, (Hp 0), (Hq 0) by lia. reflexivity.
  - assert (E : forall r, coef (S k) (pmul r q) = (coef 0 r * coef (S k) q + coef k (pmul (tl r) q))%Qc).
    { intros [|a r]; [cbn [pmul tl]; rewrite !coef_nil; ring|apply coef_pmul_cons]. }
    assert (E' : forall r, coef (S k) (pmul r q') = (coef 0 r * coef (S k) q' + coef k (pmul (tl r) q'))%Qc).
    { intros [|a r]; [cbn [pmul tl]; rewrite !coef_nil; ring|apply coef_pmul_cons]. }
    rewrite E, E', (Hp 0), (Hq (S k)) by lia. f_equal. apply IH; [|intros j Hj; apply Hq; lia].
    assert (Ht : forall j r, coef j (tl r) = coef (S j) r) by (intros j [|a r]; [apply coef_nil|reflexivity]).
    intros j Hj. rewrite !Ht. apply Hp. lia.
Qed.

Lemma Qc_of_nat_S : forall k, Q2Qc (inject_Z (Z.of_nat (S k))) = (Q2Qc (inject_Z (Z.of_nat k)) + 1)%Qc.
Proof.
  intros k. apply Qc_is_canon. cbn [this Qcplus Q2Qc]. rewrite !Qred_correct, Nat2Z.inj_succ. unfold Z.succ.
  rewrite inject_Z_plus. reflexivity.
Qed.

Lemma Qc_of_nat_nz : forall k, Q2Qc (inject_Z (Z.of_nat (S k))) <> 0%Qc.
Proof.
  intros k E. apply (f_equal this) in E. cbn [this Q2Qc] in E.
  assert (H : inject_Z (Z.of_nat (S k)) == 0%Q) by (rewrite <- (Qred_correct (inject_Z (Z.of_nat (S k)))), E; reflexivity).
  unfold Qeq, inject_Z in H. cbn [Qnum Qden] in H. lia.
Qed.

Lemma Qcmult_cancel : forall a x y : Qc, a <> 0%Qc -> (a * x = a * y)%Qc -> x = y.
Proof.
  intros a x y Ha E. rewrite <- (Qcmult_1_l x), <- (Qcmult_1_l y), <- (Qcmult_inv_l a Ha), <- !Qcmult_assoc, E. reflexivity.
Qed.

Lemma coef_pderiv_from : forall k n p, coef k (pderiv_from n p) = ((n + Q2Qc (inject_Z (Z.of_nat k))) * coef k p)%Qc.
Proof.
  induction k as [|k IH]; intros n [|a p]; cbn [pderiv_from]; rewrite ?coef_nil; try ring.
  - unfold coef at 1 2. cbn [nth]. replace (Q2Qc (inject_Z (Z.of_nat 0))) with 0%Qc by (apply Qc_is_canon; reflexivity). ring.
  - change (coef (S k) ((n * a)%Qc :: pderiv_from (n + 1) p)) with (coef k (pderiv_from (n + 1) p)).
    change (coef (S k) (a :: p)) with (coef k p). rewrite IH, Qc_of_nat_S. ring.
Qed.

Lemma coef_pderiv : forall k p, coef k (pderiv p) = (Q2Qc (inject_Z (Z.of_nat (S k))) * coef (S k) p)%Qc.
Proof.
  intros k [|a p]; cbn [pderiv]; [rewrite !coef_nil; ring|]. rewrite coef_pderiv_from, Qc_of_nat_S.
  change (coef (S k) (a :: p)) with (coef k p). ring.
Qed.

Lemma peval_0 : forall p, peval p 0%Qc = coef 0 p.
Proof. intros [|a p]; cbn [peval coef nth]; [reflexivity|ring]. Qed.

(** ** Right-hand sides along curves *)

Lemma peval_along : forall P e t, peval (along P e) t = eval (fun X c => peval (P X c) t) e.
Proof.
  intros P e t. induction e as [q|X c|e1 IH1 e2 IH2|e1 IH1 e2 IH2]; cbn [along eval peval].
  - ring.
  - reflexivity.
  - rewrite peval_padd, IH1, IH2. reflexivity.
  - rewrite peval_pmul, IH1, IH2. reflexivity.
Qed.

Lemma eval_agree : forall G v w e, about G e -> agree G v w -> eval v e = eval w e.
Proof.
  intros G v w e He H. induction e as [q|X c|e1 IH1 e2 IH2|e1 IH1 e2 IH2]; cbn [eval about] in *; auto.
  - destruct He. rewrite IH1, IH2; auto.
  - destruct He. rewrite IH1, IH2; auto.
Qed.

Lemma coef_along_agree : forall G P Q e k, about G e -> (forall X c j, G X c -> j <= k -> coef j (P X c) = coef j (Q X c)) ->
  coef k (along P e) = coef k (along Q e).
Proof.
  intros G P Q e. induction e as [q|X c|e1 IH1 e2 IH2|e1 IH1 e2 IH2]; intros k He H; cbn [along about] in *; auto.
  - destruct He. rewrite !coef_padd, IH1, IH2; auto.
  - destruct He. apply coef_pmul_agree; intros j Hj; [apply IH1|apply IH2]; auto; intros; apply H; auto; lia.
Qed.

(** Two curves that solve the system to the same order agree up to that power. *)
Lemma solves_unique : forall n G F now v P Q, closed_system G F -> solves n G F now v P -> solves n G F now v Q ->
  forall X c k, G X c -> k <= n -> coef k (P X c) = coef k (Q X c).
Proof.
  intros n G F now v P Q Hc HP HQ X c k. revert X c. induction k as [k IH] using lt_wf_ind. intros X c HG Hk.
  destruct k as [|k].
  - rewrite (proj1 (HP X c HG)), (proj1 (HQ X c HG)). reflexivity.
  - assert (E := proj2 (HP X c HG) k ltac:(lia)). assert (E' := proj2 (HQ X c HG) k ltac:(lia)).
    rewrite (coef_along_agree G P Q) in E.
    + rewrite <- E', !coef_pderiv in E. apply (Qcmult_cancel _ _ _ (Qc_of_nat_nz k) E).
    + apply (Hc now X c HG).
    + intros X' c' j HG' Hj. apply IH; auto; lia.
Qed.

(** ** First and second derivatives of a right-hand side *)

Fixpoint d1 (e : rhs) (v a : field) : Qc :=
  match e with
  | Const _ => 0%Qc
  | Value X c => a X c
  | Plus e f => (d1 e v a + d1 f v a)%Qc
  | Times e f => (d1 e v a * eval v f + eval v e * d1 f v a)%Qc
  end.

(** Half the second derivative. *)
Fixpoint d2 (e : rhs) (v a : field) : Qc :=
  match e with
  | Const _ => 0%Qc
  | Value X c => 0%Qc
  | Plus e f => (d2 e v a + d2 f v a)%Qc
  | Times e f => (d2 e v a * eval v f + d1 e v a * d1 f v a + eval v e * d2 f v a)%Qc
  end.

Lemma d1_scale : forall e v s a, d1 e v (fun X c => s * a X c)%Qc = (s * d1 e v a)%Qc.
Proof.
  intros e v s a. induction e as [q|X c|e1 IH1 e2 IH2|e1 IH1 e2 IH2]; cbn [d1]; try ring; rewrite IH1, IH2; ring.
Qed.

Lemma d2_scale : forall e v s a, d2 e v (fun X c => s * a X c)%Qc = (s * s * d2 e v a)%Qc.
Proof.
  intros e v s a. induction e as [q|X c|e1 IH1 e2 IH2|e1 IH1 e2 IH2]; cbn [d2]; try ring; rewrite ?d1_scale, IH1, IH2; ring.
Qed.

(** Fields equal at every point. *)
Definition same (a b : field) : Prop := forall X c, a X c = b X c.

Lemma eval_same : forall e v w, same v w -> eval v e = eval w e.
Proof. intros e v w H. induction e as [q|X c|e1 IH1 e2 IH2|e1 IH1 e2 IH2]; cbn [eval]; auto; rewrite IH1, IH2; auto. Qed.

Lemma d1_same : forall e v w a b, same v w -> same a b -> d1 e v a = d1 e w b.
Proof.
  intros e v w a b H Hab. induction e as [q|X c|e1 IH1 e2 IH2|e1 IH1 e2 IH2]; cbn [d1]; auto; rewrite IH1, IH2; auto.
  rewrite (eval_same e1 v w), (eval_same e2 v w); auto.
Qed.

Lemma d2_same : forall e v w a b, same v w -> same a b -> d2 e v a = d2 e w b.
Proof.
  intros e v w a b H Hab. induction e as [q|X c|e1 IH1 e2 IH2|e1 IH1 e2 IH2]; cbn [d2]; auto; rewrite IH1, IH2; auto.
  rewrite (eval_same e1 v w), (eval_same e2 v w), (d1_same e1 v w a b), (d1_same e2 v w a b); auto.
Qed.

Definition cf (k : nat) (P : curve) : field := fun X c => coef k (P X c).

Lemma along_0 : forall P e, coef 0 (along P e) = eval (cf 0 P) e.
Proof.
  intros P e. induction e as [q|X c|e1 IH1 e2 IH2|e1 IH1 e2 IH2]; cbn [along eval]; auto.
  - rewrite coef_padd, IH1, IH2. reflexivity.
  - rewrite coef0_pmul, IH1, IH2. reflexivity.
Qed.

Lemma along_1 : forall P e, coef 1 (along P e) = d1 e (cf 0 P) (cf 1 P).
Proof.
  intros P e. induction e as [q|X c|e1 IH1 e2 IH2|e1 IH1 e2 IH2]; cbn [along d1]; auto.
  - rewrite coef_padd, IH1, IH2. reflexivity.
  - rewrite coef1_pmul, IH1, IH2, !along_0. ring.
Qed.

Lemma along_2 : forall P e, coef 2 (along P e) = (d1 e (cf 0 P) (cf 2 P) + d2 e (cf 0 P) (cf 1 P))%Qc.
Proof.
  intros P e. induction e as [q|X c|e1 IH1 e2 IH2|e1 IH1 e2 IH2]; cbn [along d1 d2].
  - cbn. ring.
  - unfold cf. ring.
  - rewrite coef_padd, IH1, IH2. ring.
  - rewrite coef2_pmul, IH1, IH2, !along_0, !along_1. ring.
Qed.

(** ** The steps as curves *)

(** [P + h F(P)] *)
Definition euler_curve (f : string -> (string -> nat) -> rhs) (P : curve) : curve :=
  fun X c => padd (P X c) (0%Qc :: along P (f X c)).

Definition mix (a b : Qc) (P Q : curve) : curve :=
  fun X c => padd (map (Qcmult a) (P X c)) (map (Qcmult b) (Q X c)).

Definition still (v : field) : curve := fun X c => [v X c].

Definition rk3_curve f v : curve :=
  mix (Q2Qc (1 # 3)) (Q2Qc (2 # 3)) (still v)
    (euler_curve f (mix (Q2Qc (3 # 4)) (Q2Qc (1 # 4)) (still v) (euler_curve f (euler_curve f (still v))))).

Definition rk2_curve f v : curve :=
  mix (Q2Qc (1 # 2)) (Q2Qc (1 # 2)) (still v) (euler_curve f (euler_curve f (still v))).

Lemma coef_euler_0 : forall f P X c, cf 0 (euler_curve f P) X c = cf 0 P X c.
Proof. intros. unfold cf, euler_curve. rewrite coef_padd. change (coef 0 (0%Qc :: along P (f X c))) with 0%Qc. ring. Qed.

Lemma coef_euler_S : forall k f P X c, cf (S k) (euler_curve f P) X c = (cf (S k) P X c + coef k (along P (f X c)))%Qc.
Proof. intros. unfold cf, euler_curve. rewrite coef_padd. reflexivity. Qed.

Lemma coef_mix : forall k a b P Q X c, cf k (mix a b P Q) X c = (a * cf k P X c + b * cf k Q X c)%Qc.
Proof. intros. unfold cf, mix. rewrite coef_padd, !coef_scale. reflexivity. Qed.

Lemma coef_still_0 : forall v X c, cf 0 (still v) X c = v X c.
Proof. reflexivity. Qed.

Lemma coef_still_S : forall k v X c, cf (S k) (still v) X c = 0%Qc.
Proof. intros k v X c. unfold cf, still. cbn [coef nth]. destruct k; reflexivity. Qed.

Section Curves.
  Variable f : string -> (string -> nat) -> rhs.
  Variable v : field.

  Let f0 : field := fun X c => eval v (f X c).
  Let g : field := fun X c => d1 (f X c) v f0.
  Let r : field := fun X c => d2 (f X c) v f0.
  Let y1 := euler_curve f (still v).
  Let y15 := euler_curve f y1.
  Let y2 := mix (Q2Qc (3 # 4)) (Q2Qc (1 # 4)) (still v) y15.

  Lemma zero_fields : forall e, d1 e v (fun _ _ => 0%Qc) = 0%Qc.
  Proof.
    intros e. induction e as [q|X c|e1 IH1 e2 IH2|e1 IH1 e2 IH2]; cbn [d1]; auto; rewrite IH1, IH2; ring.
  Qed.

  Lemma zero_fields2 : forall e, d2 e v (fun _ _ => 0%Qc) = 0%Qc.
  Proof.
    intros e. induction e as [q|X c|e1 IH1 e2 IH2|e1 IH1 e2 IH2]; cbn [d2]; auto; rewrite IH1, IH2, ?zero_fields; ring.
  Qed.

  Lemma still_along : forall X c, coef 0 (along (still v) (f X c)) = f0 X c /\ coef 1 (along (still v) (f X c)) = 0%Qc /\
    coef 2 (along (still v) (f X c)) = 0%Qc.
  Proof.
    intros X c. rewrite along_0, along_1, along_2.
    change (cf 0 (still v)) with v. change (cf 1 (still v)) with (fun (_ : string) (_ : string -> nat) => 0%Qc).
    change (cf 2 (still v)) with (fun (_ : string) (_ : string -> nat) => 0%Qc).
    rewrite zero_fields, zero_fields2. repeat split; auto.
  Qed.

  Lemma y1_coefs : same (cf 0 y1) v /\ same (cf 1 y1) f0 /\ same (cf 2 y1) (fun _ _ => 0%Qc) /\ same (cf 3 y1) (fun _ _ => 0%Qc).
  Proof.
    unfold y1. repeat split; intros X c; rewrite ?coef_euler_0, ?coef_euler_S, ?coef_still_S; destruct (still_along X c) as (A & B & C);
      rewrite ?A, ?B, ?C; try ring. apply coef_still_0.
  Qed.

  Lemma y1_along : forall X c, coef 0 (along y1 (f X c)) = f0 X c /\ coef 1 (along y1 (f X c)) = g X c /\ coef 2 (along y1 (f X c)) = r X c.
  Proof.
    intros X c. destruct y1_coefs as (A & B & C & _). rewrite along_0, along_1, along_2.
    rewrite (eval_same _ _ v A), (d1_same _ _ v _ _ A B), (d1_same _ _ v _ _ A C), (d2_same _ _ v _ _ A B), zero_fields.
    repeat split; auto. unfold r. ring.
  Qed.

  Lemma y15_coefs : same (cf 0 y15) v /\ same (cf 1 y15) (fun X c => f0 X c + f0 X c)%Qc /\ same (cf 2 y15) g /\ same (cf 3 y15) r.
  Proof.
    destruct y1_coefs as (A & B & C & D). unfold y15.
    repeat split; intros X c; rewrite ?coef_euler_0, ?coef_euler_S; destruct (y1_along X c) as (A' & B' & C').
    - apply A.
    - rewrite (B X c), A'. reflexivity.
    - rewrite (C X c), B'. ring.
    - rewrite (D X c), C'. ring.
  Qed.

  Lemma y2_coefs : same (cf 0 y2) v /\ same (cf 1 y2) (fun X c => Q2Qc (1 # 2) * f0 X c)%Qc /\
    same (cf 2 y2) (fun X c => Q2Qc (1 # 4) * g X c)%Qc /\ same (cf 3 y2) (fun X c => Q2Qc (1 # 4) * r X c)%Qc.
  Proof.
    destruct y15_coefs as (A & B & C & D). unfold y2.
    repeat split; intros X c; rewrite coef_mix, ?coef_still_S, ?coef_still_0.
    - rewrite (A X c). qc_ring.
    - rewrite (B X c). qc_ring.
    - rewrite (C X c). qc_ring.
    - rewrite (D X c). qc_ring.
  Qed.

  Lemma y2_along : forall X c, coef 0 (along y2 (f X c)) = f0 X c /\ coef 1 (along y2 (f X c)) = (Q2Qc (1 # 2) * g X c)%Qc /\
    coef 2 (along y2 (f X c)) = (Q2Qc (1 # 4) * d1 (f X c) v g + Q2Qc (1 # 4) * r X c)%Qc.
  Proof.
    intros X c. destruct y2_coefs as (A & B & C & _). rewrite along_0, along_1, along_2.
    rewrite (eval_same _ _ v A), (d1_same _ _ v _ _ A B), (d1_same _ _ v _ _ A C), (d2_same _ _ v _ _ A B).
    rewrite !d1_scale, d2_scale. repeat split; auto.
  Qed.

  Lemma rk3_coefs : same (cf 0 (rk3_curve f v)) v /\ same (cf 1 (rk3_curve f v)) f0 /\
    same (cf 2 (rk3_curve f v)) (fun X c => Q2Qc (1 # 2) * g X c)%Qc /\
    same (cf 3 (rk3_curve f v)) (fun X c => Q2Qc (1 # 6) * d1 (f X c) v g + Q2Qc (1 # 3) * r X c)%Qc.
  Proof.
    destruct y2_coefs as (A & B & C & D). unfold rk3_curve. fold y1. fold y15. fold y2.
    repeat split; intros X c; rewrite coef_mix, ?coef_still_S, ?coef_still_0, ?coef_euler_0, ?coef_euler_S;
      destruct (y2_along X c) as (A' & B' & C').
    - rewrite (A X c). qc_ring.
    - rewrite (B X c), A'. qc_ring.
    - rewrite (C X c), B'. qc_ring.
    - rewrite (D X c), C'. qc_ring.
  Qed.

  Lemma rk2_coefs : same (cf 0 (rk2_curve f v)) v /\ same (cf 1 (rk2_curve f v)) f0 /\
    same (cf 2 (rk2_curve f v)) (fun X c => Q2Qc (1 # 2) * g X c)%Qc.
  Proof.
    destruct y15_coefs as (A & B & C & D). unfold rk2_curve. fold y1. fold y15.
    repeat split; intros X c; rewrite coef_mix, ?coef_still_S, ?coef_still_0.
    - rewrite (A X c). qc_ring.
    - rewrite (B X c). qc_ring.
    - rewrite (C X c). qc_ring.
  Qed.

  Lemma rk3_solves : forall X c, coef 0 (rk3_curve f v X c) = v X c /\
    forall k, k < 3 -> coef k (pderiv (rk3_curve f v X c)) = coef k (along (rk3_curve f v) (f X c)).
  Proof.
    intros X c. destruct rk3_coefs as (A & B & C & D). split; [apply (A X c)|]. intros k Hk.
    rewrite coef_pderiv. change (coef (S k) (rk3_curve f v X c)) with (cf (S k) (rk3_curve f v) X c).
    destruct k as [|[|[|k]]]; [| | |lia]; rewrite ?along_0, ?along_1, ?along_2.
    - rewrite (B X c), (eval_same _ _ v A). fold (f0 X c). qc_ring.
    - rewrite (C X c), (d1_same _ _ v _ _ A B). fold (g X c). qc_ring.
    - rewrite (D X c), (d1_same _ _ v _ _ A C), (d2_same _ _ v _ _ A B), d1_scale. fold (r X c). qc_ring.
  Qed.

  Lemma rk2_solves : forall X c, coef 0 (rk2_curve f v X c) = v X c /\
    forall k, k < 2 -> coef k (pderiv (rk2_curve f v X c)) = coef k (along (rk2_curve f v) (f X c)).
  Proof.
    intros X c. destruct rk2_coefs as (A & B & C). split; [apply (A X c)|]. intros k Hk.
    rewrite coef_pderiv. change (coef (S k) (rk2_curve f v X c)) with (cf (S k) (rk2_curve f v) X c).
    destruct k as [|[|k]]; [| |lia]; rewrite ?along_0, ?along_1.
    - rewrite (B X c), (eval_same _ _ v A). fold (f0 X c). qc_ring.
    - rewrite (C X c), (d1_same _ _ v _ _ A B). fold (g X c). qc_ring.
  Qed.
End Curves.

(** ** The program follows the curve *)

Lemma peval_euler : forall f P X c h, peval (euler_curve f P X c) h =
  (peval (P X c) h + h * eval (fun X c => peval (P X c) h) (f X c))%Qc.
Proof. intros. unfold euler_curve. rewrite peval_padd. cbn [peval]. rewrite peval_along. ring. Qed.

Lemma peval_mix : forall a b P Q X c h, peval (mix a b P Q X c) h = (a * peval (P X c) h + b * peval (Q X c) h)%Qc.
Proof. intros. unfold mix. rewrite peval_padd, !peval_scale. reflexivity. Qed.

Section Follows.
  Context {R : Registry}.

  Definition on_curve (G : points) (h : Qc) (st : state Qc) (P : curve) : Prop :=
    agree G (value st) (fun X c => peval (P X c) h).

  Lemma euler_follows : forall {U} G F dt (prog : icaller (T:=Qc) U) u st u' tend diag st' now P,
    closed_system G F -> rates_from G F dt prog -> holds_points G st -> dget "time" st = Some (VTime now) ->
    prog u st dt = (u', Ok (tend, diag)) -> euler_step dt st tend st' -> on_curve G (Q2Qc (dt # 1000000)) st P ->
    holds_points G st' /\ dget "time" st' = Some (VTime now) /\
    on_curve G (Q2Qc (dt # 1000000)) st' (euler_curve (F now) P).
  Proof.
    intros U G F dt prog u st u' tend diag st' now P Hc Hr Hh Ht Hp He HP.
    assert (Q : forall X c, G X c -> exists r, dget X st' = Some (VDA r) /\ in_grid r c /\
      value st' X c = (value st X c + Q2Qc (dt # 1000000) * eval (value st) (F now X c))%Qc).
    { intros X c HG. destruct (Hh X c HG) as (x & Hx & Hgx).
      destruct (Hr u st u' tend diag now Hp Hh Ht X c HG) as (t & Et & Hgt & Hy).
      destruct (euler_point dt st tend st' X t x c _ He Et Hy Hgt Hx Hgx) as (r & G1 & G2 & G3).
      exists r. split; auto. split; auto. rewrite (value_at _ _ _ _ G1), (value_at _ _ _ _ Hx), G3. ring. }
    split; [intros X c HG; destruct (Q X c HG) as (r & ? & ? & _); eauto|]. split.
    - destruct He as (Hs & He). rewrite (Hs "time"); auto. intros Hin. apply In_keys_dget in Hin as (t & Et).
      destruct (He "time" t Et) as (x & r & Hx & _). congruence.
    - intros X c HG. destruct (Q X c HG) as (r & _ & _ & V). rewrite V, peval_euler, (HP X c HG).
      rewrite (eval_agree G _ _ _ (proj2 (Hc now X c HG)) HP). reflexivity.
  Qed.

  Lemma mix_follows : forall G F a b (st st' out : state Qc) now h P Q, closed_system G F ->
    combination (fun x y => (a * x + b * y)%Qc) st st' out ->
    holds_points G st -> holds_points G st' -> dget "time" st = Some (VTime now) -> on_curve G h st P -> on_curve G h st' Q ->
    holds_points G out /\ dget "time" out = Some (VTime now) /\ on_curve G h out (mix a b P Q).
  Proof.
    intros G F a b st st' out now h P Q Hc C H1 H2 Ht HP HQ.
    destruct (combination_linear G (fun _ _ => []) a b st st' out now) as (I1 & I2 & I3); auto.
    - intros X c HG. split; [apply (Hc now X c HG)|intros ? ? ? []].
    - split; auto. split; auto. intros X c HG. rewrite (I3 X c HG), peval_mix, (HP X c HG), (HQ X c HG). reflexivity.
  Qed.

  Lemma rk_follows : forall {U} cfg (prog : icaller (T:=Qc) U) z k0 u0 calls k u (st : state Qc) dt s' diag new G F now v,
    new_rk z = Ok k0 -> after (ssp_rk cfg prog) calls (k0, u0) = (k, u) ->
    proper_components prog -> proper_state st ->
    ssp_rk cfg prog (k, u) st dt = (s', Ok (diag, new)) ->
    closed_system G F -> rates_from G F dt prog -> holds_points G st -> dget "time" st = Some (VTime now) ->
    agree G (value st) v ->
    holds_points G new /\ dget "time" new = Some (VTime now) /\
    on_curve G (Q2Qc (dt # 1000000)) new (match z with 3%Z => rk3_curve (F now) v | _ => rk2_curve (F now) v end) /\ (z = 2%Z \/ z = 3%Z).
  Proof.
    intros U cfg prog z k0 u0 calls k u st dt s' diag new G F now v Hz Haf Hpc Hps H Hcl Hl Hh Ht Hv.
    assert (H0 : on_curve G (Q2Qc (dt # 1000000)) st (still v)).
    { intros X c HG. rewrite (Hv X c HG). unfold still. cbn [peval]. ring. }
    destruct (rk_stages_exact cfg prog z k0 u0 calls k u st dt s' diag new Hz Haf Hpc Hps H) as
      [(-> & u1 & u2 & u3 & t1 & t2 & t3 & d1 & d2 & d3 & st1 & st15 & st2 & st25 & P1 & E1 & P2 & E2 & C1 & P3 & E3 & C2 & _)
      |(-> & u1 & u2 & t1 & t2 & d1 & d2 & st1 & st2 & P1 & E1 & P2 & E2 & C & _)].
    - destruct (euler_follows _ _ _ _ _ _ _ _ _ _ _ _ Hcl Hl Hh Ht P1 E1 H0) as (H1 & T1 & V1).
      destruct (euler_follows _ _ _ _ _ _ _ _ _ _ _ _ Hcl Hl H1 T1 P2 E2 V1) as (H15 & T15 & V15).
      destruct (mix_follows _ _ _ _ _ _ _ _ _ _ _ Hcl C1 Hh H15 Ht H0 V15) as (H2 & T2 & V2).
      destruct (euler_follows _ _ _ _ _ _ _ _ _ _ _ _ Hcl Hl H2 T2 P3 E3 V2) as (H25 & T25 & V25).
      destruct (mix_follows _ _ _ _ _ _ _ _ _ _ _ Hcl C2 Hh H25 Ht H0 V25) as (Hn & Tn & Vn). auto.
    - destruct (euler_follows _ _ _ _ _ _ _ _ _ _ _ _ Hcl Hl Hh Ht P1 E1 H0) as (H1 & T1 & V1).
      destruct (euler_follows _ _ _ _ _ _ _ _ _ _ _ _ Hcl Hl H1 T1 P2 E2 V1) as (H2 & T2 & V2).
      destruct (mix_follows _ _ _ _ _ _ _ _ _ _ _ Hcl C Hh H2 Ht H0 V2) as (Hn & Tn & Vn). auto.
  Qed.

  Lemma rk_order : forall z G F now v, z = 2%Z \/ z = 3%Z -> closed_system G F ->
    exists P, solves (Z.to_nat z) G F now v P /\
    forall {U} cfg (prog : icaller (T:=Qc) U) k0 u0 calls k u (st : state Qc) dt s' diag new,
      new_rk z = Ok k0 -> after (ssp_rk cfg prog) calls (k0, u0) = (k, u) ->
      proper_components prog -> proper_state st -> rates_from G F dt prog ->
      holds_points G st -> dget "time" st = Some (VTime now) -> (forall X c, G X c -> value st X c = v X c) ->
      ssp_rk cfg prog (k, u) st dt = (s', Ok (diag, new)) ->
      holds_points G new /\ dget "time" new = Some (VTime now) /\
      forall X c, G X c -> value new X c = peval (P X c) (Q2Qc (dt # 1000000)).
  Proof.
    intros z G F now v Hz Hcl.
    exists (match z with 3%Z => rk3_curve (F now) v | _ => rk2_curve (F now) v end). split.
    - intros X c _. destruct Hz as [-> | ->]; [apply rk2_solves|apply rk3_solves].
    - intros U cfg prog k0 u0 calls k u st dt s' diag new Hk Haf Hpc Hps Hr Hh Ht Hv H.
      destruct (rk_follows cfg prog z k0 u0 calls k u st dt s' diag new G F now v) as (I1 & I2 & I3 & _); auto.
  Qed.
End Follows.
