(** Exact arithmetic of the stepping formulas: weights, polynomials, filter. *)
From Coq Require Import String List Bool Arith ZArith QArith Qcanon Lia.
From Verif Require Import Prelude PreludeFacts ArithM NdArray Units DataArrayM GetNp Components Composite Steppers
  SpecUnits UnitsFacts SpecDa SpecComposite SpecSteppers.
Import ListNotations.
Open Scope string_scope.
Open Scope nat_scope.
Open Scope list_scope.

(** Identities in Qc with literals: go to Q. *)
Lemma this_Q2Qc : forall q, (this (Q2Qc q) == q)%Q.
Proof. intros q. apply Qred_correct. Qed.
Lemma this_plus : forall a b, (this (a + b)%Qc == this a + this b)%Q.
Proof. intros a b. apply Qred_correct. Qed.
Lemma this_minus : forall a b, (this (a - b)%Qc == this a - this b)%Q.
Proof. intros a b. unfold Qcminus. rewrite this_plus. unfold Qcopp. rewrite this_Q2Qc. reflexivity. Qed.
Lemma this_opp : forall a, (this (- a)%Qc == - this a)%Q.
Proof. intros a. unfold Qcopp. rewrite this_Q2Qc. reflexivity. Qed.
Lemma this_mult : forall a b, (this (a * b)%Qc == this a * this b)%Q.
Proof. intros a b. apply Qred_correct. Qed.
Lemma this_inv : forall a, (this (/ a)%Qc == / this a)%Q.
Proof. intros a. apply Qred_correct. Qed.
Lemma this_div : forall a b, (this (a / b)%Qc == this a / this b)%Q.
Proof. intros a b. unfold Qcdiv. rewrite this_mult, this_inv. reflexivity. Qed.
Lemma this_0 : (this 0%Qc == 0)%Q.
Proof. reflexivity. Qed.
Lemma this_1 : (this 1%Qc == 1)%Q.
Proof. reflexivity. Qed.

Ltac qc_ring := intros; apply Qc_is_canon;
  repeat rewrite ?this_plus, ?this_minus, ?this_opp, ?this_mult, ?this_Q2Qc, ?this_0, ?this_1; ring.

(** ** Adams-Bashforth *)

Lemma ab_formula_dot : forall (sec x : Qc) ys, 1 <= length ys <= 4 ->
  ab_formula sec x ys = (x + sec * dot (ab_weights (length ys)) ys)%Qc.
Proof.
  intros sec x [|y1 [|y2 [|y3 [|y4 [|y5 ys]]]]] H; simpl in H; try lia; cbn [ab_formula ab_weights dot length];
    cbn [aadd amul asub aofQ ArithQc]; qc_ring.
Qed.

Lemma dot_zero : forall ws ys, Forall (fun y => y = 0%Qc) ys -> dot ws ys = 0%Qc.
Proof.
  induction ws as [|w ws IH]; intros [|y ys] H; cbn [dot]; auto. inversion H; subst. rewrite IH by auto. ring.
Qed.

Lemma ab_exact : forall k p t h, 1 <= k <= 4 -> length p <= S k ->
  (h * dot (ab_weights k) (map (peval (pderiv p)) (times_back k t h)))%Qc = (peval p (t + h) - peval p t)%Qc.
Proof.
  intros k p t h Hk Hp.
  destruct k as [|[|[|[|[|k]]]]]; try lia; destruct p as [|a0 [|a1 [|a2 [|a3 [|a4 [|a5 p]]]]]]; simpl in Hp; try lia;
    cbn [times_back map pderiv pderiv_from peval ab_weights dot]; qc_ring.
Qed.

(** ** Leapfrog *)

Lemma leap_conserves : forall sec nu alpha o x y : Qc, alpha = Q2Qc (1 # 2) ->
  (fst (leapfrog_values sec nu alpha o x y) + snd (leapfrog_values sec nu alpha o x y) =
   x + (o + Q2Qc (2 # 1) * y * sec))%Qc.
Proof.
  intros sec nu alpha o x y ->. unfold leapfrog_values. cbn [fst snd aeqb aadd amul asub aofQ ArithQc].
  destruct (Qc_eq_bool (Q2Qc (1 # 2)) (Q2Qc (1 # 1))) eqn:E; [apply Qc_eq_bool_correct in E; discriminate|]. qc_ring.
Qed.

Lemma leap_alpha1 : forall {T} {A : Arith T} (sec nu alpha o x y : T), aeqb alpha (aofQ (1 # 1)) = true ->
  snd (leapfrog_values sec nu alpha o x y) = aadd o (amul (amul (aofQ (2 # 1)) y) sec).
Proof. intros T A sec nu alpha o x y H. unfold leapfrog_values. rewrite H. reflexivity. Qed.

Lemma leap_nu0 : forall sec nu alpha o x y : Qc, nu = 0%Qc ->
  leapfrog_values sec nu alpha o x y = (x, (o + Q2Qc (2 # 1) * y * sec)%Qc).
Proof.
  intros sec nu alpha o x y ->. unfold leapfrog_values. cbn [aeqb aadd amul asub aofQ ArithQc]. f_equal; [qc_ring|].
  destruct (Qc_eq_bool alpha (Q2Qc (1 # 1))); [auto|qc_ring].
Qed.
