(** The arithmetic of IEEE double precision, as an arithmetic for the model. It stands for the arithmetic of
    numpy on float64 arrays and of python floats (not part of /repo), rounding to nearest with ties to even.
    The operations are those of Flocq. [aofQ] is correct rounding, as of python's int / int. *)
From Coq Require Import ZArith QArith Qcanon Reals Lia Lra.
From Flocq Require Import Core.Core Calc.Bracket Calc.Div IEEE754.BinarySingleNaN.
From Verif Require Import ArithM.

#[global] Instance prec_53 : Prec_gt_0 53 := eq_refl.
#[global] Instance prec_emax_1024 : Prec_lt_emax 53 1024 := eq_refl.

Definition b64 : Set := binary_float 53 1024.

(** The number that a float stands for; 0 for infinities and not-a-number. *)
Definition b64_num (x : b64) : Qc :=
  match x with
  | B754_finite s m e _ =>
      let z := cond_Zopp s (Zpos m) in
      match e with
      | Zneg p => Q2Qc (z # (2 ^ p))
      | _ => Q2Qc (inject_Z (z * 2 ^ e))
      end
  | _ => 0%Qc
  end.

Definition b64_fin (x : b64) : Prop := is_finite x = true.

(** The quotient of two positive integers, correctly rounded, and its sign. *)
Definition b64_ratio (s : bool) (n d : positive) : SpecFloat.spec_float :=
  match @Fdiv radix2 (SpecFloat.fexp 53 1024) (Float radix2 (Zpos n) 0) (Float radix2 (Zpos d) 0) with
  | (m, e, l) => binary_round_aux 53 1024 mode_NE s m e l
  end.

Lemma b64_ratio_rounds : forall (s : bool) n d,
  let x := (if s then - (IZR (Zpos n) / IZR (Zpos d)) else IZR (Zpos n) / IZR (Zpos d))%R in
  let z := b64_ratio s n d in
  SpecFloat.valid_binary 53 1024 z = true /\
  if Rlt_bool (Rabs (round radix2 (SpecFloat.fexp 53 1024) (round_mode mode_NE) x)) (bpow radix2 1024) then
    SF2R radix2 z = round radix2 (SpecFloat.fexp 53 1024) (round_mode mode_NE) x /\ is_finite_SF z = true
  else z = binary_overflow 53 1024 mode_NE s.
Proof.
  intros s n d x z.
  assert (Pn : (0 < F2R (Float radix2 (Zpos n) 0))%R) by (apply F2R_gt_0; reflexivity).
  assert (Pd : (0 < F2R (Float radix2 (Zpos d) 0))%R) by (apply F2R_gt_0; reflexivity).
  assert (C := @Fdiv_correct radix2 (SpecFloat.fexp 53 1024) _ _ Pn Pd). unfold z, b64_ratio.
  destruct (@Fdiv radix2 (SpecFloat.fexp 53 1024) (Float radix2 (Zpos n) 0) (Float radix2 (Zpos d) 0)) as [[m e] l].
  destruct C as (Ce & Ci). assert (F0 : forall k, F2R (Float radix2 (Zpos k) 0) = IZR (Zpos k)) by (intros k; unfold F2R; cbn [Fnum Fexp bpow]; ring).
  rewrite (F0 n) in Ce, Ci, Pn. rewrite (F0 d) in Ce, Ci, Pd.
  assert (P : (0 < IZR (Zpos n) / IZR (Zpos d))%R) by (apply Rdiv_lt_0_compat; assumption).
  assert (X0 : (x <> 0)%R) by (unfold x; destruct s; lra).
  assert (Xa : Rabs x = (IZR (Zpos n) / IZR (Zpos d))%R).
  { unfold x. destruct s; [rewrite Rabs_Ropp|]; apply Rabs_pos_eq; lra. }
  assert (Xs : Rlt_bool x 0 = s).
  { unfold x. destruct s; [apply Rlt_bool_true|apply Rlt_bool_false]; lra. }
  assert (Xc : (e <= cexp radix2 (SpecFloat.fexp 53 1024) x)%Z) by (rewrite <- cexp_abs, Xa; exact Ce).
  assert (K := binary_round_aux_correct' 53 1024 prec_53 prec_emax_1024 mode_NE x m e l X0 ltac:(rewrite Xa; exact Ci) Xc).
  cbv zeta in K. rewrite Xs in K. destruct K as (V & K). split; [exact V|].
  destruct (Rlt_bool (Rabs (round radix2 (SpecFloat.fexp 53 1024) (round_mode mode_NE) x)) (bpow radix2 1024)); [|exact K].
  destruct K as (K1 & K2 & _). split; assumption.
Qed.

Definition b64_ofQ (q : Q) : b64 :=
  match Qnum q with
  | Z0 => B754_zero false
  | Zpos n => SF2B _ (proj1 (b64_ratio_rounds false n (Qden q)))
  | Zneg n => SF2B _ (proj1 (b64_ratio_rounds true n (Qden q)))
  end.

Definition binary64 : Arith b64 := {|
  azero := B754_zero false;
  aadd := Bplus mode_NE;
  asub := Bminus mode_NE;
  amul := Bmult mode_NE;
  adiv := Bdiv mode_NE;
  aofQ := b64_ofQ;
  aeqb := Beqb
|}.
