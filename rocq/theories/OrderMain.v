(** Main lemmas for C90. *)
From Coq Require Import String List Bool Arith ZArith QArith Qcanon Lia.
From Verif Require Import Prelude PreludeFacts ArithM NdArray NdFacts Units DataArrayM GetNp SpecUnits UnitsFacts SpecDa DaFacts
  Components Composite SpecComposite Steppers SpecSteppers SteppersFacts RKFacts StepAlgebra StepRuns StepExact SpecOrder.
Import ListNotations.
Open Scope string_scope.
Open Scope nat_scope.
Open Scope list_scope.

Lemma weighted_ext : forall tms (v w : field), (forall X c k, In (X, c, k) tms -> v X c = w X c) ->
  weighted tms v = weighted tms w.
Proof.
  induction tms as [|[[X c] k] tms IH]; intros v w H; cbn [weighted fold_right]; [reflexivity|].
  fold (weighted tms v) (weighted tms w). rewrite (H X c k (or_introl eq_refl)).
  rewrite (IH v w); [reflexivity|]. intros; eapply H; right; eauto.
Qed.

Lemma weighted_lin : forall tms a b (v w : field),
  weighted tms (fun X c => a * v X c + b * w X c)%Qc = (a * weighted tms v + b * weighted tms w)%Qc.
Proof.
  induction tms as [|[[X c] k] tms IH]; intros a b v w; cbn [weighted fold_right]; [ring|].
  fold (weighted tms v) (weighted tms w) (weighted tms (fun X c => a * v X c + b * w X c)%Qc). rewrite IH. ring.
Qed.

Section Order.
  Context {R : Registry}.

  Definition agree (G : points) (v w : field) : Prop := forall X c, G X c -> v X c = w X c.

  Lemma apply_agree : forall G M v w, closed G M -> agree G v w -> agree G (apply M v) (apply M w).
  Proof. intros G M v w Hc H X c HG. apply weighted_ext. intros X' c' k Hin. apply H. eapply Hc; eauto. Qed.

  Lemma apply_lin : forall M a b (v w : field) X c,
    apply M (fun X c => a * v X c + b * w X c)%Qc X c = (a * apply M v X c + b * apply M w X c)%Qc.
  Proof. intros. apply weighted_lin. Qed.

  (** One forward Euler step of a linear system. *)
  Lemma euler_linear : forall {U} G forcing M dt (prog : icaller (T:=Qc) U) u st u' tend diag st' now,
    linear_rates G forcing M dt prog -> holds_points G st -> dget "time" st = Some (VTime now) ->
    prog u st dt = (u', Ok (tend, diag)) -> euler_step dt st tend st' ->
    holds_points G st' /\ dget "time" st' = Some (VTime now) /\
    agree G (value st') (fun X c => value st X c + Q2Qc (dt # 1000000) * slope forcing M now (value st) X c)%Qc.
  Proof.
    intros U G forcing M dt prog u st u' tend diag st' now Hl Hh Ht Hp He.
    assert (P : forall X c, G X c -> exists r, dget X st' = Some (VDA r) /\ in_grid r c /\
      value st' X c = (value st X c + Q2Qc (dt # 1000000) * slope forcing M now (value st) X c)%Qc).
    { intros X c HG. destruct (Hh X c HG) as (x & Hx & Hgx).
      destruct (Hl u st u' tend diag now Hp Hh Ht X c HG) as (t & Et & Hgt & Hy).
      destruct (euler_point dt st tend st' X t x c _ He Et Hy Hgt Hx Hgx) as (r & G1 & G2 & G3).
      exists r. split; auto. split; auto. rewrite (value_at _ _ _ _ G1), (value_at _ _ _ _ Hx), G3. unfold slope. ring. }
    split; [intros X c HG; destruct (P X c HG) as (r & ? & ? & _); eauto|]. split.
    - destruct He as (Hs & He). rewrite (Hs "time"); auto. intros Hin. apply In_keys_dget in Hin as (t & Et).
      destruct (He "time" t Et) as (x & r & Hx & _). congruence.
    - intros X c HG. destruct (P X c HG) as (r & _ & _ & V). exact V.
  Qed.

  Lemma combination_linear : forall G M a b (st st' out : state Qc) now, closed G M ->
    combination (fun x y => (a * x + b * y)%Qc) st st' out ->
    holds_points G st -> holds_points G st' -> dget "time" st = Some (VTime now) ->
    holds_points G out /\ dget "time" out = Some (VTime now) /\
    agree G (value out) (fun X c => a * value st X c + b * value st' X c)%Qc.
  Proof.
    intros G M a b st st' out now Hcl (C0 & C) H1 H2 Ht.
    assert (P : forall X c, G X c -> exists r, dget X out = Some (VDA r) /\ in_grid r c /\
      value out X c = (a * value st X c + b * value st' X c)%Qc).
    { intros X c HG. destruct (H1 X c HG) as (x & Hx & Hgx). destruct (H2 X c HG) as (x' & Hx' & Hgx').
      specialize (C X (proj1 (Hcl X c HG))). rewrite Hx in C.
      destruct C as (y' & r & Hy' & Hr & He & Hv). assert (y' = x') by congruence. subst.
      assert (Hg : in_grid r c) by (eapply in_grid_extends; eauto). exists r. split; auto. split; auto.
      destruct (Hv c Hg) as (_ & V). rewrite (value_at _ _ _ _ Hr), (value_at _ _ _ _ Hx), (value_at _ _ _ _ Hx'), V. ring. }
    split; [intros X c HG; destruct (P X c HG) as (r & ? & ? & _); eauto|]. split; [congruence|].
    intros X c HG. destruct (P X c HG) as (r & _ & _ & V). exact V.
  Qed.

  Lemma slope_step : forall G forcing M now h v w, closed G M ->
    agree G w (fun X c => v X c + h * slope forcing M now v X c)%Qc ->
    agree G (slope forcing M now w)
      (fun X c => slope forcing M now v X c + h * apply M (slope forcing M now v) X c)%Qc.
  Proof.
    intros G forcing M now h v w Hc H X c HG. unfold slope at 1.
    rewrite (apply_agree G M w (fun X c => 1 * v X c + h * slope forcing M now v X c)%Qc Hc); auto.
    - rewrite apply_lin. unfold slope at 2. ring.
    - intros X' c' HG'. rewrite (H X' c' HG'). ring.
  Qed.

  Lemma rk_linear : forall {U} cfg (prog : icaller (T:=Qc) U) z k0 u0 calls k u (st : state Qc) dt s' diag new G forcing M now,
    new_rk z = Ok k0 -> after (ssp_rk cfg prog) calls (k0, u0) = (k, u) ->
    proper_components prog -> proper_state st ->
    ssp_rk cfg prog (k, u) st dt = (s', Ok (diag, new)) ->
    closed G M -> linear_rates G forcing M dt prog -> holds_points G st -> dget "time" st = Some (VTime now) ->
    holds_points G new /\ dget "time" new = Some (VTime now) /\
    forall X c, G X c -> value new X c = taylor (Z.to_nat z) (Q2Qc (dt # 1000000)) forcing M now (value st) X c.
  Proof.
    intros U cfg prog z k0 u0 calls k u st dt s' diag new G forcing M now Hz Haf Hpc Hps H Hcl Hl Hh Ht.
    set (h := Q2Qc (dt # 1000000)).
    destruct (rk_stages_exact cfg prog z k0 u0 calls k u st dt s' diag new Hz Haf Hpc Hps H) as
      [(-> & u1 & u2 & u3 & t1 & t2 & t3 & d1 & d2 & d3 & st1 & st15 & st2 & st25 & P1 & E1 & P2 & E2 & C1 & P3 & E3 & C2 & _)
      |(-> & u1 & u2 & t1 & t2 & d1 & d2 & st1 & st2 & P1 & E1 & P2 & E2 & C & _)].
    - destruct (euler_linear _ _ _ _ _ _ _ _ _ _ _ _ Hl Hh Ht P1 E1) as (H1 & T1 & V1).
      destruct (euler_linear _ _ _ _ _ _ _ _ _ _ _ _ Hl H1 T1 P2 E2) as (H15 & T15 & V15).
      destruct (combination_linear _ _ _ _ _ _ _ _ Hcl C1 Hh H15 Ht) as (H2 & T2 & V2).
      destruct (euler_linear _ _ _ _ _ _ _ _ _ _ _ _ Hl H2 T2 P3 E3) as (H25 & T25 & V25).
      destruct (combination_linear _ _ _ _ _ _ _ _ Hcl C2 Hh H25 Ht) as (Hn & Tn & Vn).
      split; auto. split; auto. fold h in V1, V15, V25.
      set (v := value st) in *. set (g := slope forcing M now v) in *.
      assert (S1 := slope_step G forcing M now h v (value st1) Hcl V1). fold g in S1.
      assert (W2 : agree G (value st2) (fun X c => 1 * (v X c + Q2Qc (1 # 2) * h * g X c) + Q2Qc (1 # 4) * h * h * apply M g X c)%Qc).
      { intros X c HG. rewrite (V2 X c HG), (V15 X c HG), (V1 X c HG), (S1 X c HG). qc_ring. }
      assert (S2 : agree G (slope forcing M now (value st2))
        (fun X c => g X c + Q2Qc (1 # 2) * h * apply M g X c + Q2Qc (1 # 4) * h * h * apply M (apply M g) X c)%Qc).
      { intros X c HG. unfold slope at 1. rewrite (apply_agree G M _ _ Hcl W2 X c HG).
        rewrite (apply_lin M 1%Qc (Q2Qc (1 # 4) * h * h)%Qc (fun X c => (v X c + Q2Qc (1 # 2) * h * g X c)%Qc) (apply M g)).
        rewrite (apply_agree G M (fun X c => (v X c + Q2Qc (1 # 2) * h * g X c)%Qc)
                   (fun X c => (1 * v X c + (Q2Qc (1 # 2) * h) * g X c)%Qc) Hcl); auto; [|intros ? ? ?; ring].
        rewrite apply_lin. unfold g at 3. unfold slope. ring. }
      intros X c HG. rewrite (Vn X c HG), (V25 X c HG), (S2 X c HG), (W2 X c HG).
      change (Z.to_nat 3) with 3. unfold taylor. fold g. qc_ring.
    - destruct (euler_linear _ _ _ _ _ _ _ _ _ _ _ _ Hl Hh Ht P1 E1) as (H1 & T1 & V1).
      destruct (euler_linear _ _ _ _ _ _ _ _ _ _ _ _ Hl H1 T1 P2 E2) as (H2 & T2 & V2).
      destruct (combination_linear _ _ _ _ _ _ _ _ Hcl C Hh H2 Ht) as (Hn & Tn & Vn).
      split; auto. split; auto. fold h in V1, V2.
      set (v := value st) in *. set (g := slope forcing M now v) in *.
      assert (S1 := slope_step G forcing M now h v (value st1) Hcl V1). fold g in S1.
      intros X c HG. rewrite (Vn X c HG), (V2 X c HG), (V1 X c HG), (S1 X c HG).
      change (Z.to_nat 2) with 2. unfold taylor. fold g. qc_ring.
  Qed.

  Lemma taylor_agree : forall G n h forcing M now v w, closed G M -> agree G v w ->
    agree G (taylor n h forcing M now v) (taylor n h forcing M now w).
  Proof.
    intros G n h forcing M now v w Hc H.
    assert (Hs : agree G (slope forcing M now v) (slope forcing M now w)).
    { intros X c HG. unfold slope. rewrite (apply_agree G M v w Hc H X c HG). reflexivity. }
    assert (H1 := apply_agree G M _ _ Hc Hs). assert (H2 := apply_agree G M _ _ Hc H1).
    intros X c HG. unfold taylor. rewrite (H X c HG), (Hs X c HG), (H1 X c HG), (H2 X c HG). reflexivity.
  Qed.

  Lemma taylors_agree : forall G n h forcing M nows v w, closed G M -> agree G v w ->
    agree G (taylors n h forcing M nows v) (taylors n h forcing M nows w).
  Proof.
    intros G n h forcing M nows. induction nows as [|now nows IH]; intros v w Hc H; [exact H|].
    cbn [taylors]. apply IH; auto. apply taylor_agree; auto.
  Qed.

  (** Any number of steps. *)
  Lemma rk_linear_run : forall {U} cfg (prog : icaller (T:=Qc) U) z k0 u0 calls k u dt G forcing M nows (st : state Qc) s' st',
    new_rk z = Ok k0 -> after (ssp_rk cfg prog) calls (k0, u0) = (k, u) ->
    proper_components prog -> proper_state st ->
    in_a_row (ssp_rk cfg prog) dt (k, u) st nows s' st' ->
    closed G M -> linear_rates G forcing M dt prog -> holds_points G st ->
    holds_points G st' /\
    forall X c, G X c -> value st' X c = taylors (Z.to_nat z) (Q2Qc (dt # 1000000)) forcing M nows (value st) X c.
  Proof.
    intros U cfg prog z k0 u0 calls k u dt G forcing M nows. revert calls k u.
    induction nows as [|now nows IH]; intros calls k u st s' st' Hz Haf Hpc Hps H Hcl Hl Hh; cbn [in_a_row taylors] in *.
    - destruct H as (_ & ->). auto.
    - destruct H as ([k1 u1] & diag & new & Ht & Hr & next & Hn & Hpn & Hrow).
      destruct (rk_linear cfg prog z k0 u0 calls k u st dt _ diag new G forcing M now Hz Haf Hpc Hps Hr Hcl Hl Hh Ht) as (I1 & _ & I2).
      assert (Hv : agree G (value next) (value new)).
      { intros X c HG. unfold value. rewrite (Hn X (proj1 (Hcl X c HG))). reflexivity. }
      destruct (IH (calls ++ [(st, dt)]) k1 u1 next s' st') as (J1 & J2); auto.
      + unfold after. rewrite fold_left_app. cbn [fold_left fst snd]. unfold after in Haf. rewrite Haf, Hr. reflexivity.
      + intros X c HG. destruct (I1 X c HG) as (x & Hx & Hg). exists x. split; auto. rewrite (Hn X (proj1 (Hcl X c HG))). exact Hx.
      + split; auto. intros X c HG. rewrite (J2 X c HG). apply (taylors_agree G); auto.
        intros X' c' HG'. rewrite (Hv X' c' HG'). apply I2; auto.
  Qed.

  Lemma no_operator : forall v X c, apply (fun _ _ => []) v X c = 0%Qc.
  Proof. reflexivity. Qed.

  (** Tendencies that depend on the time alone. *)
  Lemma rk_time_only : forall {U} cfg (prog : icaller (T:=Qc) U) z k0 u0 calls k u (st : state Qc) dt s' diag new (G : points) forcing now,
    new_rk z = Ok k0 -> after (ssp_rk cfg prog) calls (k0, u0) = (k, u) ->
    proper_components prog -> proper_state st ->
    ssp_rk cfg prog (k, u) st dt = (s', Ok (diag, new)) ->
    (forall X c, G X c -> X <> "time") -> linear_rates G forcing (fun _ _ => []) dt prog -> holds_points G st ->
    dget "time" st = Some (VTime now) ->
    forall X c, G X c -> value new X c = (value st X c + Q2Qc (dt # 1000000) * forcing now X c)%Qc.
  Proof.
    intros U cfg prog z k0 u0 calls k u st dt s' diag new G forcing now Hz Haf Hpc Hps H Hne Hl Hh Ht X c HG.
    assert (Hcl : closed G (fun _ _ => [])) by (intros X' c' HG'; split; [eauto|intros ? ? ? []]).
    destruct (rk_linear cfg prog z k0 u0 calls k u st dt s' diag new G forcing _ now Hz Haf Hpc Hps H Hcl Hl Hh Ht) as (_ & _ & I).
    rewrite (I X c HG).
    destruct (rk_stages_exact cfg prog z k0 u0 calls k u st dt s' diag new Hz Haf Hpc Hps H) as [(-> & _)|(-> & _)].
    - change (Z.to_nat 3) with 3. unfold taylor, slope. rewrite !no_operator. ring.
    - change (Z.to_nat 2) with 2. unfold taylor, slope. rewrite !no_operator. ring.
  Qed.
End Order.
