(** Runs of a single RelaxationTendencyComponent (C97). *)
From Coq Require Import String List Bool Arith ZArith QArith Qcanon Lia.
From Verif Require Import Prelude PreludeFacts ArithM NdArray NdFacts Units DataArrayM GetNp Components Composite Steppers Basic
  SpecUnits UnitsFacts SpecArrays SpecDa SpecSteppers SpecBasic SpecOrder SpecRelax
  DaFacts ABFacts RKFacts LeapFacts StepAlgebra StepRuns StepExact SteppersMain BasicFacts BasicMain RKInv RelaxFacts.
Import ListNotations.
Open Scope string_scope.
Open Scope nat_scope.
Open Scope list_scope.

Section RelaxMain.
  Context {R : Registry}.

  Lemma value_same : forall (a b : da Qc) u p y, attrs b = attrs a -> da_at b p = da_at a p -> value_in a u p y -> value_in b u p y.
  Proof. intros a b u p y Ha Hd (own & Ho & Hc). exists own. unfold units_of in *. rewrite Ha, Hd. auto. Qed.

  Lemma relaxing_cong : forall q p ve vs v (st st' : state Qc),
    (forall X, In X [q; ("equilibrium_" ++ q)%string; (q ++ "_relaxation_timescale")%string] -> dget X st' = dget X st) ->
    relaxing q p ve vs v st -> relaxing q p ve vs v st'.
  Proof.
    intros q p ve vs v st st' H (x & e & s & ux & G1 & G2 & G3 & G). exists x, e, s, ux.
    rewrite !H by (cbn [In]; auto). auto.
  Qed.

  (** The equilibrium and the timescale have the same values in both. *)
  Definition held (q : string) (p : string -> nat) (st st' : state Qc) : Prop :=
    forall X, In X [("equilibrium_" ++ q)%string; (q ++ "_relaxation_timescale")%string] ->
      exists x x', dget X st = Some (VDA x) /\ dget X st' = Some (VDA x') /\ in_grid x' p /\ da_at x' p = da_at x p.

  (** Combinations with weights that add up to one. *)
  Lemma relax_comb : forall q p ve vs v v' a b (st st' out : state Qc), (a + b = 1)%Qc ->
    (forall X, In X [q; ("equilibrium_" ++ q)%string; (q ++ "_relaxation_timescale")%string] -> X <> "time") ->
    held q p st st' ->
    combination (fun x y => (a * x + b * y)%Qc) st st' out ->
    relaxing q p ve vs v st -> relaxing q p ve vs v' st' ->
    relaxing q p ve vs (a * v + b * v')%Qc out /\ held q p st out.
  Proof.
    intros q p ve vs v v' a b st st' out Hab Hnt Hfix (_ & C) (x & e & s & ux & G1 & G2 & G3 & P1 & P2 & P3 & Ux & V & Ve & Vs)
      (x' & e' & s' & ux' & G1' & _ & _ & P1' & _ & _ & _ & V' & _ & _).
    assert (Hout : forall X y y', X <> "time" -> dget X st = Some (VDA y) -> dget X st' = Some (VDA y') -> in_grid y p -> in_grid y' p ->
      exists r, dget X out = Some (VDA r) /\ attrs r = attrs y /\ in_grid r p /\ da_at r p = (a * da_at y p + b * da_at y' p)%Qc).
    { intros X y y' HX Hy Hy' Py Py'. specialize (C X HX). rewrite Hy in C. destruct C as (y0 & r & E0 & Er & Hext & Hv).
      rewrite Hy' in E0. injection E0 as <-. exists r. split; auto. split; [apply Hext|].
      assert (Pr : in_grid r p) by (eapply in_grid_extends; eauto). split; auto. apply (proj2 (Hv p Pr)). }
    destruct (Hout q x x') as (r & Er & Ar & Pr & Vr); auto; [apply Hnt; left; auto|].
    destruct (Hfix ("equilibrium_" ++ q)%string) as (e0 & e1 & E0 & E1 & Pe1 & Ve1); [left; auto|]. rewrite G2 in E0. injection E0 as <-.
    destruct (Hfix (q ++ "_relaxation_timescale")%string) as (s0 & s1 & S0 & S1 & Ps1 & Vs1); [right; left; auto|]. rewrite G3 in S0. injection S0 as <-.
    destruct (Hout ("equilibrium_" ++ q)%string e e1) as (re & Ere & Are & Pre & Vre); auto; [apply Hnt; right; left; auto|].
    destruct (Hout (q ++ "_relaxation_timescale")%string s s1) as (rs & Ers & Ars & Prs & Vrs); auto; [apply Hnt; right; right; left; auto|].
    assert (Hone : forall w : Qc, (a * w + b * w)%Qc = w) by (intros w; transitivity ((a + b) * w)%Qc; [ring|rewrite Hab; ring]).
    split.
    2: { intros X [<-|[<-|[]]]; [exists e, re|exists s, rs]; (split; [assumption|]); (split; [assumption|]); (split; [assumption|]); [rewrite Vre, Ve1|rewrite Vrs, Vs1]; apply Hone. }
    exists r, re, rs, ux. do 6 (split; [assumption|]).
    split; [unfold units_of in *; rewrite Ar; auto|]. split; [rewrite Vr, V, V'; auto|].
    split; [eapply value_same; [exact Are|rewrite Vre, Ve1; apply Hone|exact Ve]|eapply value_same; [exact Ars|rewrite Vrs, Vs1; apply Hone|exact Vs]].
  Qed.

  Lemma held_trans : forall q p st1 st2 st3, held q p st1 st2 -> held q p st2 st3 -> held q p st1 st3.
  Proof.
    intros q p st1 st2 st3 H1 H2 X HX. destruct (H1 X HX) as (x & y & A1 & A2 & A3 & A4), (H2 X HX) as (y' & z & B1 & B2 & B3 & B4).
    exists x, z. rewrite A2 in B1. injection B1 as <-. rewrite B4, A4. auto.
  Qed.

  Context (over_s : string -> res string) (q u tu name : string) (tid : bool) (c : tcomp).
  Context (Ho : over_s u = Ok tu) (Hn : new_relaxation over_s q u name tid = Ok c).
  Context (Hsane : sane_registry R) (Hps : per_second_law R) (Hos : over_second_law R over_s).
  Let prog := relax_prog q c.

  Lemma relax_euler : forall w (st : state Qc) d w' tend diag st' p ve vs v, fit st -> prog w st d = (w', Ok (tend, diag)) ->
    euler_step d st tend st' -> relaxing q p ve vs v st -> vs <> 0%Qc ->
    relaxing q p ve vs (v + Q2Qc (d # 1000000) * ((ve - v) / vs))%Qc st' /\ held q p st st'.
  Proof.
    intros w st d w' tend diag st' p ve vs v F H E Hr Hvs. pose proof Hr as (x & e & s & ux & G1 & G2 & G3 & P1 & P2 & P3 & Ux & V & Ve & Vs).
    destruct (relax_tend over_s q u tu name tid c Ho Hn _ _ _ _ _ _ F H) as (x0 & e0 & s0 & t & r & X1 & X2 & X3 & Hrel & Ht & Hs & _).
    rewrite G1 in X1. injection X1 as <-. rewrite G2 in X2. injection X2 as <-. rewrite G3 in X3. injection X3 as <-.
    destruct (relax_names q) as (N1 & N2 & _).
    assert (Hq : dget q tend = Some r) by (rewrite Ht, String.eqb_refl; auto).
    assert (Hk : forall X, X <> q -> dget X st' = dget X st).
    { intros X HX. apply (proj1 E). intros Hin. apply In_keys_dget in Hin as (b & Hb). rewrite Ht in Hb. apply String.eqb_neq in HX. rewrite HX in Hb. discriminate Hb. }
    assert (Pt : in_grid t p).
    { destruct Hrel as (_ & _ & _ & Lt & _). intros dd n Hd. rewrite Lt in Hd. apply first_len_in in Hd as (b & [<-|[<-|[<-|[]]]] & E'); [apply (P1 dd n E')|apply (P2 dd n E')|apply (P3 dd n E')]. }
    assert (Pr : in_grid r p).
    { destruct Hs as (_ & _ & _ & Lr & _). intros dd n Hd. rewrite Lr in Hd. apply first_len_in in Hd as (b & [<-|[]] & E'). apply (Pt dd n E'). }
    destruct (proj2 E q r Hq) as (x0 & x' & E0 & E1 & Hext & Hv). rewrite G1 in E0. injection E0 as <-.
    assert (Px' : in_grid x' p) by (eapply in_grid_extends; eauto).
    destruct (Hv p Px') as (_ & y & Hy & Vy).
    rewrite (relax_rate over_s q u tu name tid c Ho Hn Hsane Hps Hos _ _ _ _ _ _ p ve vs v r y F H Hr Hvs Hq Hy) in Vy. cbn [aadd amul aofQ ArithQc] in Vy.
    split.
    - exists x', e, s, ux. split; [exact E1|]. split; [rewrite Hk; auto|]. split; [rewrite Hk; auto|]. split; [auto|]. split; [auto|]. split; [auto|].
      split; [destruct Hext as (_ & Ha & _); unfold units_of in *; rewrite Ha; auto|]. split; [rewrite Vy, V; ring|]. split; auto.
    - intros X [<-|[<-|[]]]; [exists e, e|exists s, s]; rewrite Hk; auto.
  Qed.

  (** One step of each one-step scheme. *)

  Lemma nt_names : forall (st : state Qc) now p ve vs v, relaxing q p ve vs v st -> dget "time" st = Some (VTime now) ->
    forall X, In X [q; ("equilibrium_" ++ q)%string; (q ++ "_relaxation_timescale")%string] -> X <> "time".
  Proof.
    intros st now p ve vs v (x & e & s & ux & G1 & G2 & G3 & _) Ht X [<-|[<-|[<-|[]]]] E; rewrite E in *; congruence.
  Qed.

  Lemma relax_ab_step : forall cfg a w (st : state Qc) dt s' diag new p ve vs v, ab_order a = 1 -> fit st ->
    adams_bashforth cfg prog (a, w) st dt = (s', Ok (diag, new)) -> relaxing q p ve vs v st -> vs <> 0%Qc ->
    ab_order (fst s') = 1 /\ fit new /\ relaxing q p ve vs (ve + decay 1 (Q2Qc (dt # 1000000) / vs) * (v - ve))%Qc new.
  Proof.
    intros cfg a w st dt [a' w'] diag new p ve vs v Ha F H Hr Hvs.
    destruct (ab_one_inv prog dt fit fit_proper (fun w st w' t d => fit_tend over_s q u tu name tid c Ho Hn w st dt w' t d)
      (fun w st w' t d st' => fit_euler over_s q u tu name tid c Ho Hn w st dt w' t d st') cfg a w st a' w' diag new Ha F H)
      as (Ha' & tend & d0 & Hp & He & Fn).
    split; [exact Ha'|]. split; [exact Fn|]. destruct (relax_euler _ _ _ _ _ _ _ _ _ _ _ F Hp He Hr Hvs) as (H1 & _).
    replace (ve + decay 1 (Q2Qc (dt # 1000000) / vs) * (v - ve))%Qc with (v + Q2Qc (dt # 1000000) * ((ve - v) / vs))%Qc; [exact H1|].
    unfold decay. field; auto.
  Qed.

  Lemma decay2 : forall h ve vs v : Qc, vs <> 0%Qc ->
    (let v1 := v + h * ((ve - v) / vs) in let v2 := v1 + h * ((ve - v1) / vs) in
     Q2Qc (1 # 2) * v + Q2Qc (1 # 2) * v2 = ve + decay 2 (h / vs) * (v - ve))%Qc.
  Proof.
    intros h ve vs v Hvs. cbv zeta. unfold decay, Qcdiv. generalize (/ vs)%Qc. intros k. clear. qc_ring.
  Qed.

  Lemma decay3 : forall h ve vs v : Qc, vs <> 0%Qc ->
    (let v1 := v + h * ((ve - v) / vs) in let v15 := v1 + h * ((ve - v1) / vs) in
     let v2 := Q2Qc (3 # 4) * v + Q2Qc (1 # 4) * v15 in let v25 := v2 + h * ((ve - v2) / vs) in
     Q2Qc (1 # 3) * v + Q2Qc (2 # 3) * v25 = ve + decay 3 (h / vs) * (v - ve))%Qc.
  Proof.
    intros h ve vs v Hvs. cbv zeta. unfold decay, Qcdiv. generalize (/ vs)%Qc. intros k. clear. qc_ring.
  Qed.

  Lemma relax_rk_step : forall cfg z k0 u0 calls k w (st : state Qc) dt s' diag new now p ve vs v,
    new_rk z = Ok k0 -> after (ssp_rk cfg prog) calls (k0, u0) = (k, w) -> fit st -> dget "time" st = Some (VTime now) ->
    ssp_rk cfg prog (k, w) st dt = (s', Ok (diag, new)) -> relaxing q p ve vs v st -> vs <> 0%Qc ->
    fit new /\ relaxing q p ve vs (ve + decay (Z.to_nat z) (Q2Qc (dt # 1000000) / vs) * (v - ve))%Qc new.
  Proof.
    intros cfg z k0 u0 calls k w st dt s' diag new now p ve vs v Hz Haf F Ht H Hr Hvs.
    destruct (rk_reachable cfg prog z k0 u0 calls k w Hz Haf) as (R1 & R2 & R3). destruct k as [stages eu]. cbn [rk_euler rk_stages] in *.
    pose proof (nt_names _ _ _ _ _ _ Hr Ht) as Hnt.
    set (h := Q2Qc (dt # 1000000)) in *.
    destruct R3 as [-> | ->].
    - assert (stages = 2) by lia. subst.
      destruct (rk2_inv prog dt fit fit_proper (fun w st w' t d => fit_tend over_s q u tu name tid c Ho Hn w st dt w' t d)
        (fun w st w' t d st' => fit_euler over_s q u tu name tid c Ho Hn w st dt w' t d st') (fun f st st' out => fit_comb f st st' out)
        cfg eu w st s' diag new R1 F H) as (u1 & u2 & t1 & t2 & d1 & d2 & st1 & st2 & P1 & E1 & P2 & E2 & C & F1 & F2 & Fn).
      split; [exact Fn|].
      destruct (relax_euler _ _ _ _ _ _ _ _ _ _ _ F P1 E1 Hr Hvs) as (H1 & K1). fold h in H1.
      destruct (relax_euler _ _ _ _ _ _ _ _ _ _ _ F1 P2 E2 H1 Hvs) as (H2 & K2). fold h in H2.
      destruct (relax_comb q p ve vs _ _ (Q2Qc (1 # 2)) (Q2Qc (1 # 2)) st st2 new ltac:(apply Qc_is_canon; reflexivity) Hnt (held_trans _ _ _ _ _ K1 K2) C Hr H2) as (Hf & _).
      change (Z.to_nat 2) with 2. rewrite <- (decay2 h ve vs v Hvs). exact Hf.
    - assert (stages = 3) by lia. subst.
      destruct (rk3_inv prog dt fit fit_proper (fun w st w' t d => fit_tend over_s q u tu name tid c Ho Hn w st dt w' t d)
        (fun w st w' t d st' => fit_euler over_s q u tu name tid c Ho Hn w st dt w' t d st') (fun f st st' out => fit_comb f st st' out)
        cfg eu w st s' diag new R1 F H) as (u1 & u2 & u3 & t1 & t2 & t3 & d1 & d2 & d3 & st1 & st15 & st2 & st25 & P1 & E1 & P2 & E2 & C1 & P3 & E3 & C2 & F1 & F15 & F2 & F25 & Fn).
      split; [exact Fn|].
      destruct (relax_euler _ _ _ _ _ _ _ _ _ _ _ F P1 E1 Hr Hvs) as (H1 & K1). fold h in H1.
      destruct (relax_euler _ _ _ _ _ _ _ _ _ _ _ F1 P2 E2 H1 Hvs) as (H15 & K15). fold h in H15.
      destruct (relax_comb q p ve vs _ _ (Q2Qc (3 # 4)) (Q2Qc (1 # 4)) st st15 st2 ltac:(apply Qc_is_canon; reflexivity) Hnt (held_trans _ _ _ _ _ K1 K15) C1 Hr H15) as (H2 & K2).
      destruct (relax_euler _ _ _ _ _ _ _ _ _ _ _ F2 P3 E3 H2 Hvs) as (H25 & K25). fold h in H25.
      destruct (relax_comb q p ve vs _ _ (Q2Qc (1 # 3)) (Q2Qc (2 # 3)) st st25 new ltac:(apply Qc_is_canon; reflexivity) Hnt (held_trans _ _ _ _ _ K2 K25) C2 Hr H25) as (Hf & _).
      change (Z.to_nat 3) with 3. rewrite <- (decay3 h ve vs v Hvs). exact Hf.
  Qed.

  (** Runs. *)
  Definition nearly_fit (st : state Qc) : Prop :=
    NoDup (keys st) /\ forall X a, X <> "time" -> dget X st = Some (VDA a) -> wf_da a /\ ~ In "*" (dims a).

  Lemma nearly_fit_fit : forall (st : state Qc) now, nearly_fit st -> dget "time" st = Some (VTime now) -> fit st.
  Proof.
    intros st now [N W] Ht. split; [|exact N]. intros X a Ha. apply (W X a); auto. intros ->. congruence.
  Qed.

  Lemma fit_next : forall (new next : state Qc), fit new -> (forall X, X <> "time" -> dget X next = dget X new) -> proper_state next -> nearly_fit next.
  Proof. intros new next [W N] H [N' _]. split; [exact N'|]. intros X a HX Ha. rewrite (H X HX) in Ha. apply (W X a Ha). Qed.

  Lemma relaxing_next : forall (st new next : state Qc) now p ve vs v v', relaxing q p ve vs v st -> dget "time" st = Some (VTime now) ->
    (forall X, X <> "time" -> dget X next = dget X new) -> relaxing q p ve vs v' new -> relaxing q p ve vs v' next.
  Proof.
    intros st new next now p ve vs v v' Hr Ht H Hn'. eapply relaxing_cong; [|exact Hn']. intros X HX. apply H. exact (nt_names st now p ve vs v Hr Ht X HX).
  Qed.

  Lemma relax_ab_rows : forall cfg dt p ve vs nows a w (st : state Qc) v s' st', ab_order a = 1 -> nearly_fit st ->
    in_a_row (adams_bashforth cfg prog) dt (a, w) st nows s' st' -> relaxing q p ve vs v st -> vs <> 0%Qc ->
    relaxing q p ve vs (ve + decay 1 (Q2Qc (dt # 1000000) / vs) ^ length nows * (v - ve))%Qc st'.
  Proof.
    intros cfg dt p ve vs nows. induction nows as [|now nows IH]; intros a w st v s' st' Ha F H Hr Hvs; cbn [in_a_row length] in *.
    - destruct H as (_ & ->). change (decay 1 (Q2Qc (dt # 1000000) / vs) ^ 0)%Qc with 1%Qc.
      replace (ve + 1 * (v - ve))%Qc with v by ring. exact Hr.
    - destruct H as ([a1 w1] & diag & new & Ht & Hc & next & Hn' & Hpn & Hrow).
      destruct (relax_ab_step cfg a w st dt _ diag new p ve vs v Ha (nearly_fit_fit _ _ F Ht) Hc Hr Hvs) as (A1 & F1 & R1).
      pose proof (relaxing_next _ _ _ _ _ _ _ _ _ Hr Ht Hn' R1) as R2.
      pose proof (IH a1 w1 next _ s' st' A1 (fit_next _ _ F1 Hn' Hpn) Hrow R2 Hvs) as Hres.
      set (z := (Q2Qc (dt # 1000000) / vs)%Qc) in *.
      replace (ve + decay 1 z ^ S (length nows) * (v - ve))%Qc with (ve + decay 1 z ^ length nows * (ve + decay 1 z * (v - ve) - ve))%Qc; [exact Hres|].
      cbn [Qcpower]. ring.
  Qed.

  Lemma order_after : forall cfg calls a0 w0 a w, after (adams_bashforth cfg prog) calls (a0, w0) = (a, w) -> ab_order a = ab_order a0.
  Proof.
    intros cfg calls. induction calls as [|[st dt] calls IH]; intros a0 w0 a w H.
    - cbn in H. congruence.
    - unfold after in H. cbn [fold_left fst snd] in H. destruct (adams_bashforth cfg prog (a0, w0) st dt) as [[a1 w1] r] eqn:E.
      cbn [fst] in H. unfold after in IH. rewrite (IH a1 w1 a w H). unfold adams_bashforth in E.
      destruct (ab_call prog (a0, w0) st dt) as [[a2 w2] r2] eqn:E2. injection E as <- <- _. eapply ab_order_call; eauto.
  Qed.

  Lemma relax_ab_run : forall cfg dt o a0 w0 calls a w p ve vs nows (st : state Qc) v s' st', new_ab o = Ok a0 -> is_order o 1 ->
    after (adams_bashforth cfg prog) calls (a0, w0) = (a, w) -> wf_state st -> NoDup (keys st) ->
    in_a_row (adams_bashforth cfg prog) dt (a, w) st nows s' st' -> relaxing q p ve vs v st -> vs <> 0%Qc ->
    relaxing q p ve vs (ve + decay 1 (Q2Qc (dt # 1000000) / vs) ^ length nows * (v - ve))%Qc st'.
  Proof.
    intros cfg dt o a0 w0 calls a w p ve vs nows st v s' st' Hnew Hor Haf W N. apply relax_ab_rows.
    - rewrite (order_after _ _ _ _ _ _ Haf). destruct (order_made o 1 a0 Hnew Hor) as (_ & ->). reflexivity.
    - split; [exact N|]. intros X b _. apply W.
  Qed.

  Lemma relax_rk_run : forall cfg dt z k0 u0 p ve vs nows calls k w (st : state Qc) v s' st',
    new_rk z = Ok k0 -> after (ssp_rk cfg prog) calls (k0, u0) = (k, w) -> wf_state st -> NoDup (keys st) ->
    in_a_row (ssp_rk cfg prog) dt (k, w) st nows s' st' -> relaxing q p ve vs v st -> vs <> 0%Qc ->
    relaxing q p ve vs (ve + decay (Z.to_nat z) (Q2Qc (dt # 1000000) / vs) ^ length nows * (v - ve))%Qc st'.
  Proof.
    intros cfg dt z k0 u0 p ve vs nows calls k w st v s' st' Hz Haf W N.
    assert (F : nearly_fit st) by (split; [exact N|]; intros X b _; apply W). clear W N.
    revert calls k w st v s' st' Haf F.
    induction nows as [|now nows IH]; intros calls k w st v s' st' Haf F H Hr Hvs; cbn [in_a_row length] in *.
    - destruct H as (_ & ->). change (decay (Z.to_nat z) (Q2Qc (dt # 1000000) / vs) ^ 0)%Qc with 1%Qc.
      replace (ve + 1 * (v - ve))%Qc with v by ring. exact Hr.
    - destruct H as ([k1 w1] & diag & new & Ht & Hc & next & Hn' & Hpn & Hrow).
      destruct (relax_rk_step cfg z k0 u0 calls k w st dt _ diag new now p ve vs v Hz Haf (nearly_fit_fit _ _ F Ht) Ht Hc Hr Hvs) as (F1 & R1).
      pose proof (relaxing_next _ _ _ _ _ _ _ _ _ Hr Ht Hn' R1) as R2.
      assert (Haf' : after (ssp_rk cfg prog) (calls ++ [(st, dt)]) (k0, u0) = (k1, w1)).
      { unfold after. rewrite fold_left_app. cbn [fold_left fst snd]. unfold after in Haf. rewrite Haf, Hc. reflexivity. }
      pose proof (IH _ k1 w1 next _ s' st' Haf' (fit_next _ _ F1 Hn' Hpn) Hrow R2 Hvs) as Hres.
      set (y := (Q2Qc (dt # 1000000) / vs)%Qc) in *. set (n := Z.to_nat z) in *.
      replace (ve + decay n y ^ S (length nows) * (v - ve))%Qc with (ve + decay n y ^ length nows * (ve + decay n y * (v - ve) - ve))%Qc; [exact Hres|].
      cbn [Qcpower]. ring.
  Qed.

  (** Leapfrog without a filter. *)
  Lemma relax_leap_run : forall cfg dt alpha w log s p ve vs v,
    lhistory cfg prog dt (new_leap 0%Qc alpha, w) log s ->
    (forall e, In e log -> wf_state (l_st e) /\ NoDup (keys (l_st e))) ->
    (forall pre a b post, log = pre ++ a :: b :: post -> forall X, X <> "time" -> dget X (l_st b) = dget X (l_new a)) ->
    (forall e, In e log -> exists now, dget "time" (l_st e) = Some (VTime now)) ->
    (forall e post, log = e :: post -> relaxing q p ve vs v (l_st e)) -> vs <> 0%Qc ->
    forall k e, nth_error log k = Some e ->
      relaxing q p ve vs (ve + leap_off (Q2Qc (dt # 1000000) / vs) (v - ve) k)%Qc (l_st e) /\
      relaxing q p ve vs (ve + leap_off (Q2Qc (dt # 1000000) / vs) (v - ve) (S k))%Qc (l_new e).
  Proof.
    intros cfg dt alpha w log s p ve vs v H Hfit Hho Htime H0 Hvs.
    set (z := (Q2Qc (dt # 1000000) / vs)%Qc).
    assert (Hcalls : forall e, In e log -> exists w w' diag, prog w (l_st e) dt = (w', Ok (l_tend e, diag))).
    { clear - H. induction H as [|s0 log l u0 st u' tend pdiag l' st' diag new H IH Hp Hc]; intros e He; [destruct He|].
      apply in_app_or in He as [He|[<-|[]]]; [auto|]. exists u0, u', pdiag. exact Hp. }
    assert (Hw : wf_llog log).
    { intros e He. destruct (Hfit e He) as [W N]. split; [apply fit_proper; split; auto|].
      destruct (Hcalls e He) as (w1 & w2 & dg & Hc). eapply (fit_tend over_s q u tu name tid c Ho Hn); [split; [exact W|exact N]|exact Hc]. }
    destruct (leap_formula_lemma cfg prog dt 0%Qc alpha w _ s H Hw) as (F0 & FS).
    assert (M : forall k e, nth_error log k = Some e ->
      relaxing q p ve vs (ve + leap_off z (v - ve) k)%Qc (l_st e) /\
      (exists x, dget q (l_after e) = Some (VDA x) /\ in_grid x p /\ da_at x p = (ve + leap_off z (v - ve) k)%Qc /\
        exists y, dget q (l_new e) = Some (VDA y) /\ units_of y = units_of x) /\
      relaxing q p ve vs (ve + leap_off z (v - ve) (S k))%Qc (l_new e)).
    { induction k as [|k IH]; intros e He.
      - destruct log as [|e' log']; [discriminate He|]. injection He as ->.
        destruct (F0 e log' eq_refl) as (Ea & Eu). pose proof (H0 e log' eq_refl) as Hr. rewrite Ea.
        destruct (Hcalls e (or_introl eq_refl)) as (w1 & w2 & dg & Hc). destruct (Hfit e (or_introl eq_refl)) as [W N].
        destruct (relax_euler _ _ _ _ _ _ _ _ _ _ _ (conj W N) Hc Eu Hr Hvs) as (H1 & _).
        unfold leap_off. cbn [leap_two fst]. replace (ve + (v - ve))%Qc with v by ring.
        split; [exact Hr|]. split.
        + destruct Hr as (x & e1 & s1 & ux & G1 & _ & _ & P1 & _ & _ & Ux & V & _). exists x. split; [auto|]. split; [auto|]. split; [auto|].
          destruct (relax_tend over_s q u tu name tid c Ho Hn _ _ _ _ _ _ (conj W N) Hc) as (_ & _ & _ & _ & r & _ & _ & _ & _ & Ht & _).
          assert (Hq : dget q (l_tend e) = Some r) by (rewrite Ht, String.eqb_refl; auto).
          destruct (proj2 Eu q r Hq) as (x2 & y & Ex2 & Ey & (_ & Ay & _) & _). rewrite G1 in Ex2. injection Ex2 as <-.
          exists y. split; [auto|]. unfold units_of. rewrite Ay. auto.
        + replace (ve + (1 - z) * (v - ve))%Qc with (v + Q2Qc (dt # 1000000) * ((ve - v) / vs))%Qc; [exact H1|]. unfold z. field; auto.
      - assert (Hk : exists b, nth_error log k = Some b).
        { destruct (nth_error log k) as [b|] eqn:E; [eauto|]. apply nth_error_None in E.
          assert (X : nth_error log (S k) <> None) by congruence. apply nth_error_Some in X. lia. }
        destruct Hk as (b & Hb). destruct (IH b Hb) as (Ist & (xa & Xa & Pa & Va & xn & Xn & Un) & Inew).
        assert (Hs : exists pre post, log = pre ++ b :: e :: post).
        { destruct (nth_error_split _ _ Hb) as (pre & post & E & Ln). exists pre.
          rewrite E in He. rewrite nth_error_app2 in He by lia. replace (S k - length pre) with 1 in He by lia.
          destruct post as [|e' post]; [discriminate He|]. injection He as ->. exists post. exact E. }
        destruct Hs as (pre & post & E).
        assert (Hbi : In b log) by (eapply nth_error_In; eauto). assert (Hei : In e log) by (eapply nth_error_In; eauto).
        destruct (Htime b Hbi) as (now & Hnow).
        pose proof (relaxing_next _ _ _ _ _ _ _ _ _ Ist Hnow (Hho pre b e post E) Inew) as Rst.
        split; [exact Rst|].
        destruct (Hcalls e Hei) as (w1 & w2 & dg & Hc). destruct (Hfit e Hei) as [W N].
        destruct (FS pre b e post E) as (L1 & L2 & L3).
        destruct (relax_tend over_s q u tu name tid c Ho Hn _ _ _ _ _ _ (conj W N) Hc) as (x0 & e0 & s0 & t & r & X1 & X2 & X3 & Hrel & Ht & Hs & _).
        pose proof Rst as (x & ee & ss & ux & G1 & G2 & G3 & P1 & P2 & P3 & Ux & V & Ve & Vs).
        rewrite G1 in X1. injection X1 as <-. rewrite G2 in X2. injection X2 as <-. rewrite G3 in X3. injection X3 as <-.
        assert (Hq : dget q (l_tend e) = Some r) by (rewrite Ht, String.eqb_refl; auto).
        destruct (L3 q r Hq) as (o & x1 & x' & n' & Eo & Ex & Ex' & En' & Y1 & Y2 & V1 & V2).
        rewrite Xa in Eo. injection Eo as <-. rewrite G1 in Ex. injection Ex as <-.
        destruct (V1 p P1) as (Po & Pr & y1 & Hy1 & W1).
        assert (Px' : in_grid x' p) by (eapply in_grid_extends; [exact Y1|exact P1|constructor]).
        assert (Pn' : in_grid n' p) by (eapply in_grid_extends; [exact Y2|exact Pa|constructor; [exact Pr|constructor]]).
        destruct (V2 p Pn') as (_ & _ & y2 & Hy2 & W2).
        rewrite leap_nu0 in W1, W2 by reflexivity. cbn [fst snd] in W1, W2.
        rewrite (relax_rate over_s q u tu name tid c Ho Hn Hsane Hps Hos _ _ _ _ _ _ p ve vs _ r y2 (conj W N) Hc Rst Hvs Hq Hy2) in W2.
        destruct (relax_names q) as (N1 & N2 & _).
        assert (Hkn : forall X, X <> q -> dget X (l_new e) = dget X (l_st e)).
        { intros X HX. apply L2. intros Hin. apply In_keys_dget in Hin as (d & Hd). rewrite Ht in Hd. apply String.eqb_neq in HX. rewrite HX in Hd. discriminate Hd. }
        assert (Uo : units_of n' = Some ux).
        { destruct Y2 as (_ & An & _). unfold units_of in *. rewrite An, <- Un.
          rewrite (Hho pre b e post E q (nt_names _ _ _ _ _ _ Ist Hnow q (or_introl eq_refl))), Xn in G1. injection G1 as <-. exact Ux. }
        split.
        { exists x'. split; [auto|]. split; [auto|]. split; [rewrite W1; exact V|]. exists n'. split; [auto|].
          rewrite Uo. destruct Y1 as (_ & A1 & _). unfold units_of in *. rewrite A1. auto. }
        exists n', ee, ss, ux. split; [exact En'|]. split; [rewrite Hkn; auto|]. split; [rewrite Hkn; auto|]. split; [auto|]. split; [auto|]. split; [auto|].
        split; [exact Uo|]. split; [|auto].
        rewrite W2, Va. unfold leap_off. cbn [leap_two]. destruct (leap_two z (v - ve) k) as [da db] eqn:El. cbn [fst snd].
        cbn [aofQ ArithQc]. unfold z. field; auto. }
    intros k e He. destruct (M k e He) as (A & _ & B). auto.
  Qed.
End RelaxMain.
