(** Steps of a single RelaxationTendencyComponent (C97). *)
From Coq Require Import String List Bool Arith ZArith QArith Qcanon Lia.
From Verif Require Import Prelude PreludeFacts ArithM NdArray NdFacts Units DataArrayM Wildcard GetNp Restore Tracers Components Composite Steppers Basic
  SpecUnits UnitsFacts SpecArrays SpecDa SpecComponents SpecCalls SpecComposite SpecSteppers SpecBasic SpecRelax
  WildcardFacts GetNpFacts ExtractFacts RestoreFacts RoundTripFacts ArraysMain CallFacts ComponentFacts TidFacts DaFacts
  CompositeFacts CompositeMain ABFacts RKFacts LeapFacts StepAlgebra StepExact SteppersFacts SteppersMain BasicFacts BasicMain RKInv.
Import ListNotations.
Open Scope string_scope.
Open Scope nat_scope.
Open Scope list_scope.

Definition fit (st : state Qc) : Prop := wf_state st /\ NoDup (keys st).

Lemma fit_proper : forall st, fit st -> proper_state st.
Proof. intros st [W N]. split; auto. intros X a H. apply (W X a H). Qed.

Lemma first_len_in : forall (l : list (da Qc)) d n, first_len d l = Some n -> exists a, In a l /\ dim_len a d = Some n.
Proof.
  induction l as [|a l IH]; intros d n H; [discriminate H|]. cbn [first_len] in H. destruct (dim_len a d) as [m|] eqn:E.
  - injection H as ->. exists a. split; [left; auto|auto].
  - destruct (IH d n H) as (b & Hb & E'). exists b. split; [right; auto|auto].
Qed.

Lemma cancel_r : forall k a b : Qc, k <> 0%Qc -> (a * k = b * k)%Qc -> a = b.
Proof.
  intros k a b Hk E. transitivity (a * k * / k)%Qc; [field; auto|]. rewrite E. field; auto.
Qed.

Section RelaxFacts.
  Context {R : Registry}.

  Lemma star_extends : forall (x r : da Qc) ts, extends x ts r -> ~ In "*" (dims x) -> (forall t, In t ts -> wf_da t /\ ~ In "*" (dims t)) -> wf_da x -> ~ In "*" (dims r).
  Proof.
    intros x r ts (Wr & _ & _ & L) Hx Ht Wx Hin. apply (GetNpFacts.dim_len_some r "*" Wr) in Hin as (n & E).
    rewrite L in E. apply first_len_in in E as (a & [<-|Ha] & E).
    - apply Hx. apply (GetNpFacts.dim_len_some x "*" Wx). eauto.
    - destruct (Ht a Ha) as (W & N). apply N. apply (GetNpFacts.dim_len_some a "*" W). eauto.
  Qed.

  Context (over_s : string -> res string) (q u tu name : string) (tid : bool) (c : tcomp).
  Context (Ho : over_s u = Ok tu) (Hn : new_relaxation over_s q u name tid = Ok c).

  Definition relax_prog : icaller (T:=Qc) unit :=
    fun w st d => implicit_composite_call [inr (stateless (relaxation_call c q))] d w st.

  Lemma relax_tend : forall w (st : state Qc) d w' tend diag, fit st -> relax_prog w st d = (w', Ok (tend, diag)) ->
    exists x eq tau t r, dget q st = Some (VDA x) /\ dget ("equilibrium_" ++ q) st = Some (VDA eq) /\
      dget (q ++ "_relaxation_timescale") st = Some (VDA tau) /\ is_relaxation u tu x eq tau t /\
      (forall X, dget X tend = if String.eqb X q then Some r else None) /\ sum_of t [] r /\ proper tend /\ ~ In "*" (dims r).
  Proof.
    intros w st d w' tend diag [W N] Hp. unfold relax_prog, implicit_composite_call in Hp. cbn [map] in Hp.
    pose proof (composite_sum _ _ _ _ _ _ Hp) as (outs & Hr & Hsum).
    apply (runs_stateless st [relaxation_call c q]) in Hr. inversion Hr as [|? o' ? outs' Hc Hr']; subst. inversion Hr'; subst.
    destruct o' as [td dd].
    destruct (main_relaxation over_s q u tu name tid c st td dd W Ho Hn Hc) as (x & eq & tau & t & G1 & G2 & G3 & -> & _ & Hrel).
    assert (Hprop : Forall proper (map fst [([(q, t)], dd)])).
    { constructor; [|constructor]. split; [constructor; [intros []|constructor]|].
      intros X b. cbn [fst dget]. destruct (String.eqb X q); [|discriminate]. intros Eb; injection Eb as <-. apply Hrel. }
    specialize (Hsum Hprop). pose proof (Hsum q) as Hq. cbn in Hq. rewrite String.eqb_refl in Hq. cbn in Hq.
    destruct Hq as (r & Hr1 & Hs1). exists x, eq, tau, t, r. split; auto. split; auto. split; auto. split; auto.
    assert (Ht : forall X, dget X tend = if String.eqb X q then Some r else None).
    { intros X. destruct (String.eqb X q) eqn:EX. { apply String.eqb_eq in EX. subst X. auto. }
      specialize (Hsum X). cbn in Hsum. rewrite EX in Hsum. cbn in Hsum. auto. }
    split; [exact Ht|]. split; [auto|]. split.
    - split.
      + unfold tendency_composite_call in Hp. destruct (loop_get _ _ _ _ _ _ _ _ Hp) as (outs2 & _ & _ & _ & Hno). apply Hno. constructor.
      + intros X b Hb. rewrite Ht in Hb. destruct (String.eqb X q); [|discriminate Hb]. injection Hb as <-. apply Hs1.
    - destruct Hs1 as (Wr & _ & _ & Lr & _). intros Hin. apply (GetNpFacts.dim_len_some r "*" Wr) in Hin as (n & E).
      rewrite Lr in E. apply first_len_in in E as (a & [<-|[]] & E).
      destruct Hrel as (_ & _ & _ & Lt & _). rewrite Lt in E. apply first_len_in in E as (b & Hb & E).
      assert (Wb : wf_da b /\ ~ In "*" (dims b)) by (destruct Hb as [<-|[<-|[<-|[]]]]; eapply W; eauto).
      apply (proj2 Wb). apply (GetNpFacts.dim_len_some b "*" (proj1 Wb)). eauto.
  Qed.

  Lemma fit_tend : forall w (st : state Qc) d w' tend diag, fit st -> relax_prog w st d = (w', Ok (tend, diag)) -> proper tend.
  Proof. intros w st d w' tend diag F H. destruct (relax_tend _ _ _ _ _ _ F H) as (? & ? & ? & ? & ? & _ & _ & _ & _ & _ & _ & P & _). exact P. Qed.

  Lemma fit_euler : forall w (st : state Qc) d w' tend diag st', fit st -> relax_prog w st d = (w', Ok (tend, diag)) ->
    euler_step d st tend st' -> proper_state st' -> fit st'.
  Proof.
    intros w st d w' tend diag st' F H E [N' W']. split; [|exact N'].
    destruct (relax_tend _ _ _ _ _ _ F H) as (x & eq & tau & t & r & G1 & _ & _ & _ & Ht & Hs & _ & Hr).
    intros X a Ha. split; [eauto|]. destruct E as (E1 & E2).
    destruct (String.eqb X q) eqn:EX.
    - assert (Hx : dget X tend = Some r) by (rewrite Ht, EX; auto). destruct (E2 X r Hx) as (x0 & y & Ex & Ey & Hext & _).
      rewrite Ha in Ey. injection Ey as <-. destruct (proj1 F X x0 Ex) as (Wx & Sx). apply (star_extends _ _ _ Hext); auto.
      intros b [<-|[]]. split; auto. apply Hs.
    - assert (Hx : ~ In X (keys tend)).
      { intros Hin. apply In_keys_dget in Hin as (b & Hb). rewrite Ht, EX in Hb. discriminate Hb. }
      rewrite (E1 X Hx) in Ha. apply (proj1 F X a Ha).
  Qed.

  Lemma fit_comb : forall f (st st' out : state Qc), fit st -> fit st' -> combination f st st' out -> proper_state out -> fit out.
  Proof.
    intros f st st' out [W1 N1] [W2 N2] (C0 & C) [No Wo]. split; [|exact No]. intros X a Ha. split; [eauto|].
    destruct (String.eqb X "time") eqn:EX.
    - apply String.eqb_eq in EX. subst X. rewrite C0 in Ha. apply (W1 _ _ Ha).
    - apply String.eqb_neq in EX. specialize (C X EX). destruct (dget X st) as [[x|]|] eqn:Ex; [|destruct C|congruence].
      destruct C as (x' & r & Hx' & Hr & Hext & _). rewrite Ha in Hr. injection Hr as <-.
      apply (star_extends _ _ _ Hext); [apply (W1 _ _ Ex)| |apply (W1 _ _ Ex)]. intros b [<-|[]]. apply (W2 _ _ Hx').
  Qed.

  Context (Hsane : sane_registry R) (Hps : per_second_law R) (Hos : over_second_law R over_s).

  (** The rate at a point, in the units of the quantity. *)
  Lemma relax_rate : forall w (st : state Qc) d w' tend diag p ve vs v t y, fit st -> relax_prog w st d = (w', Ok (tend, diag)) ->
    relaxing q p ve vs v st -> vs <> 0%Qc -> dget q tend = Some t -> rate st q t p y -> y = ((ve - v) / vs)%Qc.
  Proof.
    intros w st d w' tend diag p ve vs v t y F H Hrx Hvs Hq Hy.
    destruct (relax_tend _ _ _ _ _ _ F H) as (x & eq & tau & t0 & r & G1 & G2 & G3 & Hrel & Ht & Hs & _).
    destruct Hrx as (x1 & e1 & s1 & ux & X1 & X2 & X3 & Px & Pe & Ps & Ux & <- & Ve & Vs).
    rewrite G1 in X1. injection X1 as <-. rewrite G2 in X2. injection X2 as <-. rewrite G3 in X3. injection X3 as <-.
    rewrite Ht, String.eqb_refl in Hq. injection Hq as <-.
    destruct Hrel as (Wt & At & _ & Lt & Vt). destruct Hs as (Wr & Ar & _ & Lr & Vr).
    assert (Pt : in_grid t0 p).
    { intros dd n Hd. rewrite Lt in Hd. apply first_len_in in Hd as (b & [<-|[<-|[<-|[]]]] & E); [apply (Px dd n E)|apply (Pe dd n E)|apply (Ps dd n E)]. }
    assert (Pr : in_grid r p).
    { intros dd n Hd. rewrite Lr in Hd. apply first_len_in in Hd as (b & [<-|[]] & E). apply (Pt dd n E). }
    destruct (Vr p Pr) as (ys & Hys & Hval). inversion Hys; subst. cbn [fold_left] in Hval.
    destruct (Vt p Pt) as (_ & _ & _ & vx' & ve' & vs' & (ox & Ox & Cx) & (oe & Oe & Ce) & Vs' & Hdiv).
    rewrite Ux in Ox. injection Ox as <-.
    assert (Evs : vs' = vs).
    { destruct Vs as (o1 & O1 & C1), Vs' as (o2 & O2 & C2). rewrite O1 in O2. injection O2 as <-. eapply converted_fun; eauto. }
    subst vs'.
    destruct Ve as (oe' & Oe' & Ce'). rewrite Oe in Oe'. injection Oe' as <-.
    destruct Cx as (uxx & uu & Pux & Pu & Du & Cx).
    assert (Cx0 : converted ux u (da_at x p) vx') by (exists uxx, uu; auto).
    assert (Bx : base_value uu vx' = base_value uxx (da_at x p)) by (eapply converted_base; eauto).
    assert (Poe : exists uoe, parse oe = Some uoe) by (destruct Ce as (w1 & _ & P1 & _); eauto). destruct Poe as (uoe & Poe).
    assert (Be : base_value uu ve' = base_value uxx ve).
    { rewrite (converted_base Hsane _ _ _ _ _ _ Ce Poe Pu). symmetry. exact (converted_base Hsane _ _ _ _ _ _ Ce' Poe Pux). }
    destruct (new_relaxation_parse over_s q u tu name tid c Ho Hn) as (ut & Put).
    destruct (Hos u tu uu ut Ho Pu Put) as [Hf Hoff].
    unfold rate in Hy. assert (Ur : units_of r = Some tu) by (unfold units_of; rewrite Ar, At; reflexivity). rewrite Ur in Hy.
    destruct Hy as (x2 & us & Ex2 & Us & Hcv). rewrite G1 in Ex2. injection Ex2 as <-. rewrite Ux in Us. injection Us as <-.
    assert (Pps : exists ups, parse (ux ++ " s^-1")%string = Some ups) by (destruct Hcv as (_ & w2 & _ & P2 & _); eauto). destruct Pps as (ups & Pps).
    pose proof (converted_base Hsane _ _ _ _ _ _ Hcv Put Pps) as By.
    destruct (Hps ux (ux ++ " s^-1")%string uxx ups (or_introl eq_refl) Pux Pps) as [Hfx Hox].
    rewrite Hval, Hdiv in By. unfold base_value in By, Bx, Be. rewrite Hf, Hoff, Hfx, Hox in By. cbn [adiv asub ArithQc] in By.
    assert (Hfac : u_fac uxx <> 0%Qc) by (apply (proj1 Hsane ux uxx Pux)).
    apply (cancel_r (u_fac uxx) _ _ Hfac).
    transitivity ((ve' - vx') * u_fac uu / vs)%Qc; [rewrite <- (Qcplus_0_r (y * u_fac uxx)), By; field; auto|].
    replace ((ve' - vx') * u_fac uu)%Qc with ((ve - da_at x p) * u_fac uxx)%Qc.
    - field; auto.
    - transitivity ((ve' * u_fac uu + u_off uu) - (vx' * u_fac uu + u_off uu))%Qc; [rewrite Be, Bx; ring|ring].
  Qed.
End RelaxFacts.
