(** Main lemmas about the basic components and wrappers (C39-C41, C64). *)
From Coq Require Import String List Bool Arith ZArith QArith Qcanon Lia.
From Verif Require Import Prelude PreludeFacts ArithM NdArray NdFacts Units DataArrayM Wildcard GetNp Restore Tracers Components Composite Steppers Basic
  SpecUnits UnitsFacts SpecArrays SpecDa SpecComponents SpecCalls SpecComposite SpecSteppers SpecBasic
  WildcardFacts GetNpFacts ExtractFacts RestoreFacts RoundTripFacts ArraysMain CallFacts ComponentFacts TidFacts DaFacts
  CompositeFacts CompositeMain ABFacts SteppersFacts SteppersMain BasicFacts.
Import ListNotations.
Open Scope string_scope.
Open Scope nat_scope.
Open Scope list_scope.

Section Relax.
  Context {T : Type} {A : Arith T} {R : Registry}.

  (** ** Newtonian relaxation *)

  Lemma main_relaxation : forall over_s q u tu name tid c (st : state T) tend diag, wf_state st ->
    over_s u = Ok tu -> new_relaxation over_s q u name tid = Ok c ->
    relaxation_call c q st = Ok (tend, diag) ->
    exists x e s t,
      dget q st = Some (VDA x) /\ dget ("equilibrium_" ++ q) st = Some (VDA e) /\
      dget (q ++ "_relaxation_timescale") st = Some (VDA s) /\
      tend = [(q, t)] /\ diag = (if tid then [((q ++ "_tendency_from_" ++ name)%string, t)] else []) /\
      is_relaxation u tu x e s t.
  Proof.
    intros over_s q u tu name tid c st tend diag Hwf Ho Hn Hc.
    rewrite (new_relaxation_form over_s q u tu name tid c Ho Hn) in Hc.
    destruct (relax_call_inv q u tu name tid st _ Hwf Hc) as (Hq & Hci & (r0 & Hex) & t & Ht).
    destruct (relax_inputs_wf q u) as (Hwp & Hnd & Hnk).
    destruct (extraction_spec st _ r0 Hwf Hwp Hnd Hex) as (L & HL & Hk & Hv).
    assert (Hget : forall n uu, In (n, qprops ["*"] uu) (relaxation_inputs q u) -> exists a, dget n st = Some (VDA a)).
    { intros n uu Hi. destruct (Hv _ _ Hi) as (r & Hr & ds & u' & a' & b & _ & _ & Ha' & _). eauto. }
    destruct (Hget q u) as (x & Hx); [simpl; auto|].
    destruct (Hget (equilibrium_name q) u) as (e & He); [simpl; auto|].
    destruct (Hget (timescale_name q) "s") as (s & Hs); [simpl; auto|].
    destruct (relax_call_ok q u tu name tid st r0 t x e s Hwf Hq (conj Hx (conj He Hs)) Hci Hex Ht) as (r & Hr & Hrel).
    rewrite Hr in Hc. injection Hc as <- <-. exists x, e, s, r.
    split; [exact Hx|]. split; [exact He|]. split; [exact Hs|]. split; auto.
  Qed.

  Lemma main_relaxation_returns : forall over_s q u tu name tid c (st : state T) x e s t, wf_state st -> q <> "time" ->
    over_s u = Ok tu -> new_relaxation over_s q u name tid = Ok c ->
    dget q st = Some (VDA x) -> dget ("equilibrium_" ++ q) st = Some (VDA e) ->
    dget (q ++ "_relaxation_timescale") st = Some (VDA s) -> dget "time" st = Some t ->
    convertible x u -> convertible e u -> convertible s "s" -> same_sizes [x; e; s] ->
    exists tend diag, relaxation_call c q st = Ok (tend, diag).
  Proof.
    intros over_s q u tu name tid c st x e s t Hwf Hq Ho Hn Hx He Hs Ht Cx Ce Cs Hsz.
    rewrite (new_relaxation_form over_s q u tu name tid c Ho Hn). clear Hn.
    destruct (relax_inputs_wf q u) as (Hwp & Hnd & Hnk).
    assert (H3 : three st q x e s) by (split; [exact Hx|split; [exact He|exact Hs]]).
    assert (Hcomp : complete st (relaxation_inputs q u)).
    { intros n p [E|[E|[E|[]]]]; injection E as <- <-; (split; [eexists; reflexivity|split; [eexists; reflexivity|]]); eauto. }
    assert (Hci : check_inputs (relaxation_inputs q u) st = Ok tt).
    { unfold check_inputs, relaxation_inputs. cbn [foldM bind fst snd]. unfold dmem.
      unfold equilibrium_name, timescale_name. rewrite Hx, He, Hs. reflexivity. }
    destruct (extraction_succeeds st (relaxation_inputs q u) Hwf Hwp Hcomp) as (r0 & Hex).
    - intros (n1 & p1 & ds1 & a1 & n2 & p2 & ds2 & a2 & d & l1 & l2 & L1 & L2 & D1 & D2 & Hne). apply Hne.
      assert (Hin : forall n p ds a, listed st (relaxation_inputs q u) n p ds a -> In a [x; e; s] /\ wf_da a).
      { intros n p ds a Hl. pose proof Hl as (_ & _ & Ha). split; [|eapply Hwf; eauto].
        apply (relax_listed st q u x e s H3) in Hl as (_ & [E|[E|E]]); injection E as _ _ ->; simpl; auto. }
      destruct (Hin _ _ _ _ L1) as [I1 W1]. destruct (Hin _ _ _ _ L2) as [I2 W2].
      apply (dim_len_has _ _ _ W1) in D1. apply (dim_len_has _ _ _ W2) in D2. exact (Hsz a1 a2 I1 I2 d l1 l2 D1 D2).
    - intros (n & p & ds & a & d & Hl & _ & _ & Hns).
      apply (relax_listed st q u x e s H3) in Hl as (-> & _). apply Hns. left; auto.
    - assert (Hto : forall a uu, convertible a uu -> exists b, to_units a uu = Ok b).
      { intros a uu (own & u1 & u2 & Hown & P1 & P2 & Hd). eapply to_units_succeeds; eauto. }
      intros n p ds uu a Hi Hd Huu Ha. split.
      + destruct Hi as [E|[E|[E|[]]]]; injection E as <- <-; cbn [p_units qprops] in Huu; injection Huu as <-; apply Hto.
        * congruence.
        * unfold equilibrium_name in Ha. congruence.
        * unfold timescale_name in Ha. congruence.
      + destruct Hi as [E|[E|[E|[]]]]; injection E as <- <-; injection Hd as <-;
          rewrite (relax_wild st q u x e s Hwf H3); unfold expand_dims; cbn [flat_map String.eqb]; cbn;
          rewrite app_nil_r; apply dedup_NoDup.
    - destruct (relax_call_ok q u tu name tid st r0 t x e s Hwf Hq H3 Hci Hex Ht) as (r & Hr & _). eauto.
  Qed.

  Lemma main_new_relaxation : forall over_s q u tu name tid u1 u2, over_s u = Ok tu ->
    parse (per_second u) = Some u1 -> parse tu = Some u2 -> u_dim u1 = u_dim u2 ->
    exists c, new_relaxation over_s q u name tid = Ok c.
  Proof.
    intros over_s q u tu name tid u1 u2 Ho P1 P2 Hd. exists (relax_comp q u tu name tid).
    destruct (relax_names q) as (N1 & N2 & N3 & _ & _).
    unfold new_relaxation, relaxation_tendencies. rewrite Ho. cbn [bind]. unfold make_tendency_component. cbn [make_packer].
    assert (E1 : check_input_properties (relaxation_inputs q u) = Ok tt) by reflexivity.
    assert (E2 : check_tendency_properties [(q, qprops ["*"] tu)] (relaxation_inputs q u) = Ok tt).
    { unfold check_tendency_properties, check_output_entries, check_overlapping_aliases, check_compatible, relaxation_inputs.
      cbn [foldM bind fst snd p_units p_dims p_alias qprops dget]. rewrite String.eqb_refl.
      apply not_eq_sym in N1, N2. apply String.eqb_neq in N1, N2. rewrite N1, N2. cbn [p_units qprops].
      unfold units_are_compatible, parseE. cbn [bind p_units]. rewrite P1, P2. cbn [bind]. rewrite (proj2 (udim_eqb_eq _ _) Hd). reflexivity. }
    rewrite E1, E2. cbn [bind].
    assert (E3 : check_diagnostic_properties [] (relaxation_inputs q u) = Ok tt) by reflexivity.
    rewrite E3. cbn [bind]. destruct tid; reflexivity.
  Qed.

  Lemma new_relaxation_parse : forall over_s q u tu name tid c, over_s u = Ok tu ->
    new_relaxation over_s q u name tid = Ok c -> exists ut, parse tu = Some ut.
  Proof.
    intros over_s q u tu name tid c Ho H. unfold new_relaxation, relaxation_tendencies in H. rewrite Ho in H.
    cbn [bind] in H. unfold make_tendency_component in H. cbn [make_packer] in H.
    destruct (check_input_properties _) as [[]|]; [|discriminate H]. cbn [bind] in H.
    destruct (check_tendency_properties _ _) as [[]|] eqn:E; [|discriminate H]. clear H.
    unfold check_tendency_properties, check_output_entries, check_overlapping_aliases, check_compatible, relaxation_inputs in E.
    cbn [foldM bind fst snd p_units p_dims p_alias qprops dget] in E. rewrite String.eqb_refl in E.
    cbn [p_units qprops] in E. unfold units_are_compatible, parseE in E.
    destruct (parse (per_second u)); [|discriminate E]. cbn [bind] in E. destruct (parse tu); [eauto|discriminate E].
  Qed.
End Relax.

(** ** Relaxation under forward Euler, in exact arithmetic *)

Lemma between_convex : forall x y l : Qc, (0 <= l)%Qc -> (l <= 1)%Qc -> between x (x + l * (y - x))%Qc y.
Proof.
  intros x y l H0 H1.
  assert (Hup : forall a b k : Qc, (0 <= k)%Qc -> (a <= b)%Qc -> (0 <= k * (b - a))%Qc).
  { intros a b k Hk Hab. rewrite <- (Qcmult_0_l (b - a)%Qc). apply Qcmult_le_compat_r; auto.
    apply (proj1 (Qcle_minus_iff a b)). auto. }
  assert (Hl : (0 <= 1 - l)%Qc) by (apply (proj1 (Qcle_minus_iff l 1)); auto).
  destruct (Qclt_le_dec x y) as [H|H]; [left; apply Qclt_le_weak in H|right]; split; apply (proj2 (Qcle_minus_iff _ _)).
  - replace (x + l * (y - x) + - x)%Qc with (l * (y - x))%Qc by ring. auto.
  - replace (y + - (x + l * (y - x)))%Qc with ((1 - l) * (y - x))%Qc by ring. auto.
  - replace (x + l * (y - x) + - y)%Qc with ((1 - l) * (x - y))%Qc by ring. auto.
  - replace (x + - (x + l * (y - x)))%Qc with (l * (x - y))%Qc by ring. auto.
Qed.

Lemma div_convex : forall d s : Qc, (0 < s)%Qc -> (0 <= d)%Qc -> (d <= s)%Qc -> (0 <= d / s)%Qc /\ (d / s <= 1)%Qc.
Proof.
  intros d s Hs Hd Hds. assert (Hn : s <> 0%Qc) by (intros ->; exact (Qclt_not_eq _ _ Hs eq_refl)).
  assert (Hi : (0 < / s)%Qc).
  { destruct (Qclt_le_dec 0 (/ s)%Qc) as [H|H]; auto. exfalso.
    pose proof (Qcmult_le_compat_r _ _ s H (Qclt_le_weak _ _ Hs)) as E. rewrite Qcmult_comm, (Qcmult_inv_r s Hn), Qcmult_0_l in E.
    exact (E eq_refl). }
  apply Qclt_le_weak in Hi. unfold Qcdiv. split.
  - rewrite <- (Qcmult_0_l (/ s)%Qc). apply Qcmult_le_compat_r; auto.
  - rewrite <- (Qcmult_inv_r s Hn). apply Qcmult_le_compat_r; auto.
Qed.

Section RelaxStep.
  Context {R : Registry}.
  Context (Hsane : sane_registry R) (Hps : per_second_law R).

  Lemma main_relaxation_step : forall over_s q u tu name tid c, over_second_law R over_s ->
    over_s u = Ok tu -> new_relaxation over_s q u name tid = Ok c ->
    forall cfg prog dt o a log s, prog = (fun w (st : state Qc) d => implicit_composite_call [inr (stateless (relaxation_call c q))] d w st) ->
    new_ab o = Ok a -> is_order o 1 ->
    history (adams_bashforth cfg prog) prog dt (a, tt) log s ->
    (forall e, In e log -> wf_state (e_st e) /\ NoDup (keys (e_st e))) ->
    forall e, In e log ->
      (forall X, X <> q -> dget X (e_new e) = dget X (e_st e)) /\
      exists x eq tau r, dget q (e_st e) = Some (VDA x) /\ dget ("equilibrium_" ++ q) (e_st e) = Some (VDA eq) /\
        dget (q ++ "_relaxation_timescale") (e_st e) = Some (VDA tau) /\ dget q (e_new e) = Some (VDA r) /\
        attrs r = attrs x /\ (forall d, dim_len r d = first_len d [x; eq; tau]) /\
        forall p, in_grid r p -> exists vx ve vs z,
          amount x p = Some vx /\ amount eq p = Some ve /\ value_in tau "s" p vs /\ amount r p = Some z /\
          (vs <> 0%Qc -> z = (vx + Q2Qc (dt # 1000000) / vs * (ve - vx))%Qc) /\
          ((0 < vs)%Qc -> (0 <= Q2Qc (dt # 1000000))%Qc -> (Q2Qc (dt # 1000000) <= vs)%Qc -> between vx z ve).
  Proof.
    intros over_s q u tu name tid c Hos Ho Hn cfg prog dt o a log s -> Ha Hor Hh Hwf e He.
    set (prog := fun w (st : state Qc) d => implicit_composite_call [inr (stateless (relaxation_call c q))] d w st) in *.
    assert (Hone : forall e', In e' log -> exists x eq tau t r,
      dget q (e_st e') = Some (VDA x) /\ dget ("equilibrium_" ++ q) (e_st e') = Some (VDA eq) /\
      dget (q ++ "_relaxation_timescale") (e_st e') = Some (VDA tau) /\ is_relaxation u tu x eq tau t /\
      (forall X, dget X (e_tend e') = if String.eqb X q then Some r else None) /\ sum_of t [] r /\ NoDup (keys (e_tend e'))).
    { intros e' Hi. destruct (in_split _ _ Hi) as (pre & post & E).
      destruct (history_split _ _ _ _ _ _ Hh pre e' post E) as (s1 & u1 & s2 & u2 & pdiag & _ & Hp & _).
      unfold prog, implicit_composite_call in Hp. cbn [map] in Hp.
      pose proof (composite_sum _ _ _ _ _ _ Hp) as (outs & Hr & Hsum).
      apply (runs_stateless (e_st e') [relaxation_call c q]) in Hr. inversion Hr as [|? o' ? outs' Hc Hr']; subst. inversion Hr'; subst.
      destruct o' as [td dd].
      destruct (main_relaxation over_s q u tu name tid c (e_st e') td dd (proj1 (Hwf _ Hi)) Ho Hn Hc) as (x & eq & tau & t & G1 & G2 & G3 & -> & _ & Hrel).
      assert (Hprop : Forall proper (map fst [([(q, t)], dd)])).
      { constructor; [|constructor]. split; [constructor; [intros []|constructor]|].
        intros X b. cbn [fst dget]. destruct (String.eqb X q); [|discriminate]. intros Eb; injection Eb as <-. apply Hrel. }
      specialize (Hsum Hprop). pose proof (Hsum q) as Hq. cbn in Hq. rewrite String.eqb_refl in Hq. cbn in Hq.
      destruct Hq as (r & Hr1 & Hs1). exists x, eq, tau, t, r. split; auto. split; auto. split; auto. split; auto. split; [|split; auto].
      - intros X. destruct (String.eqb X q) eqn:EX. { apply String.eqb_eq in EX. subst X. auto. }
        specialize (Hsum X). cbn in Hsum. rewrite EX in Hsum. cbn in Hsum. auto.
      - unfold tendency_composite_call in Hp. destruct (loop_get _ _ _ _ _ _ _ _ Hp) as (outs2 & _ & _ & _ & Hno).
        apply Hno. constructor. }
    assert (Hlog : wf_log log).
    { intros e' Hi. destruct (Hone e' Hi) as (x & eq & tau & t & r & _ & _ & _ & _ & Ht & Hs & Hnd). destruct (Hwf e' Hi) as [W1 W2].
      split.
      - split; auto. intros X b Hb. apply (W1 X b Hb).
      - split; auto. intros X b Hb. rewrite Ht in Hb. destruct (String.eqb X q); [|discriminate Hb]. injection Hb as <-. apply Hs. }
    destruct (in_split _ _ He) as (pre & post & E).
    destruct (Hone e He) as (x & eq & tau & t & r & G1 & G2 & G3 & Hrel & Ht & Hsum & _).
    assert (Htq : dget q (e_tend e) = Some r) by (rewrite Ht, String.eqb_refl; auto).
    split.
    { intros X HX. apply (main_ab_untouched cfg prog dt o 1 a tt log s Ha Hor Hh pre e post E).
      cbn [Nat.min latest firstn In]. intros e' [<-|[]] Hi. apply In_keys_dget in Hi as (b & Hb).
      rewrite Ht in Hb. apply String.eqb_neq in HX. rewrite HX in Hb. discriminate Hb. }
    destruct (main_ab_physical Hsane Hps cfg prog dt o 1 a tt log s Ha Hor Hh Hlog pre e post E q) as (x0 & ts & y & Ex0 & Ey & Hts & Hext & Hv).
    { intros st1 st2 b b'. cbn [Nat.min latest firstn map In]. intros [<-|[]] [<-|[]] B1 B2. congruence. }
    { cbn [Nat.min latest firstn In]. intros e' [<-|[]]. eapply dget_In_keys; eauto. }
    rewrite G1 in Ex0. injection Ex0 as <-.
    cbn [Nat.min latest firstn] in Hts. inversion Hts as [|e' t' l l' Ht' Hl]; subst. inversion Hl; subst.
    rewrite Htq in Ht'. injection Ht' as <-. clear Hl Hts.
    destruct Hext as (Wy & Ay & _ & Ly).
    destruct Hrel as (Wt & At & _ & Lt & Vt). destruct Hsum as (Wr & Ar & _ & Lr & Vr).
    exists x, eq, tau, y. split; auto. split; auto. split; auto. split; auto. split; auto.
    assert (Ldim : forall d, dim_len y d = first_len d [x; eq; tau]).
    { intros d. rewrite Ly. cbn [first_len]. destruct (dim_len x d) as [n|] eqn:Ex; auto. rewrite Lr. cbn [first_len]. rewrite Lt. cbn [first_len]. rewrite Ex.
      destruct (dim_len eq d); auto. destruct (dim_len tau d); auto. }
    split; auto. intros p Hp.
    assert (Pr : in_grid r p).
    { intros d n Hd. apply (Hp d n). rewrite Ldim. rewrite Lr in Hd. cbn [first_len] in Hd. rewrite Lt in Hd.
      cbn [first_len] in Hd |- *. destruct (dim_len x d), (dim_len eq d), (dim_len tau d); auto. }
    assert (Pt : in_grid t p).
    { intros d n Hd. apply (Pr d n). rewrite Lr. cbn [first_len]. rewrite Hd. auto. }
    destruct (Vr p Pr) as (ys & Hys & Hval). inversion Hys; subst. cbn [fold_left] in Hval.
    destruct (Vt p Pt) as (Px & Pe & Ps & vx & ve & vs & (ox & Ox & Cx) & (oe & Oe & Ce) & Vs & Hdiv).
    assert (Hu : exists ux, parse u = Some ux) by (destruct Cx as (? & ux & _ & P & _); eauto). destruct Hu as (uu & Pu).
    assert (Hamx : amount x p = Some (base_value uu vx)).
    { unfold amount. unfold units_of in Ox. rewrite Ox. pose proof Cx as (w1 & _ & P1 & _). rewrite P1. f_equal. symmetry.
      eapply converted_base; eauto. }
    assert (Hame : amount eq p = Some (base_value uu ve)).
    { unfold amount. unfold units_of in Oe. rewrite Oe. pose proof Ce as (w1 & _ & P1 & _). rewrite P1. f_equal. symmetry.
      eapply converted_base; eauto. }
    destruct (new_relaxation_parse over_s q u tu name tid c Ho Hn) as (ut & Put).
    destruct (Hos u tu uu ut Ho Pu Put) as [Hf Hoff].
    assert (Hamr : amount r p = Some ((ve - vx) / vs * u_fac uu)%Qc).
    { unfold amount. rewrite Ar, At. cbn [dget String.eqb]. cbn. rewrite Put. f_equal. unfold base_value. rewrite Hf, Hoff, Hval, Hdiv.
      cbn [adiv asub ArithQc]. ring. }
    pose proof (Hv p _ [_] Hp Hamx ltac:(constructor; [exact Hamr|constructor])) as Hz.
    cbn [Nat.min ab_weights dot] in Hz.
    exists (base_value uu vx), (base_value uu ve), vs. eexists. split; [exact Hamx|]. split; [exact Hame|]. split; [exact Vs|].
    split; [exact Hz|].
    assert (Hform : (base_value uu vx + Q2Qc (dt # 1000000) * (1 * ((ve - vx) / vs * u_fac uu) + 0) =
              base_value uu vx + Q2Qc (dt # 1000000) / vs * (base_value uu ve - base_value uu vx))%Qc).
    { unfold base_value, Qcdiv. ring. }
    cbn [dot] in *. rewrite Hform. split; auto.
    intros Hs0 Hd0 Hd1. destruct (div_convex _ _ Hs0 Hd0 Hd1) as [C1 C2]. apply between_convex; auto.
  Qed.
End RelaxStep.
