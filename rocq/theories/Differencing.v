(** Lemmas about the TimeDifferencingWrapper (C40). *)
From Coq Require Import String List Bool Arith ZArith QArith Qcanon Lia.
From Verif Require Import Prelude PreludeFacts ArithM NdArray NdFacts Units DataArrayM GetNp Components Composite Steppers Basic
  SpecUnits UnitsFacts SpecDa SpecComposite SpecSteppers SpecBasic
  GetNpFacts DaFacts CompositeFacts CompositeMain ABFacts SteppersFacts SteppersMain.
Import ListNotations.
Open Scope string_scope.
Open Scope nat_scope.
Open Scope list_scope.

Section Diff.
  Context {T : Type} {A : Arith T} {R : Registry}.

  (** One quantity: the arrays and units wanted. *)
  Lemma difference_one : forall (outp : pdict) dt (st : state T) tend X new p tend', dget X outp = Some p ->
    difference_step outp dt st tend (X, VDA new) = Ok tend' -> (forall a, dget X st = Some (VDA a) -> wf_da a) -> wf_da new ->
    exists old ou t, dget X st = Some (VDA old) /\ p_units p = Some ou /\ tend' = dset X t tend /\
      is_difference dt (ou ++ " s^-1") old new t.
  Proof.
    intros outp dt st tend X new p tend' Hp H Hwo Hwn. unfold difference_step in H. cbn [fst snd] in H. rewrite Hp in H.
    destruct (dget X st) as [[old|]|] eqn:Ho; [|cbn [bind] in H; discriminate H|discriminate H]. cbn [bind] in H.
    apply bind_ok in H as (un & Hu & H). apply dgetE_ok in Hu.
    apply bind_ok in H as (old' & Hold & H). apply bind_ok in H as (d & Hd & H).
    destruct (p_units p) as [ou|] eqn:Hou; [|discriminate H]. cbn [bind] in H.
    apply bind_ok in H as (t & Ht & H). injection H as <-.
    exists old, ou, t. split; auto. split; auto. split; auto.
    specialize (Hwo _ eq_refl). pose proof (to_units_wf _ _ _ Hold Hwo) as Hwo'.
    destruct (da_binop_ok _ _ _ _ _ Hd Hwn Hwo') as (Wd & Ad & Dd & Hm & Ld & Vd).
    set (pre := mkda (dims (da_divs d (total_seconds dt))) (arr (da_divs d (total_seconds dt)))
                  (dset "units" (per_second un) (attrs (da_divs d (total_seconds dt))))) in *.
    assert (Wp : wf_da pre) by (apply (wf_da_map (fun y => adiv y (total_seconds dt)) (dset "units" (per_second un) []) d Wd)).
    assert (Up : units_of pre = Some (per_second un)) by reflexivity.
    assert (Lp : forall dd, dim_len t dd = dim_len d dd) by (intros dd; rewrite (to_units_len _ _ _ dd Ht); reflexivity).
    split; [eapply to_units_wf; eauto|].
    split. { intros dd n m Hn Hm'. apply (Hm dd n m Hn). rewrite (to_units_len _ _ _ dd Hold). auto. }
    exists un, (per_second un). split; auto. split; auto. split.
    { intros dd. rewrite Lp, Ld. cbn [first_len]. destruct (dim_len new dd); auto. rewrite (to_units_len _ _ _ dd Hold).
      destruct (dim_len old dd); auto. }
    split.
    { apply to_units_ok in Ht as (own & u1 & u2 & Hown & P1 & P2 & Hc). rewrite Up in Hown. injection Hown as <-.
      destruct Hc as [(E & ->)|(_ & _ & ->)].
      - right. split; auto. exists u1, u2. auto.
      - left. unfold units_of. cbn [attrs da_map]. apply dget_dset_eq. }
    intros c Hc.
    assert (Gd : in_grid d c) by (intros dd n E; apply (Hc dd n); rewrite Lp; auto).
    destruct (Vd c Gd) as (Gn & Go' & Vd').
    assert (Go : in_grid old c) by (intros dd n E; apply (Go' dd n); rewrite (to_units_len _ _ _ dd Hold); auto).
    split; auto. split; auto. exists (da_at old' c).
    destruct (to_units_ok _ _ _ Hold) as (own & _ & _ & Hown & _).
    split. { exists own. split; auto. eapply to_units_at; eauto. }
    assert (Gp : in_grid pre c) by (intros dd n E; apply (Gd dd n); exact E).
    pose proof (to_units_at _ _ _ _ c Ht Wp Gp Up) as Hcv.
    replace (da_at pre c) with (adiv (asub (da_at new c) (da_at old' c)) (aofQ (dt # 1000000))) in Hcv; auto.
    rewrite <- Vd'. symmetry. exact (da_at_map (fun y => adiv y (total_seconds dt)) (dset "units" (per_second un) []) d c Wd Gd).
  Qed.

  Lemma difference_fold : forall (outp : pdict) dt (st : state T), (forall X a, dget X st = Some (VDA a) -> wf_da a) ->
    forall (new : state T) tend tend', NoDup (keys new) -> (forall X a, In (X, VDA a) new -> wf_da a) ->
    foldM (difference_step outp dt st) new tend = Ok tend' ->
    (NoDup (keys tend) -> NoDup (keys tend')) /\
    (forall X t, In (X, VTime t) new -> X = "time") /\
    (forall X, match dget X outp, dget X new with
     | Some p, Some (VDA b) => exists old ou t, dget X st = Some (VDA old) /\ p_units p = Some ou /\
                   dget X tend' = Some t /\ is_difference dt (ou ++ " s^-1") old b t
     | _, _ => dget X tend' = dget X tend
     end).
  Proof.
    intros outp dt st Hwo new. induction new as [|[X v] new IH]; intros tend tend' Hnd Hwn H.
    - injection H as <-. split; auto. split; [intros ? ? []|]. intros X. cbn [dget]. destruct (dget X outp); auto.
    - cbn [foldM] in H. apply bind_ok in H as (tend1 & H1 & H). cbn [keys map fst] in Hnd. inversion Hnd as [|? ? Hni Hnd']; subst.
      destruct (IH tend1 tend' Hnd' (fun Y a Hi => Hwn Y a (or_intror Hi)) H) as (N & Tm & G).
      assert (Hnone : dget X new = None) by (apply dget_none; auto).
      destruct v as [b|t0].
      + destruct (dget X outp) as [p|] eqn:Hp.
        * destruct (difference_one outp dt st tend X b p tend1 Hp H1 (Hwo X) (Hwn X b (or_introl eq_refl)))
            as (old & ou & t & Ho & Hou & -> & Hdiff).
          split; [intros Hn; apply N, NoDup_dset; auto|]. split.
          { intros Y t0 [E|Hi]; [discriminate E|eauto]. }
          intros Y. specialize (G Y). cbn [dget]. destruct (String.eqb Y X) eqn:E.
          { apply String.eqb_eq in E. subst Y. rewrite Hp in *. rewrite Hnone in G. exists old, ou, t.
            split; auto. split; auto. split; auto. rewrite G. apply dget_dset_eq. }
          apply String.eqb_neq in E. destruct (dget Y outp); [|rewrite G; apply dget_dset_neq; auto].
          destruct (dget Y new) as [[b'|]|]; auto; rewrite G; apply dget_dset_neq; auto.
        * unfold difference_step in H1. cbn [fst snd] in H1. rewrite Hp in H1. injection H1 as <-.
          split; auto. split. { intros Y t0 [E|Hi]; [discriminate E|eauto]. }
          intros Y. specialize (G Y). cbn [dget]. destruct (String.eqb Y X) eqn:E; auto.
          apply String.eqb_eq in E. subst Y. rewrite Hp in *. auto.
      + unfold difference_step in H1. cbn [fst snd] in H1. destruct (String.eqb X "time") eqn:Et; [|discriminate H1].
        injection H1 as <-. apply String.eqb_eq in Et. subst X. split; auto. split.
        { intros Y t [E|Hi]; [congruence|eauto]. }
        intros Y. specialize (G Y). cbn [dget]. destruct (String.eqb Y "time") eqn:E; auto.
        apply String.eqb_eq in E. subst Y. rewrite Hnone in G. auto.
  Qed.

  Lemma main_differencing : forall {U} (outp : pdict) (stepper : U -> state T -> Z -> U * res (stepped T)) u st dt u' tend diag,
    (forall u st dt u' diag new, stepper u st dt = (u', Ok (diag, new)) -> proper_state new) -> proper_state st ->
    differencing_call outp stepper u st dt = (u', Ok (tend, diag)) ->
    exists new, stepper u st dt = (u', Ok (diag, new)) /\ NoDup (keys tend) /\
      forall X, match dget X outp, dget X new with
      | Some p, Some (VDA b) => exists old ou t, dget X st = Some (VDA old) /\ p_units p = Some ou /\
                    dget X tend = Some t /\ is_difference dt (ou ++ " s^-1") old b t
      | _, _ => dget X tend = None
      end.
  Proof.
    intros U outp stepper u st dt u' tend diag Hp [_ Hw] H. unfold differencing_call in H.
    destruct (stepper u st dt) as [u1 [[diag1 new]|e]] eqn:Hs; [|discriminate H].
    injection H as -> H. cbn [bind fst snd] in H. apply bind_ok in H as (tend1 & Hf & H). injection H as -> ->.
    destruct (Hp _ _ _ _ _ _ Hs) as [Hn Hwn].
    destruct (difference_fold outp dt st Hw new [] tend Hn) as (N & _ & G); auto.
    { intros X a Hi. apply (Hwn X a). apply dget_NoDup_In; auto. }
    exists new. split; auto. split; [apply N; constructor|]. intros X. apply (G X).
  Qed.

  Lemma main_differencing_declared : forall (outp tp : pdict), differencing_tendencies outp = Ok tp ->
    keys tp = keys outp /\
    forall X p, dget X outp = Some p -> exists q ou, dget X tp = Some q /\ p_units p = Some ou /\
      p_units q = Some (ou ++ " s^-1")%string /\ p_dims q = p_dims p /\ p_alias q = p_alias p.
  Proof.
    intros outp tp H. unfold differencing_tendencies in H. apply mapM_Forall2 in H.
    induction H as [|[k p] [k' q] outp tp E _ IH]; [split; auto; intros X p K; discriminate|].
    cbn [fst snd] in E. destruct (p_units p) as [ou|] eqn:Eu; [|discriminate]. injection E as <- <-. destruct IH as (IH1 & IH2).
    split; [cbn [keys map fst]; f_equal; exact IH1|]. intros X p' Hp. cbn [dget] in *. destruct (String.eqb X k); auto.
    injection Hp as <-. do 2 eexists. split; [reflexivity|]. split; [exact Eu|]. repeat split.
  Qed.

  Lemma main_differencing_units : forall {U} (outp tp : pdict) (stepper : U -> state T -> Z -> U * res (stepped T)) u st dt u' tend diag,
    (forall u st dt u' diag new, stepper u st dt = (u', Ok (diag, new)) -> proper_state new) -> proper_state st ->
    differencing_tendencies outp = Ok tp ->
    differencing_call outp stepper u st dt = (u', Ok (tend, diag)) ->
    exists new, stepper u st dt = (u', Ok (diag, new)) /\
      forall X t, dget X tend = Some t -> exists q tu old b, dget X tp = Some q /\ p_units q = Some tu /\
        dget X st = Some (VDA old) /\ dget X new = Some (VDA b) /\ is_difference dt tu old b t.
  Proof.
    intros U outp tp stepper u st dt u' tend diag Hp Hst Htp H. destruct (main_differencing _ _ _ _ _ _ _ _ Hp Hst H) as (new & Hs & _ & Hall).
    exists new. split; auto. intros X t Ht. specialize (Hall X). rewrite Ht in Hall.
    destruct (dget X outp) as [p|] eqn:Ep; [|discriminate]. destruct (dget X new) as [[b|]|]; try discriminate.
    destruct Hall as (old & ou & t' & Ho & Eu & Et & Hd). injection Et as <-.
    destruct (proj2 (main_differencing_declared outp tp Htp) X p Ep) as (q & ou' & Hq & Eu' & Eq & _). rewrite Eu in Eu'. injection Eu' as <-.
    exists q, (ou ++ " s^-1")%string, old, b. auto.
  Qed.

  (** When the call returns. *)
  Lemma difference_fold_ok : forall (outp : pdict) dt (st : state T), forall (new : state T) tend,
    (forall X t, In (X, VTime t) new -> X = "time") ->
    (forall X b p, In (X, VDA b) new -> dget X outp = Some p -> exists old un ou u1 u2,
       dget X st = Some (VDA old) /\ wf_da old /\ wf_da b /\ sizes_match b old /\ units_of b = Some un /\ convertible old un /\
       p_units p = Some ou /\ parse (per_second un) = Some u1 /\ parse (ou ++ " s^-1") = Some u2 /\ u_dim u1 = u_dim u2) ->
    exists tend', foldM (difference_step outp dt st) new tend = Ok tend'.
  Proof.
    intros outp dt st new. induction new as [|[X v] new IH]; intros tend Ht H; [eexists; reflexivity|].
    cbn [foldM].
    assert (H1 : exists t1, difference_step outp dt st tend (X, v) = Ok t1).
    { unfold difference_step. cbn [fst snd]. destruct v as [b|t].
      - destruct (dget X outp) as [p|] eqn:Ep; [|eauto].
        destruct (H X b p (or_introl eq_refl) Ep) as (old & un & ou & u1 & u2 & Ho & Wo & Wb & Hm & Hun & (own & v1 & v2 & Hown & P1 & P2 & Hd) & Hou & Q1 & Q2 & Hd').
        rewrite Ho. cbn [bind]. unfold units_of in Hun. unfold dgetE. rewrite Hun. cbn [bind].
        destruct (to_units_succeeds old un own v1 v2 Hown P1 P2 Hd) as (old' & Hold). rewrite Hold. cbn [bind].
        assert (Hm' : sizes_match b old').
        { intros d n m Hn Hm'. rewrite (to_units_len _ _ _ d Hold) in Hm'. eauto. }
        destruct (da_binop_succeeds asub (attrs b) b old' Wb Hm') as (d & Hd0). unfold da_sub. rewrite Hd0. cbn [bind].
        rewrite Hou. cbn [bind].
        edestruct (to_units_succeeds (mkda (dims (da_divs d (total_seconds dt))) (arr (da_divs d (total_seconds dt)))
                  (dset "units" (per_second un) (attrs (da_divs d (total_seconds dt))))) (ou ++ " s^-1") (per_second un) u1 u2)
          as (t & Hte); auto.
        rewrite Hte. cbn [bind]. eauto.
      - rewrite (Ht X t (or_introl eq_refl)). cbn. eauto. }
    destruct H1 as (t1 & ->). cbn [bind]. apply IH.
    - intros Y t Hi. apply (Ht Y t). right; auto.
    - intros Y b p Hi. apply H. right; auto.
  Qed.

  Lemma main_differencing_returns : forall {U} (outp : pdict) (stepper : U -> state T -> Z -> U * res (stepped T)) u st dt u' diag new,
    stepper u st dt = (u', Ok (diag, new)) ->
    (forall X t, In (X, VTime t) new -> X = "time") ->
    (forall X b p, In (X, VDA b) new -> dget X outp = Some p -> exists old un ou u1 u2,
       dget X st = Some (VDA old) /\ wf_da old /\ wf_da b /\ sizes_match b old /\ units_of b = Some un /\ convertible old un /\
       p_units p = Some ou /\ parse (per_second un) = Some u1 /\ parse (ou ++ " s^-1") = Some u2 /\ u_dim u1 = u_dim u2) ->
    exists tend, differencing_call outp stepper u st dt = (u', Ok (tend, diag)).
  Proof.
    intros U outp stepper u st dt u' diag new Hs Ht H. unfold differencing_call. rewrite Hs. cbn [bind fst snd].
    destruct (difference_fold_ok outp dt st new [] Ht H) as (tend & E). rewrite E. cbn [bind]. eauto.
  Qed.

  (** A failed call of the Stepper fails the same way. *)
  Lemma main_differencing_fails : forall {U} (outp : pdict) (stepper : U -> state T -> Z -> U * res (stepped T)) u st dt u' e,
    stepper u st dt = (u', Err e) -> differencing_call outp stepper u st dt = (u', Err e).
  Proof. intros U outp stepper u st dt u' e H. unfold differencing_call. rewrite H. reflexivity. Qed.

  (** An output absent from the given state is refused. *)
  Lemma main_differencing_missing : forall {U} (outp : pdict) (stepper : U -> state T -> Z -> U * res (stepped T)) u st dt u' diag new X b,
    stepper u st dt = (u', Ok (diag, new)) -> In (X, VDA b) new -> In X (keys outp) -> dget X st = None ->
    exists e, differencing_call outp stepper u st dt = (u', Err e).
  Proof.
    intros U outp stepper u st dt u' diag new X b Hs Hi Ho Hn. unfold differencing_call. rewrite Hs. cbn [bind fst snd].
    enough (G : forall (new : state T) tend, In (X, VDA b) new -> exists e, foldM (difference_step outp dt st) new tend = Err e).
    { destruct (G new [] Hi) as (e & ->). cbn [bind]. eauto. }
    clear - Ho Hn. induction new as [|[Y v] new IH]; intros tend Hi; [destruct Hi|]. cbn [foldM].
    destruct (difference_step outp dt st tend (Y, v)) as [t1|e] eqn:E; cbn [bind]; [|eauto].
    destruct Hi as [Ei|Hi]; [|auto]. injection Ei as -> ->. exfalso. apply In_keys_dget in Ho as (p & Hp).
    unfold difference_step in E. cbn [fst snd] in E. rewrite Hp, Hn in E. discriminate E.
  Qed.
End Diff.

Section DiffAmount.
  Context {R : Registry} (Hsane : sane_registry R) (Hps : per_second_law R).

  Lemma Qc_seconds : forall dt, dt <> 0%Z -> Q2Qc (dt # 1000000) <> 0%Qc.
  Proof.
    intros dt Hdt Hz. apply (f_equal this) in Hz. cbn [this Q2Qc] in Hz.
    assert (Hq : (dt # 1000000) == 0) by (rewrite <- (Qred_correct (dt # 1000000)), Hz; reflexivity).
    unfold Qeq in Hq. cbn [Qnum Qden] in Hq. lia.
  Qed.

  (** Old amount plus elapsed time times tendency is the new amount. *)
  Lemma main_differencing_amount : forall dt tu (old new t : da Qc) c vo vt, is_difference dt tu old new t -> dt <> 0%Z ->
    in_grid t c -> amount old c = Some vo -> amount t c = Some vt ->
    amount new c = Some (vo + Q2Qc (dt # 1000000) * vt)%Qc.
  Proof.
    intros dt tu old new t c vo vt (Wt & _ & un & ru & Un & Eru & _ & Ut & V) Hdt Hc Ao At.
    destruct (V c Hc) as (Gn & Go & y & (own & Own & Cv) & Ct).
    unfold amount in *. unfold units_of in Un, Own, Ut. rewrite Own in Ao. rewrite Un.
    pose proof Cv as (w1 & w2 & P1 & P2 & _). rewrite P1 in Ao. rewrite P2. injection Ao as <-.
    rewrite <- (converted_base Hsane _ _ _ _ _ _ Cv P1 P2).
    pose proof Ct as (r1 & r2 & Q1 & Q2 & _).
    assert (Ht : vt = base_value r2 (da_at t c)).
    { destruct Ut as [E|(E & v1 & v2 & E1 & E2 & Eone)]; rewrite E in At.
      - rewrite Q2 in At. congruence.
      - rewrite Q1 in At. assert (v1 = r1) by congruence. assert (v2 = r2) by congruence. subst v1 v2.
        apply one_eqb_eq in Eone as [Ed Eb]. assert (r1 = r2) by (eapply (proj2 Hsane); eauto). congruence. }
    rewrite Ht, (converted_base Hsane _ _ _ _ _ _ Ct Q1 Q2).
    assert (Hlaw : u_fac r1 = u_fac w2 /\ u_off r1 = 0%Qc).
    { eapply Hps; [|exact P2|exact Q1]. subst ru. destruct (String.eqb un "") eqn:E; [apply String.eqb_eq in E; auto|auto]. }
    destruct Hlaw as [L1 L2]. f_equal. unfold base_value. rewrite L1, L2. cbn [adiv asub aofQ ArithQc].
    pose proof (Qc_seconds dt Hdt) as Hs. field. auto.
  Qed.

  (** Forward Euler with the wrapped Stepper reproduces the Stepper's new state. *)
  Lemma main_differencing_step : forall {U} (outp : pdict) (stepper : U -> state Qc -> Z -> U * res (stepped Qc)) cfg prog dt o a u log s,
    (forall u st dt u' diag new, stepper u st dt = (u', Ok (diag, new)) -> proper_state new) -> dt <> 0%Z ->
    prog = (fun w st d => implicit_composite_call [inl (differencing_call outp stepper)] d w st) ->
    new_ab o = Ok a -> is_order o 1 ->
    history (adams_bashforth cfg prog) prog dt (a, u) log s -> (forall e, In e log -> proper_state (e_st e)) ->
    forall e, In e log -> exists u1 u2 diag new, stepper u1 (e_st e) dt = (u2, Ok (diag, new)) /\
      forall X, match dget X outp, dget X new with
      | Some p, Some (VDA b) => exists old r, dget X (e_st e) = Some (VDA old) /\ dget X (e_new e) = Some (VDA r) /\
          (forall d, dim_len r d = first_len d [old; b]) /\ attrs r = attrs old /\
          forall c, in_grid r c -> exists v, amount r c = Some v /\ amount b c = Some v
      | _, _ => dget X (e_new e) = dget X (e_st e)
      end.
  Proof.
    intros U outp stepper cfg prog dt o a u log s Hst Hdt -> Ha Hor Hh Hwf e He.
    set (prog := fun w (st : state Qc) d => implicit_composite_call [inl (differencing_call outp stepper)] d w st) in *.
    assert (Hone : forall e', In e' log -> exists u1 u2 td diag new, stepper u1 (e_st e') dt = (u2, Ok (diag, new)) /\
      NoDup (keys (e_tend e')) /\ (forall X a, dget X td = Some a -> wf_da a) /\
      (forall X, match dget X outp, dget X new with
      | Some p, Some (VDA b) => exists old ou t, dget X (e_st e') = Some (VDA old) /\ p_units p = Some ou /\
                    dget X td = Some t /\ is_difference dt (ou ++ " s^-1") old b t
      | _, _ => dget X td = None
      end) /\
      (forall X, match dget X td with None => dget X (e_tend e') = None
                 | Some t => exists r, dget X (e_tend e') = Some r /\ sum_of t [] r end)).
    { intros e' Hi. destruct (in_split _ _ Hi) as (pre & post & E).
      destruct (history_split _ _ _ _ _ _ Hh pre e' post E) as (s1 & u1 & s2 & u2 & pdiag & _ & Hp & _).
      unfold prog, implicit_composite_call in Hp. cbn [map] in Hp.
      pose proof (composite_sum _ _ _ _ _ _ Hp) as (outs & Hr & Hsum).
      inversion Hr as [|? ? ? u3 ? td outs' Hc Hr']; subst. inversion Hr'; subst. destruct td as [td dd].
      destruct (main_differencing outp stepper u1 (e_st e') dt u2 td dd Hst (Hwf _ Hi) Hc) as (new & Hs & Hn & G).
      assert (Hwt : forall X a, dget X td = Some a -> wf_da a).
      { intros X b Hb. specialize (G X). destruct (dget X outp); [|congruence]. destruct (dget X new) as [[b'|]|]; [|congruence|congruence].
        destruct G as (old & ou & t & _ & _ & Ht & Hd). assert (t = b) by congruence. subst t. apply Hd. }
      assert (Hprop : Forall proper (map fst [(td, dd)])) by (constructor; [split; auto|constructor]).
      exists u1, u2, td, dd, new. split; auto. split.
      { unfold tendency_composite_call in Hp. destruct (loop_get _ _ _ _ _ _ _ _ Hp) as (outs2 & _ & _ & _ & Hno). apply Hno. constructor. }
      split; auto. split; auto. intros X. specialize (Hsum Hprop X). cbn [map fst contributions flat_map] in Hsum.
      destruct (dget X td) as [t|]; cbn [app] in Hsum; auto. }
    assert (Hlog : wf_log log).
    { intros e' Hi. split; auto. destruct (Hone e' Hi) as (u1 & u2 & td & diag & new & _ & Hn & Hw & _ & Hs). split; auto.
      intros X b Hb. specialize (Hs X). destruct (dget X td) as [t|]; [|congruence]. destruct Hs as (r & Hr & Hs).
      assert (r = b) by congruence. subst r. apply Hs. }
    destruct (in_split _ _ He) as (pre & post & E).
    destruct (Hone e He) as (u1 & u2 & td & diag & new & Hs & Hn & Hw & G & Hsum). exists u1, u2, diag, new. split; auto.
    intros X. specialize (G X). specialize (Hsum X).
    assert (Hun : dget X td = None -> dget X (e_new e) = dget X (e_st e)).
    { intros Hno. rewrite Hno in Hsum. apply (main_ab_untouched cfg prog dt o 1 a u log s Ha Hor Hh pre e post E).
      cbn [Nat.min latest firstn In]. intros e' [<-|[]] Hi. apply In_keys_dget in Hi as (b & Hb). congruence. }
    destruct (dget X outp) as [p|]; auto. destruct (dget X new) as [[b|]|]; auto.
    destruct G as (old & ou & t & Ho & Hou & Ht & Hd). rewrite Ht in Hsum. destruct Hsum as (r & Hr & Wr & Ar & _ & Lr & Vr).
    destruct (main_ab_physical Hsane Hps cfg prog dt o 1 a u log s Ha Hor Hh Hlog pre e post E X) as (x0 & ts & y & Ex0 & Ey & Hts & Hext & Hv).
    { intros st1 st2 b0 b'. cbn [Nat.min latest firstn map In]. intros [<-|[]] [<-|[]] B1 B2. congruence. }
    { cbn [Nat.min latest firstn In]. intros e' [<-|[]]. eapply dget_In_keys; eauto. }
    rewrite Ho in Ex0. injection Ex0 as <-.
    cbn [Nat.min latest firstn] in Hts. inversion Hts as [|e' t' l l' Ht' Hl]; subst. inversion Hl; subst.
    rewrite Hr in Ht'. injection Ht' as <-. clear Hl Hts.
    destruct Hext as (Wy & Ay & _ & Ly). pose proof Hd as (Wt & Hm & un & ru & Un & Eru & Lt & Ut & Vt).
    exists old, y. split; auto. split; auto.
    assert (Ldim : forall d, dim_len y d = first_len d [old; b]).
    { intros d. rewrite Ly. cbn [first_len]. destruct (dim_len old d) as [n|] eqn:Ex; auto. rewrite Lr. cbn [first_len]. rewrite Lt. cbn [first_len]. rewrite Ex.
      destruct (dim_len b d); auto. }
    split; auto. split; auto. intros c Hc.
    assert (Pt : in_grid t c).
    { intros d n Hn0. apply (Hc d n). rewrite Ly. cbn [first_len]. rewrite Lr. cbn [first_len]. rewrite Hn0.
      destruct (dim_len old d) as [m|] eqn:Em; auto. rewrite Lt in Hn0. cbn [first_len] in Hn0. rewrite Em in Hn0.
      destruct (dim_len b d) as [k|] eqn:Ek; [|auto]. injection Hn0 as ->. rewrite (Hm d n m Ek Em). auto. }
    assert (Pr : in_grid r c).
    { intros d n Hn0. apply (Pt d n). rewrite Lr in Hn0. cbn [first_len] in Hn0. destruct (dim_len t d); auto. }
    destruct (Vt c Pt) as (_ & Go & yo & (own & Own & Cv) & Ct).
    assert (Hao : exists vo, amount old c = Some vo).
    { unfold amount. unfold units_of in Own. rewrite Own. destruct Cv as (w1 & _ & P1 & _). rewrite P1. eauto. }
    assert (Hat : exists vt, amount t c = Some vt).
    { unfold amount. unfold units_of in Ut. pose proof Ct as (r1 & r2 & Q1 & Q2 & _).
      destruct Ut as [Et|(Et & _)]; rewrite Et; [rewrite Q2|rewrite Q1]; eauto. }
    destruct Hao as (vo & Hao). destruct Hat as (vt & Hat).
    destruct (Vr c Pr) as (ys & Hys & Hval). inversion Hys; subst. cbn [fold_left] in Hval.
    assert (Har : amount r c = Some vt) by (unfold amount in *; rewrite Ar, Hval; auto).
    pose proof (Hv c _ [vt] Hc Hao ltac:(constructor; [exact Har|constructor])) as Hz. cbn [Nat.min ab_weights dot] in Hz.
    eexists. split; [exact Hz|]. rewrite (main_differencing_amount _ _ _ _ _ c vo vt Hd Hdt Pt Hao Hat). f_equal. ring.
  Qed.
End DiffAmount.
