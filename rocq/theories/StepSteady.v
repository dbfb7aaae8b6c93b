(** Steady states, conservation by Leapfrog, and independence of units, in exact
    arithmetic. *)
From Coq Require Import String List Bool Arith ZArith QArith Qcanon Lia.
From Verif Require Import Prelude PreludeFacts ArithM NdArray NdFacts Units DataArrayM GetNp Components Composite Steppers
  SpecUnits UnitsFacts SpecDa DaFacts SpecComposite CompositeMain SpecSteppers SteppersFacts ABFacts RKFacts LeapFacts
  StepAlgebra StepRuns StepExact.
Import ListNotations.
Open Scope string_scope.
Open Scope nat_scope.
Open Scope list_scope.

Section Any.
  Context {T : Type} {A : Arith T}.

  Lemma extends_self : forall (x r : da T) ts, extends x ts r -> wf_da x -> (forall t, In t ts -> incl (dims t) (dims x)) ->
    (forall t, In t ts -> wf_da t) -> (forall c, in_grid r c -> da_at r c = da_at x c) -> r = x.
  Proof.
    intros x r ts He Wx Hi Wt Hv. destruct (extends_same_dims x r ts He Wx) as (D & L); auto.
    { intros t d Ht Hd. eapply Hi; eauto. }
    apply da_ext; auto; apply He.
  Qed.

  Lemma in_grid_left : forall (x r : da T) ts c, extends x ts r -> in_grid r c -> in_grid x c.
  Proof. intros x r ts c (_ & _ & _ & L) H d n Hn. apply H. rewrite L. cbn [first_len]. rewrite Hn. auto. Qed.
End Any.

Section Exact.
  Context {R : Registry}.

  (** ** Steady states *)

  Lemma ab_steady : forall {U} cfg (prog : icaller U) dt n u log s, 1 <= n <= 4 ->
    history (adams_bashforth cfg prog) prog dt (mkab n None [], u) log s -> wf_log log ->
    forall pre e post, log = pre ++ e :: post -> forall X,
    (forall e', In e' (latest (Nat.min n (S (length pre))) pre e) -> exists t, dget X (e_tend e') = Some t /\
       (forall c y, in_grid t c -> rate (e_st e') X t c y -> y = 0%Qc) /\
       forall x, dget X (e_st e) = Some (VDA x) -> incl (dims t) (dims x)) ->
    dget X (e_new e) = dget X (e_st e).
  Proof.
    intros U cfg prog dt n u log s Hn H Hw pre e post E X HX.
    destruct (ab_textbook cfg prog dt n u log s Hn H Hw pre e post E X) as (x & ts & r & Hx & Hr & Ht & He & Hv).
    { intros e' He'. destruct (HX e' He') as (t & Ht & _). eapply dget_In_keys; eauto. }
    rewrite Hr, Hx. do 2 f_equal. set (es := latest (Nat.min n (S (length pre))) pre e) in *.
    assert (Hes : forall e', In e' es -> In e' log).
    { intros e' He'. assert (Hin : In e' (e :: rev pre)).
      { unfold es, latest in He'. rewrite <- (firstn_skipn (Nat.min n (S (length pre)))). apply in_or_app; auto. }
      rewrite E. apply in_or_app. destruct Hin as [<-|Hin]; [right; left; auto|left; apply in_rev; auto]. }
    assert (Hts : forall t, In t ts -> exists e', In e' es /\ dget X (e_tend e') = Some t).
    { clear - Ht. unfold tendencies_of in Ht. induction Ht as [|e' t es ts He Ht IH]; intros t' []; [subst; exists e'; split; [left|]; auto|].
      destruct (IH t') as (e1 & I1 & I2); auto. exists e1. split; [right|]; auto. }
    eapply extends_self; eauto.
    - assert (Hie : In e log) by (rewrite E; apply in_or_app; right; left; auto). destruct (Hw e Hie) as ((_ & W) & _). eauto.
    - intros t Hin. destruct (Hts t Hin) as (e' & I1 & I2). destruct (HX e' I1) as (t' & I3 & _ & I4).
      assert (t' = t) by congruence. subst. auto.
    - intros t Hin. destruct (Hts t Hin) as (e' & I1 & I2). destruct (Hw e' (Hes e' I1)) as (_ & _ & W). eauto.
    - intros c Hc. destruct (Hv c Hc) as (ys & Hys & ->). rewrite dot_zero; [ring|].
      clear - Hys HX. unfold rates_of in Hys. induction Hys as [|e' y es ys (t & I1 & I2 & I3) Hys IH]; constructor.
      + destruct (HX e') as (t' & J1 & J2 & _); [left; auto|]. assert (t' = t) by congruence. subst. eauto.
      + apply IH. intros e1 He1. apply HX. right; auto.
  Qed.

  Lemma euler_same : forall dt (st : state Qc) tend st' X, euler_step dt st tend st' -> proper_state st -> proper tend ->
    (forall t, dget X tend = Some t -> no_change st X t) -> dget X st' = dget X st.
  Proof.
    intros dt st tend st' X (H1 & H2) Ws [_ Wt] Hz. destruct (dget X tend) as [t|] eqn:Et.
    - destruct (H2 X t Et) as (x & r & Hx & Hr & He & Hv). rewrite Hr, Hx. do 2 f_equal.
      destruct (Hz t eq_refl) as (Z1 & Z2). eapply extends_self; eauto.
      + eapply Ws; eauto.
      + intros t' [<-|[]]. auto.
      + intros t' [<-|[]]. eauto.
      + intros c Hc. destruct (Hv c Hc) as (Hg & y & Hy & ->). rewrite (Z1 c y Hg Hy). cbn [aadd amul ArithQc]. ring.
    - apply H1. intros Hk. apply In_keys_dget in Hk as (v & Hv). congruence.
  Qed.

  Lemma combination_same : forall a b (st st' out : state Qc) X, (a + b = 1)%Qc ->
    combination (fun x y => (a * x + b * y)%Qc) st st' out -> proper_state st ->
    dget X st' = dget X st -> dget X out = dget X st.
  Proof.
    intros a b st st' out X Hab (C1 & C2) Ws Hs. destruct (string_dec X "time") as [->|HX]; auto.
    specialize (C2 X HX). destruct (dget X st) as [[x|]|] eqn:Ex; [|contradiction|auto].
    destruct C2 as (x' & r & Hx' & Hr & He & Hv). assert (x' = x) by congruence. subst. rewrite Hr. do 2 f_equal.
    assert (Wx : wf_da x) by (eapply Ws; eauto). eapply extends_self; eauto.
    - intros t [<-|[]]. apply incl_refl.
    - intros t [<-|[]]. auto.
    - intros c Hc. destruct (Hv c Hc) as (_ & ->). rewrite <- Qcmult_plus_distr_l, Hab. ring.
  Qed.

  Lemma no_change_get : forall (st st' : state Qc) X t, dget X st' = dget X st -> no_change st' X t -> no_change st X t.
  Proof.
    intros st st' X t H (N1 & N2). split.
    - intros c y Hc Hr. apply (N1 c y Hc). unfold rate in *. destruct (units_of t); auto.
      destruct Hr as (x & us & Hx & Hr). exists x, us. split; auto. congruence.
    - intros x Hx. apply N2. congruence.
  Qed.

  Lemma rk_steady : forall {U} cfg (prog : icaller U) z k0 u0 calls k u (st : state Qc) dt s' diag new X,
    new_rk z = Ok k0 -> after (ssp_rk cfg prog) calls (k0, u0) = (k, u) ->
    proper_components prog -> proper_state st ->
    ssp_rk cfg prog (k, u) st dt = (s', Ok (diag, new)) ->
    (forall u st u' tend diag t, prog u st dt = (u', Ok (tend, diag)) -> dget X tend = Some t -> no_change st X t) ->
    dget X new = dget X st.
  Proof.
    intros U cfg prog z k0 u0 calls k u st dt s' diag new X Hz Haf Hpc Hps H Hn.
    assert (He : forall u st u' tend diag st', prog u st dt = (u', Ok (tend, diag)) -> proper_state st -> euler_step dt st tend st' -> dget X st' = dget X st).
    { intros v sv v' tv dv sv' Hp Hs He. eapply euler_same; eauto. }
    destruct (rk_stages_exact cfg prog z k0 u0 calls k u st dt s' diag new Hz Haf Hpc Hps H) as
      [(_ & u1 & u2 & u3 & t1 & t2 & t3 & d1 & d2 & d3 & st1 & st15 & st2 & st25 & P1 & E1 & P2 & E2 & C1 & P3 & E3 & C2 & W1 & W2 & W3 & W4 & W5)
      |(_ & u1 & u2 & t1 & t2 & d1 & d2 & st1 & st2 & P1 & E1 & P2 & E2 & C & W1 & W2 & W3)].
    - assert (K1 : dget X st15 = dget X st) by (rewrite (He _ _ _ _ _ _ P2 W1 E2); eauto).
      assert (K2 : dget X st2 = dget X st) by (eapply combination_same; [|exact C1| |]; auto; apply Qc_is_canon; reflexivity).
      assert (K3 : dget X st25 = dget X st) by (rewrite (He _ _ _ _ _ _ P3 W3 E3); eauto).
      eapply combination_same; [|exact C2| |]; auto; apply Qc_is_canon; reflexivity.
    - assert (K1 : dget X st2 = dget X st) by (rewrite (He _ _ _ _ _ _ P2 W1 E2); eauto).
      eapply combination_same; [|exact C| |]; auto; apply Qc_is_canon; reflexivity.
  Qed.

  Lemma leap_values_lin : forall sec nu alpha o x y : Qc,
    fst (leapfrog_values sec nu alpha o x y) = (alpha * nu * o + (1 - alpha * nu) * x + alpha * nu * sec * y)%Qc /\
    snd (leapfrog_values sec nu alpha o x y) =
      ((1 + (alpha - 1) * nu) * o + - ((alpha - 1) * nu) * x + (Q2Qc (2 # 1) + (alpha - 1) * nu) * sec * y)%Qc.
  Proof.
    intros sec nu alpha o x y. unfold leapfrog_values. cbn [fst snd aeqb aadd amul asub aofQ ArithQc]. split; [qc_ring|].
    destruct (Qc_eq_bool alpha (Q2Qc (1 # 1))) eqn:E; [apply Qc_eq_bool_correct in E; subst|]; qc_ring.
  Qed.

  Lemma leap_steady : forall dt nu alpha (before st : state Qc) tend st' new X, leap_step dt nu alpha before st tend st' new ->
    proper_state st -> proper tend -> dget X before = dget X st -> (forall t, dget X tend = Some t -> no_change st X t) ->
    dget X st' = dget X st /\ dget X new = dget X st.
  Proof.
    intros dt nu alpha before st tend st' new X (H1 & H2 & H3) Ws [_ Wt] Hb Hz. destruct (dget X tend) as [t|] eqn:Et.
    - destruct (H3 X t Et) as (o & x & x' & n & Ho & Hx & Hx' & Hn & Ex & En & Vx & Vn).
      assert (o = x) by congruence. subst. destruct (Hz t eq_refl) as (Z1 & Z2).
      assert (Wx : wf_da x) by (eapply Ws; eauto). rewrite Hx', Hn, Hx. split; do 2 f_equal; eapply extends_self; eauto.
      + intros ? [].
      + intros ? [].
      + intros c Hc. destruct (Vx c (in_grid_left _ _ _ _ Ex Hc)) as (_ & Hg & y & Hy & ->). rewrite (Z1 c y Hg Hy).
        rewrite (proj1 (leap_values_lin _ _ _ _ _ _)). ring.
      + intros t' [<-|[]]; auto.
      + intros t' [<-|[]]; eauto.
      + intros c Hc. destruct (Vn c Hc) as (Hg & _ & y & Hy & ->). rewrite (Z1 c y Hg Hy).
        rewrite (proj2 (leap_values_lin _ _ _ _ _ _)). ring.
    - assert (Hk : ~ In X (keys tend)) by (intros Hk; apply In_keys_dget in Hk as (v & Hv); congruence). split; auto.
  Qed.

  (** ** Linear invariants under Leapfrog *)

  Lemma leap_balanced : forall dt nu alpha (before st : state Qc) tend st' new terms, leap_step dt nu alpha before st tend st' new ->
    on_grid terms before -> on_grid terms st -> balanced terms st tend -> total terms before = total terms st ->
    on_grid terms st' /\ on_grid terms new /\ total terms st' = total terms st /\ total terms new = total terms st.
  Proof.
    intros dt nu alpha before st tend st' new terms (_ & _ & H) Hb Hs (ys & F & D) Ht. set (h := Q2Qc (dt # 1000000)).
    assert (Hpt : Forall2 (fun (tm : term) y => let '(X, c, w) := tm in
              (exists r, dget X st' = Some (VDA r) /\ in_grid r c) /\ (exists r, dget X new = Some (VDA r) /\ in_grid r c) /\
              (value st' X c = alpha * nu * value before X c + (1 - alpha * nu) * value st X c + alpha * nu * h * y)%Qc /\
              (value new X c = (1 + (alpha - 1) * nu) * value before X c + - ((alpha - 1) * nu) * value st X c +
                 (Q2Qc (2 # 1) + (alpha - 1) * nu) * h * y)%Qc) terms ys).
    { clear D Ht. induction F as [|[[X c] w] y terms ys (t & Hg & Hgt & Hy) F IH]; [constructor|].
      apply on_grid_cons in Hb as ((o & Ho & Hgo) & Hb). apply on_grid_cons in Hs as ((x & Hx & Hgx) & Hs).
      constructor; [|apply IH; auto]. destruct (H X t Hg) as (o' & x0 & x' & n & Ho' & Hx0 & Hx' & Hn & Ex & En & Vx & Vn).
      assert (o' = o) by congruence. assert (x0 = x) by congruence. subst o' x0.
      assert (Gn : in_grid n c) by (eapply in_grid_extends; eauto).
      assert (Gx : in_grid x' c) by (eapply in_grid_extends; eauto).
      split; [eauto|]. split; [eauto|]. rewrite (value_at _ _ _ _ Hx'), (value_at _ _ _ _ Hn), (value_at _ _ _ _ Ho), (value_at _ _ _ _ Hx).
      destruct (Vx c Hgx) as (_ & _ & y1 & Hy1 & ->). destruct (Vn c Gn) as (_ & _ & y2 & Hy2 & ->).
      rewrite (rate_fun _ _ _ _ _ _ Hy1 Hy), (rate_fun _ _ _ _ _ _ Hy2 Hy). apply leap_values_lin. }
    split; [|split; [|split]].
    - clear - Hpt. unfold on_grid. induction Hpt as [|[[X c] w] y terms ys (Hr & _) Hp IH]; constructor; auto.
    - clear - Hpt. unfold on_grid. induction Hpt as [|[[X c] w] y terms ys (_ & Hr & _) Hp IH]; constructor; auto.
    - rewrite (total_lin (alpha * nu)%Qc (1 - alpha * nu)%Qc (alpha * nu * h)%Qc before st st' terms ys).
      + rewrite D, Ht. ring.
      + clear - Hpt. induction Hpt as [|[[X c] w] y terms ys (_ & _ & Hv & _) Hp IH]; constructor; auto.
    - rewrite (total_lin (1 + (alpha - 1) * nu)%Qc (- ((alpha - 1) * nu))%Qc ((Q2Qc (2 # 1) + (alpha - 1) * nu) * h)%Qc before st new terms ys).
      + rewrite D, Ht. ring.
      + clear - Hpt. induction Hpt as [|[[X c] w] y terms ys (_ & _ & _ & Hv) Hp IH]; constructor; auto.
  Qed.

  Lemma leap_conserved : forall {U} cfg (prog : icaller U) dt nu alpha u e0 log s,
    lhistory cfg prog dt (new_leap nu alpha, u) (e0 :: log) s -> wf_llog (e0 :: log) -> lchained (e0 :: log) ->
    forall terms, on_grid terms (l_st e0) ->
    (forall e, In e (e0 :: log) -> on_grid terms (l_st e) -> balanced terms (l_st e) (l_tend e)) ->
    forall e, In e (e0 :: log) -> total terms (l_st e) = total terms (l_st e0) /\
      total terms (l_after e) = total terms (l_st e0) /\ total terms (l_new e) = total terms (l_st e0).
  Proof.
    intros U cfg prog dt nu alpha u e0 log s H Hw Hch terms Hg Hb.
    destruct (leap_formula_lemma cfg prog dt nu alpha u _ s H Hw) as (F1 & F2).
    assert (Main : forall m pre e post, length pre = m -> e0 :: log = pre ++ e :: post ->
              (on_grid terms (l_st e) /\ on_grid terms (l_after e) /\ on_grid terms (l_new e)) /\
              total terms (l_st e) = total terms (l_st e0) /\ total terms (l_after e) = total terms (l_st e0) /\
              total terms (l_new e) = total terms (l_st e0)).
    { induction m as [m IH] using lt_wf_ind. intros pre e post Hm E.
      destruct pre as [|p pre] using rev_ind.
      - cbn [app] in E. destruct (F1 e post E) as (A1 & A2). assert (e = e0) by congruence. subst e.
        destruct (euler_balanced _ _ _ _ terms A2 Hg) as (B1 & B2). { apply Hb; auto. left; auto. }
        rewrite A1. auto.
      - clear IHpre. rewrite app_length in Hm. cbn [length] in Hm. rewrite <- app_assoc in E. cbn [app] in E.
        destruct (IH (length pre) ltac:(lia) pre p (e :: post) eq_refl E) as ((I1 & I2 & I3) & I4 & I5 & I6).
        pose proof (Hch pre p e post E) as Hc. rewrite <- Hc in I3, I6.
        destruct (leap_balanced _ _ _ _ _ _ _ _ terms (F2 pre p e post E) I2 I3) as (B1 & B2 & B3 & B4).
        + apply Hb; auto. rewrite E. apply in_or_app. right. right. left. auto.
        + congruence.
        + repeat match goal with |- _ /\ _ => split end; auto; congruence. }
    intros e He. apply in_split in He as (pre & post & E). destruct (Main _ pre e post eq_refl E) as (_ & M). auto.
  Qed.

  (** ** The filter *)

  Lemma leap_filter : forall dt nu alpha (before st : state Qc) tend st' new X t, leap_step dt nu alpha before st tend st' new ->
    dget X tend = Some t -> exists o x x' n, dget X before = Some (VDA o) /\ dget X st = Some (VDA x) /\
      dget X st' = Some (VDA x') /\ dget X new = Some (VDA n) /\
      forall c, in_grid x c -> in_grid x' c /\ in_grid n c /\ exists y, rate st X t c y /\
        let plain := (da_at o c + Q2Qc (2 # 1) * y * Q2Qc (dt # 1000000))%Qc in
        (alpha = Q2Qc (1 # 2) -> (da_at o c + da_at x' c + da_at n c = da_at o c + da_at x c + plain)%Qc) /\
        (alpha = 1%Qc -> da_at n c = plain) /\
        (nu = 0%Qc -> da_at x' c = da_at x c /\ da_at n c = plain).
  Proof.
    intros dt nu alpha before st tend st' new X t (_ & _ & H) Ht.
    destruct (H X t Ht) as (o & x & x' & n & Ho & Hx & Hx' & Hn & Ex & En & Vx & Vn). exists o, x, x', n. do 4 (split; auto).
    intros c Hc. destruct (Vx c Hc) as (Go & Gt & y & Hy & V). assert (Gn : in_grid n c) by (eapply in_grid_extends; eauto).
    split. { eapply in_grid_extends; eauto. } split; auto. exists y. split; auto.
    destruct (Vn c Gn) as (_ & _ & y2 & Hy2 & V2). rewrite (rate_fun _ _ _ _ _ _ Hy2 Hy) in V2.
    cbn zeta. split; [|split].
    - intros Ha. rewrite V, V2, <- !Qcplus_assoc. f_equal. apply (leap_conserves (Q2Qc (dt # 1000000)) nu alpha (da_at o c) (da_at x c) y Ha).
    - intros ->. rewrite V2. rewrite leap_alpha1; [reflexivity|]. vm_compute. reflexivity.
    - intros Hnu. change (aofQ (dt # 1000000)) with (Q2Qc (dt # 1000000)) in V, V2. rewrite leap_nu0 in V, V2; auto.
  Qed.

  (** ** Units *)

  Context (Hsane : sane_registry R) (Hps : per_second_law R).

  Lemma rate_amount : forall (st : state Qc) X x us u t c y v, rate st X t c y -> amount t c = Some v ->
    dget X st = Some (VDA x) -> units_of x = Some us -> parse us = Some u -> (y * u_fac u = v)%Qc.
  Proof.
    intros st X x us u t c y v Hr Ha Hx Hu Hp. unfold rate in Hr. unfold amount in Ha. fold (units_of t) in Ha.
    destruct (units_of t) as [ut|]; [|discriminate]. destruct Hr as (x' & us' & Hx' & Hu' & Hc).
    assert (x' = x) by congruence. subst. assert (us' = us) by congruence. subst.
    destruct (parse ut) as [u1|] eqn:Pt; [|discriminate]. pose proof Hc as (_ & u2 & _ & P2 & _).
    pose proof (converted_base Hsane _ _ _ _ _ _ Hc Pt P2) as Hb. destruct (Hps _ _ _ _ (or_introl eq_refl) Hp P2) as (L1 & L2).
    unfold base_value in *. rewrite L1, L2 in Hb. injection Ha as <-. rewrite <- Hb. ring.
  Qed.

  Lemma amount_units : forall (a : da Qc) c v, amount a c = Some v ->
    exists s u, units_of a = Some s /\ parse s = Some u /\ v = base_value u (da_at a c).
  Proof.
    intros a c v H. unfold amount in H. unfold units_of. destruct (dget "units" (attrs a)) as [s|]; [|discriminate].
    destruct (parse s) as [u|] eqn:P; [|discriminate]. injection H as <-. eauto 6.
  Qed.

  Lemma amount_of : forall (a : da Qc) c s u, units_of a = Some s -> parse s = Some u -> amount a c = Some (base_value u (da_at a c)).
  Proof. intros a c s u H P. unfold amount. unfold units_of in H. rewrite H, P. auto. Qed.

  (** Adams-Bashforth in physical amounts. *)
  Lemma ab_physical : forall {U} cfg (prog : icaller U) dt n u log s, 1 <= n <= 4 ->
    history (adams_bashforth cfg prog) prog dt (mkab n None [], u) log s -> wf_log log ->
    forall pre e post, log = pre ++ e :: post -> let es := latest (Nat.min n (S (length pre))) pre e in
    forall X, same_units X (map e_st es) -> (forall e', In e' es -> In X (keys (e_tend e'))) ->
    exists x ts r, dget X (e_st e) = Some (VDA x) /\ dget X (e_new e) = Some (VDA r) /\ tendencies_of es X ts /\ extends x ts r /\
      forall c b bs, in_grid r c -> amount x c = Some b -> Forall2 (fun t v => amount t c = Some v) ts bs ->
        amount r c = Some (b + Q2Qc (dt # 1000000) * dot (ab_weights (Nat.min n (S (length pre)))) bs)%Qc.
  Proof.
    intros U cfg prog dt n u log s Hn H Hw pre e post E es X Hsu HX.
    destruct (ab_textbook cfg prog dt n u log s Hn H Hw pre e post E X HX) as (x & ts & r & Hx & Hr & Ht & He & Hv).
    exists x, ts, r. do 4 (split; auto). intros c b bs Hc Hb Hbs. fold es in Hv, Ht.
    destruct (amount_units _ _ _ Hb) as (us & uu & Hus & Hp & ->).
    assert (Hru : units_of r = Some us) by (unfold units_of; destruct He as (_ & -> & _); exact Hus).
    rewrite (amount_of r c us uu Hru Hp). f_equal. destruct (Hv c Hc) as (ys & Hys & ->).
    assert (Hbs' : bs = map (fun y => (y * u_fac uu)%Qc) ys).
    { assert (Hin : In (e_st e) (map e_st es)).
      { apply in_map. unfold es, latest. destruct (Nat.min n (S (length pre))) eqn:Em; [lia|]. left; auto. }
      assert (Hun : forall e' x', In e' es -> dget X (e_st e') = Some (VDA x') -> units_of x' = Some us).
      { intros e' x' He' Hx'. rewrite <- Hus. apply (Hsu (e_st e') (e_st e) x' x); auto. apply in_map; auto. }
      clear - Hbs Hys Ht Hun Hp Hsane Hps. revert ts bs Ht Hbs. unfold rates_of, tendencies_of in *. clearbody es.
      induction Hys as [|e' y es ys (t & I1 & I2 & I3) Hys IH]; intros ts bs Ht Hbs; inversion Ht as [|? t' ? ts' Ht' Hts]; subst;
        inversion Hbs as [|? v ? bs' Hv Hbs']; subst; auto. cbn [map]. assert (t' = t) by congruence. subst. f_equal.
      - destruct (amount_units _ _ _ Hv) as (ut & ? & Hut & _). pose proof I3 as I4. unfold rate in I4. rewrite Hut in I4.
        destruct I4 as (x' & us' & Hx' & Hus' & _). symmetry. apply (rate_amount (e_st e') X x' us uu t c y v); auto. apply (Hun e' x'); auto. left; auto.
      - apply (IH ltac:(intros; eapply Hun; eauto; right; auto) ts'); auto. }
    assert (Hdot : forall W l, dot W (map (fun y => (y * u_fac uu)%Qc) l) = (u_fac uu * dot W l)%Qc).
    { clear. induction W as [|w W IH]; intros [|y l]; cbn [map dot]; try ring. rewrite IH. ring. }
    rewrite Hbs', Hdot. unfold base_value. ring.
  Qed.

  Lemma alike_len : forall (a b : da Qc), alike a b -> forall d, dim_len a d = dim_len b d.
  Proof. intros a b (H & _). auto. Qed.

  Lemma alike_grid : forall (a b : da Qc) c, alike a b -> in_grid a c -> in_grid b c.
  Proof. intros a b c (H & _) Hc d n Hn. apply Hc. rewrite H. auto. Qed.

  Lemma first_len_alike : forall ts1 ts2 d, Forall2 alike ts1 ts2 -> first_len d ts1 = first_len d ts2.
  Proof. intros ts1 ts2 d H. induction H as [|a b ts1 ts2 (L & _) H IH]; cbn [first_len]; auto. rewrite L, IH. auto. Qed.

  Lemma euler_alike : forall dt (st1 st2 : state Qc) tend1 tend2 st1' st2', euler_step dt st1 tend1 st1' -> euler_step dt st2 tend2 st2' ->
    alike_states st1 st2 -> alike_tendencies tend1 tend2 -> alike_states st1' st2'.
  Proof.
    intros dt st1 st2 tend1 tend2 st1' st2' (O1 & H1) (O2 & H2) Hs Ht X. specialize (Hs X). specialize (Ht X).
    destruct (dget X tend1) as [t1|] eqn:E1, (dget X tend2) as [t2|] eqn:E2; try contradiction.
    - destruct (H1 X t1 E1) as (x1 & r1 & Hx1 & Hr1 & Ex1 & V1). destruct (H2 X t2 E2) as (x2 & r2 & Hx2 & Hr2 & Ex2 & V2).
      rewrite Hr1, Hr2. rewrite Hx1, Hx2 in Hs.
      assert (L : forall d, dim_len r1 d = dim_len r2 d).
      { intros d. destruct Ex1 as (_ & _ & _ & ->), Ex2 as (_ & _ & _ & ->). apply first_len_alike. auto. }
      split; auto. intros c Hc1. assert (Hc2 : in_grid r2 c) by (intros d m Hm; apply Hc1; rewrite L; auto).
      destruct (V1 c Hc1) as (G1 & y1 & Hy1 & W1). destruct (V2 c Hc2) as (G2 & y2 & Hy2 & W2).
      destruct Hs as (_ & Hs). destruct (Hs c (in_grid_left _ _ _ _ Ex1 Hc1)) as (v & B1 & B2).
      destruct Ht as (_ & Ht). destruct (Ht c G1) as (w & B3 & B4).
      destruct (amount_units _ _ _ B1) as (s1 & u1 & Us1 & P1 & K1). destruct (amount_units _ _ _ B2) as (s2 & u2 & Us2 & P2 & K2).
      pose proof (rate_amount st1 X x1 s1 u1 t1 c y1 w Hy1 B3 Hx1 Us1 P1) as Q1.
      pose proof (rate_amount st2 X x2 s2 u2 t2 c y2 w Hy2 B4 Hx2 Us2 P2) as Q2.
      assert (Ur1 : units_of r1 = Some s1) by (unfold units_of; destruct Ex1 as (_ & -> & _); exact Us1).
      assert (Ur2 : units_of r2 = Some s2) by (unfold units_of; destruct Ex2 as (_ & -> & _); exact Us2).
      exists (v + w * Q2Qc (dt # 1000000))%Qc. rewrite (amount_of r1 c s1 u1), (amount_of r2 c s2 u2); auto.
      rewrite W1, W2. cbn [aadd amul aofQ ArithQc]. unfold base_value in *. split; f_equal.
      + rewrite K1, <- Q1. ring.
      + rewrite K2, <- Q2. ring.
    - rewrite O1, O2; auto; intros Hk; apply In_keys_dget in Hk as (v & Hv); congruence.
  Qed.

  (** Quantities present in both states have the same units. *)
  Lemma combination_alike : forall a b (st1 st2 st1' st2' out1 out2 : state Qc), (a + b = 1)%Qc ->
    combination (fun x y => (a * x + b * y)%Qc) st1 st1' out1 -> combination (fun x y => (a * x + b * y)%Qc) st2 st2' out2 ->
    (forall X, same_units X [st1; st1']) -> (forall X, same_units X [st2; st2']) ->
    alike_states st1 st2 -> alike_states st1' st2' -> alike_states out1 out2.
  Proof.
    intros a b st1 st2 st1' st2' out1 out2 Hab (T1 & C1) (T2 & C2) U1 U2 Hs Hs' X.
    destruct (string_dec X "time") as [->|HX]. { rewrite T1, T2. apply Hs. }
    specialize (C1 X HX). specialize (C2 X HX). specialize (Hs X). specialize (Hs' X). specialize (U1 X). specialize (U2 X).
    destruct (dget X st1) as [[x1|]|] eqn:E1; [|contradiction|].
    2: { destruct (dget X st2); [contradiction|]. rewrite C1, C2. auto. }
    destruct (dget X st2) as [[x2|]|] eqn:E2; try contradiction.
    destruct C1 as (x1' & r1 & Hx1 & Hr1 & Ex1 & V1). destruct C2 as (x2' & r2 & Hx2 & Hr2 & Ex2 & V2).
    rewrite Hx1, Hx2 in Hs'. rewrite Hr1, Hr2.
    assert (L : forall d, dim_len r1 d = dim_len r2 d).
    { intros d. destruct Ex1 as (_ & _ & _ & ->), Ex2 as (_ & _ & _ & ->). apply first_len_alike. auto. }
    split; auto. intros c Hc1. assert (Hc2 : in_grid r2 c) by (intros d m Hm; apply Hc1; rewrite L; auto).
    destruct (V1 c Hc1) as (G1 & W1). destruct (V2 c Hc2) as (G2 & W2).
    destruct Hs as (_ & Hs). destruct (Hs c (in_grid_left _ _ _ _ Ex1 Hc1)) as (v & B1 & B2).
    destruct Hs' as (_ & Hs'). destruct (Hs' c G1) as (w & B3 & B4).
    destruct (amount_units _ _ _ B1) as (s1 & u1 & Us1 & P1 & K1). destruct (amount_units _ _ _ B2) as (s2 & u2 & Us2 & P2 & K2).
    assert (Ux1 : units_of x1' = Some s1).
    { rewrite <- Us1. apply (U1 st1' st1 x1' x1); simpl; auto. }
    assert (Ux2 : units_of x2' = Some s2).
    { rewrite <- Us2. apply (U2 st2' st2 x2' x2); simpl; auto. }
    rewrite (amount_of _ c _ _ Ux1 P1) in B3. rewrite (amount_of _ c _ _ Ux2 P2) in B4. injection B3 as B3. injection B4 as B4.
    assert (Ur1 : units_of r1 = Some s1) by (unfold units_of; destruct Ex1 as (_ & -> & _); exact Us1).
    assert (Ur2 : units_of r2 = Some s2) by (unfold units_of; destruct Ex2 as (_ & -> & _); exact Us2).
    exists (a * v + b * w)%Qc. rewrite (amount_of r1 c s1 u1), (amount_of r2 c s2 u2); auto. rewrite W1, W2.
    assert (Hb : b = (1 - a)%Qc) by (rewrite <- Hab; ring). subst b.
    split; f_equal.
    - rewrite K1, <- B3. unfold base_value. ring.
    - rewrite K2, <- B4. unfold base_value. ring.
  Qed.

  Lemma euler_units : forall dt (st : state Qc) tend st' X x x', euler_step dt st tend st' ->
    dget X st = Some (VDA x) -> dget X st' = Some (VDA x') -> units_of x' = units_of x.
  Proof.
    intros dt st tend st' X x x' (O & H) Hx Hx'. destruct (dget X tend) as [t|] eqn:E.
    - destruct (H X t E) as (x0 & r & Hx0 & Hr & (_ & He & _) & _). assert (x0 = x) by congruence. assert (r = x') by congruence. subst.
      unfold units_of. rewrite He. auto.
    - rewrite O in Hx'; [congruence|]. intros Hk. apply In_keys_dget in Hk as (v & Hv). congruence.
  Qed.

  Lemma euler_back : forall dt (st : state Qc) tend st' X x', euler_step dt st tend st' -> dget X st' = Some (VDA x') ->
    exists x, dget X st = Some (VDA x) /\ units_of x' = units_of x.
  Proof.
    intros dt st tend st' X x' He Hx'. destruct (dget X tend) as [t|] eqn:E.
    - destruct (proj2 He X t E) as (x & _ & Hx & _). exists x. split; auto. eapply euler_units; eauto.
    - exists x'. split; auto. rewrite (proj1 He) in Hx'; auto. intros Hk. apply In_keys_dget in Hk as (v & Hv). congruence.
  Qed.

  Lemma combination_back : forall f (st st' out : state Qc) X r, combination f st st' out -> dget X out = Some (VDA r) ->
    exists x, dget X st = Some (VDA x) /\ units_of r = units_of x.
  Proof.
    intros f st st' out X r (C1 & C2) Hr. destruct (string_dec X "time") as [->|HX]. { exists r. split; auto. congruence. }
    specialize (C2 X HX). destruct (dget X st) as [[x|]|]; [|contradiction|congruence].
    destruct C2 as (x' & r' & _ & Hr' & (_ & He & _) & _). assert (r' = r) by congruence. subst. exists x. split; auto.
    unfold units_of. rewrite He. auto.
  Qed.

  Lemma same_units_two : forall (st st' : state Qc),
    (forall X x', dget X st' = Some (VDA x') -> exists x, dget X st = Some (VDA x) /\ units_of x' = units_of x) ->
    forall X, same_units X [st; st'].
  Proof.
    intros st st' H X s s' x x' Hs Hs' Hx Hx'.
    assert (G : forall s x, In s [st; st'] -> dget X s = Some (VDA x) -> exists y, dget X st = Some (VDA y) /\ units_of x = units_of y).
    { intros q y [<-|[<-|[]]] Hy; eauto. }
    destruct (G s x Hs Hx) as (y & G1 & G2). destruct (G s' x' Hs' Hx') as (y' & G3 & G4). congruence.
  Qed.

  Lemma rk_alike : forall {U} cfg1 cfg2 (prog1 prog2 : icaller U) z k0 u01 u02 calls1 calls2 k1 k2 u (st1 st2 : state Qc) dt s1 s2 diag1 diag2 new1 new2,
    new_rk z = Ok k0 ->
    after (ssp_rk cfg1 prog1) calls1 (k0, u01) = (k1, u) -> after (ssp_rk cfg2 prog2) calls2 (k0, u02) = (k2, u) ->
    proper_components prog1 -> proper_components prog2 -> proper_state st1 -> proper_state st2 ->
    ssp_rk cfg1 prog1 (k1, u) st1 dt = (s1, Ok (diag1, new1)) -> ssp_rk cfg2 prog2 (k2, u) st2 dt = (s2, Ok (diag2, new2)) ->
    (forall u st1 st2 u1 u2 tend1 tend2 diag1 diag2, alike_states st1 st2 ->
       prog1 u st1 dt = (u1, Ok (tend1, diag1)) -> prog2 u st2 dt = (u2, Ok (tend2, diag2)) ->
       u1 = u2 /\ alike_tendencies tend1 tend2) ->
    alike_states st1 st2 -> alike_states new1 new2.
  Proof.
    intros U cfg1 cfg2 prog1 prog2 z k0 u01 u02 calls1 calls2 k1 k2 u st1 st2 dt s1 s2 diag1 diag2 new1 new2 Hz A1 A2 Pc1 Pc2 Ps1 Ps2 H1 H2 Hp Hs.
    pose proof (rk_stages_exact cfg1 prog1 z k0 u01 calls1 k1 u st1 dt s1 diag1 new1 Hz A1 Pc1 Ps1 H1) as G1.
    pose proof (rk_stages_exact cfg2 prog2 z k0 u02 calls2 k2 u st2 dt s2 diag2 new2 Hz A2 Pc2 Ps2 H2) as G2.
    destruct G1 as
      [(Z1 & p1 & p2 & p3 & t1 & t2 & t3 & d1 & d2 & d3 & a1 & a15 & a2 & a25 & P1 & E1 & P2 & E2 & C1 & P3 & E3 & C2 & _)
      |(Z1 & p1 & p2 & t1 & t2 & d1 & d2 & a1 & a2 & P1 & E1 & P2 & E2 & C & _)], G2 as
      [(Z2 & q1 & q2 & q3 & t1' & t2' & t3' & d1' & d2' & d3' & b1 & b15 & b2 & b25 & Q1 & F1 & Q2 & F2 & D1 & Q3 & F3 & D2 & _)
      |(Z2 & q1 & q2 & t1' & t2' & d1' & d2' & b1 & b2 & Q1 & F1 & Q2 & F2 & D & _)]; try lia.
    - destruct (Hp _ _ _ _ _ _ _ _ _ Hs P1 Q1) as (-> & T1). pose proof (euler_alike _ _ _ _ _ _ _ E1 F1 Hs T1) as S1.
      destruct (Hp _ _ _ _ _ _ _ _ _ S1 P2 Q2) as (-> & T2). pose proof (euler_alike _ _ _ _ _ _ _ E2 F2 S1 T2) as S2.
      assert (B : forall (st sa sb : state Qc) ta tb X x', euler_step dt st ta sa -> euler_step dt sa tb sb -> dget X sb = Some (VDA x') ->
                    exists x, dget X st = Some (VDA x) /\ units_of x' = units_of x).
      { intros st sa sb ta tb X x' I1 I2 I3. destruct (euler_back _ _ _ _ _ _ I2 I3) as (y & J1 & J2).
        destruct (euler_back _ _ _ _ _ _ I1 J1) as (w & J3 & J4). exists w. split; auto. congruence. }
      assert (S3 : alike_states a2 b2).
      { eapply combination_alike; [|exact C1|exact D1| | |exact Hs|exact S2]; [apply Qc_is_canon; reflexivity| |];
          apply same_units_two; intros X x' Hx'; eapply B; eauto. }
      destruct (Hp _ _ _ _ _ _ _ _ _ S3 P3 Q3) as (_ & T3). pose proof (euler_alike _ _ _ _ _ _ _ E3 F3 S3 T3) as S4.
      eapply combination_alike; [|exact C2|exact D2| | |exact Hs|exact S4]; [apply Qc_is_canon; reflexivity| |];
        apply same_units_two; intros X x' Hx'.
      + destruct (euler_back _ _ _ _ _ _ E3 Hx') as (y & J1 & J2). destruct (combination_back _ _ _ _ _ _ C1 J1) as (w & J3 & J4).
        exists w. split; auto. congruence.
      + destruct (euler_back _ _ _ _ _ _ F3 Hx') as (y & J1 & J2). destruct (combination_back _ _ _ _ _ _ D1 J1) as (w & J3 & J4).
        exists w. split; auto. congruence.
    - destruct (Hp _ _ _ _ _ _ _ _ _ Hs P1 Q1) as (-> & T1). pose proof (euler_alike _ _ _ _ _ _ _ E1 F1 Hs T1) as S1.
      destruct (Hp _ _ _ _ _ _ _ _ _ S1 P2 Q2) as (-> & T2). pose proof (euler_alike _ _ _ _ _ _ _ E2 F2 S1 T2) as S2.
      eapply combination_alike; [|exact C|exact D| | |exact Hs|exact S2]; [apply Qc_is_canon; reflexivity| |];
        apply same_units_two; intros X x' Hx'.
      + destruct (euler_back _ _ _ _ _ _ E2 Hx') as (y & J1 & J2). destruct (euler_back _ _ _ _ _ _ E1 J1) as (w & J3 & J4).
        exists w. split; auto. congruence.
      + destruct (euler_back _ _ _ _ _ _ F2 Hx') as (y & J1 & J2). destruct (euler_back _ _ _ _ _ _ F1 J1) as (w & J3 & J4).
        exists w. split; auto. congruence.
  Qed.
End Exact.
