(** Lemmas about the tendencies a time stepper puts in its diagnostics. *)
From Coq Require Import String List Bool Arith ZArith QArith Qcanon Lia.
From Verif Require Import Prelude PreludeFacts ArithM NdArray NdFacts Units DataArrayM GetNp Components ComponentFacts Composite Steppers
  SpecUnits UnitsFacts SpecDa DaFacts SpecComposite SpecSteppers SteppersFacts ABFacts RKFacts LeapFacts StepAlgebra StepRuns StepExact CompositeMain StepSteady.
Import ListNotations.
Open Scope string_scope.
Open Scope nat_scope.
Open Scope list_scope.

Section Any.
  Context {T : Type} {A : Arith T} {R : Registry}.

  Lemma insert_one_ok : forall cfg dt (st new : state T) diag X p0 diag', insert_one cfg dt st new diag (X, p0) = Ok diag' ->
    (forall X a, dget X st = Some (VDA a) -> wf_da a) -> (forall X a, dget X new = Some (VDA a) -> wf_da a) ->
    dget (tendency_name (ts_name cfg) X) diag = None /\
    exists p base old x d, dget X (ts_inp cfg) = Some p /\ p_units p = Some base /\
      dget X st = Some (VDA old) /\ dget X new = Some (VDA x) /\ difference dt base old x d /\
      diag' = dset (tendency_name (ts_name cfg) X) d diag.
  Proof.
    intros cfg dt st new diag X p0 diag' H Ws Wn. unfold insert_one in H. cbn [fst] in H. cbv zeta in H.
    set (tn := tendency_name (ts_name cfg) X) in *.
    destruct (dmem tn diag) eqn:Ed; [discriminate|]. apply bind_ok in H as (p & Hp & H). apply bind_ok in H as (base & Hb & H).
    apply bind_ok in H as (vn & Hvn & H). apply bind_ok in H as (n & Hn & H). apply bind_ok in H as (vo & Hvo & H).
    apply bind_ok in H as (o & Ho & H). apply bind_ok in H as (d & Hd & H). injection H as <-.
    apply dgetE_ok in Hp. apply dgetE_ok in Hvn. apply dgetE_ok in Hvo.
    destruct vn as [x|]; [|discriminate]. destruct vo as [old|]; [|discriminate].
    destruct (p_units p) as [b|] eqn:Eb; [|discriminate]. injection Hb as ->.
    split. { apply dget_none. rewrite <- dmem_In, Ed. discriminate. }
    specialize (Ws _ _ Hvo). specialize (Wn _ _ Hvn).
    pose proof (to_units_wf _ _ _ Hn Wn) as Wn'. pose proof (to_units_wf _ _ _ Ho Ws) as Wo'.
    apply da_binop_ok in Hd as (Wd & _ & Dd & _ & Ld & Vd); auto.
    eexists p, base, old, x, _. do 4 (split; [eauto|]). split; [|reflexivity]. split; [|split; [reflexivity|split]].
    - exact (wf_da_map _ [("units", per_second base)] _ (wf_da_map _ [] _ Wd)).
    - intros dd. change (dim_len d dd = first_len dd [x; old]). rewrite Ld. cbn [first_len].
      rewrite (to_units_len _ _ _ dd Hn), (to_units_len _ _ _ dd Ho). destruct (dim_len x dd); auto. destruct (dim_len old dd); auto.
    - intros c Hc. assert (Hcd : in_grid d c) by exact Hc.
      destruct (Vd c Hcd) as (G1 & G2 & V).
      assert (Gx : in_grid x c) by (intros dd m Hm; apply G1; rewrite (to_units_len _ _ _ dd Hn); auto).
      assert (Go : in_grid old c) by (intros dd m Hm; apply G2; rewrite (to_units_len _ _ _ dd Ho); auto).
      destruct (to_units_ok _ _ _ Hn) as (un & _ & _ & Un & _). destruct (to_units_ok _ _ _ Ho) as (uo & _ & _ & Uo & _).
      exists uo, un, (da_at o c), (da_at n c). do 2 (split; auto).
      split. { eapply to_units_at; eauto. } split. { eapply to_units_at; eauto. }
      change (da_at (da_scale (da_divs d (total_seconds dt)) (total_seconds 1000000)) c =
              amul (adiv (asub (da_at n c) (da_at o c)) (total_seconds dt)) (total_seconds 1000000)).
      unfold da_scale, da_divs. rewrite !da_at_map; auto; [|apply wf_da_map; auto]. rewrite V. auto.
  Qed.

  Lemma insert_ok : forall cfg dt (st new : state T) l diag diag', foldM (insert_one cfg dt st new) l diag = Ok diag' ->
    NoDup (keys l) -> (forall X a, dget X st = Some (VDA a) -> wf_da a) -> (forall X a, dget X new = Some (VDA a) -> wf_da a) ->
    (forall X, In X (keys l) -> dget (tendency_name (ts_name cfg) X) diag = None /\
       exists p base old x d, dget X (ts_inp cfg) = Some p /\ p_units p = Some base /\
         dget X st = Some (VDA old) /\ dget X new = Some (VDA x) /\
         dget (tendency_name (ts_name cfg) X) diag' = Some d /\ difference dt base old x d) /\
    forall k, (forall X, In X (keys l) -> k <> tendency_name (ts_name cfg) X) -> dget k diag' = dget k diag.
  Proof.
    intros cfg dt st new l. induction l as [|[Y q] l IH]; intros diag diag' H Hnd Ws Wn.
    - cbn [foldM] in H. injection H as <-. split; [intros X []|auto].
    - cbn [foldM] in H. apply bind_ok in H as (diag1 & H1 & H). cbn [keys map fst] in *. inversion Hnd as [|? ? Hn Hnd']; subst.
      apply insert_one_ok in H1 as (N1 & p & base & old & x & d & P1 & P2 & P3 & P4 & P5 & ->); auto.
      destruct (IH _ _ H Hnd' Ws Wn) as (I1 & I2). split.
      + intros X [<-|HX].
        * split; auto. exists p, base, old, x, d. do 4 (split; auto). split; auto.
          rewrite I2; [apply dget_dset_eq|]. intros X HX E. apply tendency_name_inj in E. subst. auto.
        * destruct (I1 X HX) as (J1 & J2). split; auto. rewrite dget_dset_neq in J1; auto.
          intros E. apply tendency_name_inj in E. subst. auto.
      + intros k Hk. rewrite I2; [|intros X HX; apply Hk; right; auto]. apply dget_dset_neq. apply Hk. left; auto.
  Qed.

  (** A name clash, once the quantities before it went through. *)
  Lemma insert_clash : forall cfg dt (st new : state T) pre X p post diag diag1, ts_out cfg = pre ++ (X, p) :: post ->
    foldM (insert_one cfg dt st new) pre diag = Ok diag1 -> In (tendency_name (ts_name cfg) X) (keys diag) ->
    insert_differences cfg dt st new diag = Err ERuntime.
  Proof.
    intros cfg dt st new pre X p post diag diag1 E H Hk. unfold insert_differences. rewrite E, foldM_app, H. cbn [bind foldM].
    assert (Hk1 : In (tendency_name (ts_name cfg) X) (keys diag1)).
    { clear - H Hk. revert diag H Hk. induction pre as [|[Y q] pre IH]; intros diag H Hk; cbn [foldM] in H; [injection H as <-; auto|].
      apply bind_ok in H as (d & H1 & H). eapply IH; eauto. unfold insert_one in H1. cbn [fst] in H1. cbv zeta in H1.
      destruct (dmem _ diag); [discriminate|]. repeat (apply bind_ok in H1 as (? & ? & H1)). injection H1 as <-. apply In_keys_dset. auto. }
    unfold insert_one at 1. cbn [fst]. cbv zeta. rewrite (proj2 (dmem_In _ _) Hk1). reflexivity.
  Qed.

  (** ** For each stepper *)

  Lemma ab_diagnostics : forall {U} cfg (prog : icaller U) dt n u log s, 1 <= n ->
    history (adams_bashforth cfg prog) prog dt (mkab n None [], u) log s -> wf_log log -> NoDup (keys (ts_out cfg)) ->
    forall pre e post, log = pre ++ e :: post -> exists u1 u2 pdiag,
      prog u1 (e_st e) dt = (u2, Ok (e_tend e, pdiag)) /\
      if ts_tid cfg then with_differences cfg dt (e_st e) (e_new e) pdiag (e_diag e) else e_diag e = pdiag.
  Proof.
    intros U cfg prog dt n u log s Hn H Hw Hnd pre e post E.
    assert (He : In e log) by (rewrite E; apply in_or_app; right; left; auto).
    pose proof (history_split _ _ _ _ _ _ H pre e post E) as (a1 & u1 & a2 & u2 & pdiag & _ & P1 & P2).
    exists u1, u2, pdiag. split; auto. apply adams_bashforth_ok in P2 as (diag0 & P2 & P3).
    apply ab_call_ok in P2 as (tend0 & tend & new0 & _ & Q1 & _). rewrite P1 in Q1. injection Q1 as <- <-.
    destruct (ts_tid cfg); auto. eapply insert_ok; eauto.
    - apply (Hw e He).
    - intros X a Ha. destruct (ab_described cfg prog dt n u log s Hn H Hw pre e post E X) as [D|(x & ts & r & D1 & D2 & (W & _) & _)].
      + rewrite D in Ha. destruct (Hw e He) as ((_ & W) & _). eauto.
      + congruence.
  Qed.

  Lemma rk_diagnostics : forall {U} cfg (prog : icaller U) z k0 u0 calls k u (st : state T) dt s' diag new,
    new_rk z = Ok k0 -> after (ssp_rk cfg prog) calls (k0, u0) = (k, u) ->
    proper_components prog -> proper_state st -> NoDup (keys (ts_out cfg)) ->
    ssp_rk cfg prog (k, u) st dt = (s', Ok (diag, new)) ->
    exists u1 tend pdiag, prog u st dt = (u1, Ok (tend, pdiag)) /\
      if ts_tid cfg then with_differences cfg dt st new pdiag diag else diag = pdiag.
  Proof.
    intros U cfg prog z k0 u0 calls k u st dt s' diag new Hz Haf Hpc Hps Hnd H.
    destruct (rk_reachable cfg prog z k0 u0 calls k u Hz Haf) as (R1 & R2 & R3). destruct k as [stages eu]. cbn [rk_euler rk_stages] in *.
    destruct R3 as [-> | ->].
    - assert (stages = 2) by lia. subst.
      apply rk2_ok in H as (u1 & u2 & t1 & t2 & d1 & d2 & st1 & st2 & H1 & _ & _ & _ & _ & (_ & W) & _ & H7 & _); auto.
      exists u1, t1, d1. split; auto. destruct (ts_tid cfg); auto. eapply insert_ok; eauto. apply Hps.
    - assert (stages = 3) by lia. subst.
      apply rk3_ok in H as (u1 & u2 & u3 & t1 & t2 & t3 & d1 & d2 & d3 & st1 & st15 & st2 & st25 & H1 & _ & _ & _ & _ & _ & _ & _ & (_ & W) & _ & H11 & _); auto.
      exists u1, t1, d1. split; auto. destruct (ts_tid cfg); auto. eapply insert_ok; eauto. apply Hps.
  Qed.

  (** Leapfrog compares with the state it has filtered. *)
  Lemma leap_diagnostics : forall {U} cfg (prog : icaller U) dt nu alpha u log s,
    lhistory cfg prog dt (new_leap nu alpha, u) log s -> wf_llog log -> NoDup (keys (ts_out cfg)) ->
    forall pre e post, log = pre ++ e :: post -> exists u1 u2 pdiag,
      prog u1 (l_st e) dt = (u2, Ok (l_tend e, pdiag)) /\
      if ts_tid cfg then with_differences cfg dt (l_after e) (l_new e) pdiag (l_diag e) else l_diag e = pdiag.
  Proof.
    intros U cfg prog dt nu alpha u log s H Hw Hnd pre e post E.
    assert (He : In e log) by (rewrite E; apply in_or_app; right; left; auto).
    pose proof (lhistory_split _ _ _ _ _ _ H pre e post E) as (a1 & u1 & a2 & u2 & pdiag & _ & P1 & P2).
    exists u1, u2, pdiag. split; auto. apply leapfrog_ok in P2 as (diag0 & P2 & P3).
    apply leap_call_ok in P2 as (tend0 & tend & new0 & _ & Q1 & _). rewrite P1 in Q1. injection Q1 as <- <-.
    destruct (ts_tid cfg); auto.
    assert (Wn : forall X a, dget X (l_new e) = Some (VDA a) -> wf_da a).
    { destruct (leap_formula_lemma cfg prog dt nu alpha u log s H Hw) as (F1 & F2). intros X a Ha.
      destruct pre as [|p pre _] using rev_ind.
      - destruct (F1 e post E) as (_ & (O & N)). destruct (dget X (l_tend e)) as [t|] eqn:Et.
        + destruct (N X t Et) as (x & r & _ & Hr & (W & _) & _). congruence.
        + rewrite O in Ha; [destruct (Hw e He) as ((_ & W) & _); eauto|]. intros Hk. apply In_keys_dget in Hk as (v & Hv). congruence.
      - rewrite <- app_assoc in E. destruct (F2 pre p e post E) as (_ & O & N). destruct (dget X (l_tend e)) as [t|] eqn:Et.
        + destruct (N X t Et) as (o & x & x' & n & _ & _ & _ & Hr & _ & (W & _) & _). congruence.
        + rewrite O in Ha; [destruct (Hw e He) as ((_ & W) & _); eauto|]. intros Hk. apply In_keys_dget in Hk as (v & Hv). congruence. }
    eapply insert_ok; eauto. apply (leap_after_proper cfg prog dt nu alpha u log s H Hw e He).
  Qed.
End Any.

Lemma Qred_eq_iff_2 : forall a b, Qred a = Qred b -> (a == b)%Q.
Proof. intros a b H. rewrite <- (Qred_correct a), <- (Qred_correct b), H. reflexivity. Qed.

Lemma Qcmult_inj_r : forall a b h : Qc, h <> 0%Qc -> (a * h = b * h)%Qc -> a = b.
Proof. intros a b h Hh H. replace a with (a * h / h)%Qc by (field; auto). rewrite H. field. auto. Qed.

(** In physical amounts: new minus old over the seconds. *)
Lemma difference_amount : forall {R : Registry}, sane_registry R -> per_second_law R ->
  forall dt base (old new d : da Qc) c u vo vn, difference dt base old new d -> in_grid d c -> dt <> 0%Z ->
  amount d c = Some u -> amount old c = Some vo -> amount new c = Some vn ->
  (u * Q2Qc (dt # 1000000) = vn - vo)%Qc.
Proof.
  intros R Hs Hl dt base old new d c u vo vn (_ & Ud & _ & V) Hc Hdt Ad Ao An.
  destruct (V c Hc) as (uo & un & yo & yn & U1 & U2 & C1 & C2 & Vd).
  destruct (amount_units _ _ _ Ad) as (sd & pd & Ud' & Pd & ->). rewrite Ud in Ud'. injection Ud' as <-.
  destruct (amount_units _ _ _ Ao) as (so & po & Uo' & Po & ->). assert (so = uo) by congruence. subst so.
  destruct (amount_units _ _ _ An) as (sn & pn & Un' & Pn & ->). assert (sn = un) by congruence. subst sn.
  pose proof C1 as (_ & pb & _ & Pb & _).
  rewrite <- (converted_base Hs _ _ _ _ _ _ C1 Po Pb), <- (converted_base Hs _ _ _ _ _ _ C2 Pn Pb).
  assert (Hlaw : u_fac pd = u_fac pb /\ u_off pd = 0%Qc).
  { eapply Hl; [|exact Pb|exact Pd]. destruct (String.eqb base "") eqn:E; [apply String.eqb_eq in E; auto|auto]. }
  destruct Hlaw as (L1 & L2). unfold base_value. rewrite L1, L2, Vd. cbn [aadd asub amul adiv aofQ ArithQc].
  assert (Hh : Q2Qc (dt # 1000000) <> 0%Qc).
  { intros E. apply Hdt. apply (f_equal this) in E. change (Qred (dt # 1000000) = Qred 0) in E. apply Qred_eq_iff_2 in E. unfold Qeq in E. simpl in E. lia. }
  replace (Q2Qc (1000000 # 1000000)) with 1%Qc by (apply Qc_is_canon; reflexivity). field. auto.
Qed.

(** One forward Euler step: the difference is the tendency. *)
Lemma euler_difference : forall {R : Registry}, sane_registry R -> per_second_law R ->
  forall dt base (st new : state Qc) tend X t old x d c u v b, euler_step dt st tend new -> dt <> 0%Z ->
  dget X tend = Some t -> dget X st = Some (VDA old) -> dget X new = Some (VDA x) -> difference dt base old x d ->
  in_grid d c -> in_grid x c -> amount old c = Some b -> amount t c = Some v -> amount d c = Some u -> u = v.
Proof.
  intros R Hs Hl dt base st new tend X t old x d c u v b (_ & He) Hdt Ht Ho Hx Hd Gd Gx Ab At Au.
  destruct (He X t Ht) as (o' & r & Ho' & Hr & Ex & V). assert (o' = old) by congruence. assert (r = x) by congruence. subst o' r.
  destruct (V c Gx) as (_ & y & Hy & W). destruct (amount_units _ _ _ Ab) as (s & p & Us & P & ->).
  pose proof (rate_amount Hs Hl st X old s p t c y v Hy At Ho Us P) as Q.
  assert (Ux : units_of x = Some s) by (unfold units_of; destruct Ex as (_ & -> & _); exact Us).
  pose proof (difference_amount Hs Hl dt base old x d c u _ _ Hd Gd Hdt Au Ab (amount_of x c s p Ux P)) as D.
  assert (Hh : Q2Qc (dt # 1000000) <> 0%Qc).
  { intros E. apply Hdt. apply (f_equal this) in E. change (Qred (dt # 1000000) = Qred 0) in E. apply Qred_eq_iff_2 in E. unfold Qeq in E. simpl in E. lia. }
  apply (Qcmult_inj_r _ _ _ Hh). rewrite D, <- Q, W. unfold base_value. cbn [aadd amul aofQ ArithQc]. ring.
Qed.
