(** C74 in the form used by the property theorems. *)
From Coq Require Import String List Bool Arith ZArith Lia.
From Verif Require Import Prelude PreludeFacts ArithM NdArray NdFacts Units DataArrayM
  Wildcard WildcardFacts GetNp GetNpFacts SpecArrays ExtractFacts Restore RestoreFacts RoundTripFacts ArraysMain
  Tracers SpecComponents Components ComponentFacts CallFacts TidFacts SpecCalls ComponentsMain SpecColumns ColumnsFacts.
Import ListNotations.
Open Scope string_scope.
Open Scope nat_scope.
Open Scope list_scope.

Section Columns.
  Context {T : Type} {A : Arith T} {R : Registry}.

  Lemma to_units_at : forall (a1 a2 q1 q2 : da T) u c1 c2, wf_da a1 -> wf_da a2 ->
    dget "units" (attrs a1) = dget "units" (attrs a2) ->
    to_units a1 u = Ok q1 -> to_units a2 u = Ok q2 -> inside a1 c1 -> inside a2 c2 ->
    da_at a1 c1 = da_at a2 c2 -> da_at q1 c1 = da_at q2 c2.
  Proof.
    intros a1 a2 q1 q2 u c1 c2 Hw1 Hw2 Hu H1 H2 Hi1 Hi2 E. unfold to_units in *. rewrite <- Hu in H2.
    destruct (dget "units" (attrs a1)) as [own|]; [|discriminate].
    destruct (parseE own) as [x|]; [|discriminate]. destruct (parseE u) as [y|]; [|discriminate]. cbn [bind] in *.
    destruct (negb (one_eqb x y)).
    - destruct (udim_eqb x y); [|discriminate]. injection H1 as <-. injection H2 as <-.
      assert (Hr : forall (a : da T) c, wf_da a -> inside a c -> in_range (map c (dims a)) (shape (arr a))).
      { intros a c (Hl & _) Hin. unfold in_range, inside, has_dim in *. revert Hl Hin. generalize (shape (arr a)).
        induction (dims a) as [|d l IH]; intros s Hl Hin; destruct s as [|n s]; try discriminate; cbn [map]; constructor.
        - apply Hin. left; auto.
        - apply IH; [simpl in Hl; lia|]. intros d' n' Hd. apply Hin. right; auto. }
      unfold da_at, da_map in *. cbn [dims arr].
      rewrite !at_nd_map; [f_equal; auto|apply Hw2|apply Hr; auto|apply Hw1|apply Hr; auto].
    - congruence.
  Qed.

  Lemma inside_units : forall (a q : da T) u c, to_units a u = Ok q -> inside q c -> inside a c.
  Proof.
    intros a q u c H Hi d n Hh. apply Hi. unfold has_dim in *. destruct (to_units_dims a q u H) as (-> & ->). auto.
  Qed.

  Lemma da_at_agree : forall (a : da T) c1 c2, (forall d, In d (dims a) -> c1 d = c2 d) -> da_at a c1 = da_at a c2.
  Proof. intros a c1 c2 H. unfold da_at. f_equal. apply map_agree. auto. Qed.

  Lemma inside_agree : forall (a : da T) c1 c2, (forall d, In d (dims a) -> c1 d = c2 d) -> inside a c1 -> inside a c2.
  Proof. intros a c1 c2 H Hi d n Hh. rewrite <- H by (eapply has_dim_In; eauto). auto. Qed.

  Lemma listed_other : forall inp (st1 st2 : state T) (Q : da T -> da T -> Prop),
    (forall name p, In (name, p) inp -> exists a1 a2, dget name st1 = Some (VDA a1) /\
       dget name st2 = Some (VDA a2) /\ Q a1 a2) ->
    forall nm p ds a1, listed st1 inp nm p ds a1 -> exists a2, listed st2 inp nm p ds a2 /\ Q a1 a2.
  Proof.
    intros inp st1 st2 Q H nm p ds a1 (H1 & H2 & H3). destruct (H nm p H1) as (b1 & b2 & E1 & E2 & HQ).
    rewrite H3 in E1. injection E1 as <-. exists b2. repeat split; auto.
  Qed.

  Lemma dims_covered : forall (st : state T) inp nm p ds a d, wf_state st -> listed st inp nm p ds a ->
    In d (dims a) -> In d (wildcard_dims st inp) \/ In d ds /\ d <> "*".
  Proof.
    intros st inp nm p ds a d Hwf Hl Hd. destruct (In_dec_str d ds) as [Hi|Hi].
    - right. split; auto. intros ->. destruct Hl as (_ & _ & H3). apply (proj2 (Hwf _ _ H3)). auto.
    - left. eapply undeclared_In; eauto.
  Qed.

  Lemma unlisted_one : forall (st : state T) inp L d, common_lengths st inp L ->
    (forall name p ds a, listed st inp name p ds a -> ~ In d (dims a)) -> L d = 1.
  Proof. intros st inp L d HL H. apply (proj2 HL). auto. Qed.

  Lemma same_fields_sym_dims : forall inp (st1 st2 : state T), same_fields inp st1 st2 ->
    (forall nm p ds a, listed st1 inp nm p ds a -> exists b, listed st2 inp nm p ds b /\ forall d n, has_dim a d n <-> has_dim b d n) /\
    (forall nm p ds a, listed st2 inp nm p ds a -> exists b, listed st1 inp nm p ds b /\ forall d n, has_dim a d n <-> has_dim b d n).
  Proof.
    intros inp st1 st2 (_ & H). split.
    - apply (listed_other inp st1 st2 (fun a b => forall d n, has_dim a d n <-> has_dim b d n)).
      intros name p Hi. destruct (H name p Hi) as (a1 & a2 & ? & ? & ? & ? & ?). exists a1, a2. auto.
    - apply (listed_other inp st2 st1 (fun a b => forall d n, has_dim a d n <-> has_dim b d n)).
      intros name p Hi. destruct (H name p Hi) as (a1 & a2 & ? & ? & ? & Hd & ?). exists a2, a1. repeat split; auto; apply Hd.
  Qed.

  Lemma same_dims_wild : forall inp (st1 st2 : state T), wf_state st1 -> wf_state st2 ->
    (forall nm p ds a, listed st1 inp nm p ds a -> exists b, listed st2 inp nm p ds b /\ forall d n, has_dim a d n <-> has_dim b d n) ->
    forall w, In w (wildcard_dims st1 inp) -> In w (wildcard_dims st2 inp).
  Proof.
    intros inp st1 st2 Hwf1 Hwf2 H w Hw. destruct (wildcard_dims_listed st1 inp w Hw) as (nm & p & ds & a & Hl & Hd & Hn).
    destruct (H _ _ _ _ Hl) as (b & Hb & Hdb). destruct (In_has_dim a w) as (n & Hh); [eapply Hwf1; apply Hl|auto|].
    eapply undeclared_In; eauto. apply Hdb in Hh. eapply has_dim_In; eauto.
  Qed.

  Lemma same_fields_columns : forall inp (st1 st2 : state T), wf_state st1 -> wf_state st2 ->
    same_fields inp st1 st2 ->
    same_lengths inp st1 st2 /\
    (forall w, In w (wildcard_dims st1 inp) <-> In w (wildcard_dims st2 inp)) /\
    forall p, column_of st1 inp p -> column_of st2 inp p /\ same_inputs inp st1 p st2 p.
  Proof.
    intros inp st1 st2 Hwf1 Hwf2 Hs. destruct (same_fields_sym_dims inp st1 st2 Hs) as (F12 & F21).
    assert (HW : forall w, In w (wildcard_dims st1 inp) <-> In w (wildcard_dims st2 inp)).
    { intros w. split; apply same_dims_wild; auto. }
    split; [|split; auto].
    - intros L1 L2 HL1 HL2 d _ _.
      destruct (listed_dim_dec st1 inp d) as [(nm & p & ds & a & Hl & Hd)|Hno].
      + destruct (In_has_dim a d) as (n & Hh); [eapply Hwf1; apply Hl|auto|].
        destruct (F12 _ _ _ _ Hl) as (b & Hb & Hdb).
        rewrite (proj1 HL1 _ _ _ _ _ _ Hl Hh). apply Hdb in Hh. rewrite (proj1 HL2 _ _ _ _ _ _ Hb Hh). auto.
      + rewrite (unlisted_one st1 inp L1 d), (unlisted_one st2 inp L2 d); auto.
        intros nm p ds a Hl Hd. destruct (F21 _ _ _ _ Hl) as (b & Hb & Hdb).
        destruct (In_has_dim a d) as (n & Hh); [eapply Hwf2; apply Hl|auto|].
        apply Hdb in Hh. apply (Hno _ _ _ _ Hb). eapply has_dim_In; eauto.
    - intros p Hp. split.
      + intros nm pr ds a d n Hl Hh Hw. destruct (F21 _ _ _ _ Hl) as (b & Hb & Hdb).
        apply Hdb in Hh. eapply Hp; eauto. apply HW; auto.
      + split; [apply Hs|]. intros name pr ds u a1 a2 q1 q2 Hi Hd Hu A1 A2 Q1 Q2 c1 c2 C1 C2 I1 I2 Hag.
        destruct (proj2 Hs name pr Hi) as (b1 & b2 & B1 & B2 & Hun & Hdd & Hv).
        rewrite A1 in B1. injection B1 as <-. rewrite A2 in B2. injection B2 as <-.
        apply inside_units with (a := a1) (u := u) in I1; auto. apply inside_units with (a := a2) (u := u) in I2; auto.
        apply (to_units_at a1 a2 q1 q2 u c1 c2); auto; [eapply Hwf1; eauto|eapply Hwf2; eauto|].
        rewrite (Hv c1) by auto. apply da_at_agree. intros d Hd2.
        assert (Hd1 : In d (dims a1)).
        { destruct (In_has_dim a2 d) as (n & Hh); [eapply Hwf2; eauto|auto|]. apply Hdd in Hh. eapply has_dim_In; eauto. }
        destruct (dims_covered st1 inp name pr ds a1 d) as [Hw|(Hin & Hne)]; auto; [repeat split; auto|].
        rewrite C1, C2; auto. apply HW; auto.
  Qed.

  Lemma single_column_alone : forall inp (st1 st2 : state T) p, wf_state st1 -> wf_state st2 ->
    (forall d, In d (wildcard_dims st1 inp) -> ~ input_dim inp d) ->
    single_column inp st1 p st2 ->
    wildcard_dims st2 inp = [] /\ same_lengths inp st1 st2 /\ same_inputs inp st1 p st2 p.
  Proof.
    intros inp st1 st2 p Hwf1 Hwf2 Hun Hs.
    assert (F12 : forall nm pr ds a, listed st1 inp nm pr ds a -> exists b, listed st2 inp nm pr ds b /\
      forall d n, has_dim b d n <-> has_dim a d n /\ ~ In d (wildcard_dims st1 inp)).
    { apply (listed_other inp st1 st2 (fun a b => forall d n, has_dim b d n <-> has_dim a d n /\ ~ In d (wildcard_dims st1 inp))).
      intros name pr Hi. destruct (proj2 Hs name pr Hi) as (a1 & a2 & ? & ? & ? & ? & ?). exists a1, a2. auto. }
    assert (F21 : forall nm pr ds b, listed st2 inp nm pr ds b -> exists a, listed st1 inp nm pr ds a /\
      forall d n, has_dim b d n <-> has_dim a d n /\ ~ In d (wildcard_dims st1 inp)).
    { apply (listed_other inp st2 st1 (fun b a => forall d n, has_dim b d n <-> has_dim a d n /\ ~ In d (wildcard_dims st1 inp))).
      intros name pr Hi. destruct (proj2 Hs name pr Hi) as (a1 & a2 & ? & ? & ? & ? & ?). exists a2, a1. auto. }
    split; [|split].
    - destruct (wildcard_dims st2 inp) as [|w W] eqn:E; auto. exfalso.
      destruct (wildcard_dims_listed st2 inp w) as (nm & pr & ds & b & Hl & Hd & Hn); [rewrite E; left; auto|].
      destruct (F21 _ _ _ _ Hl) as (a & Ha & Hab).
      destruct (In_has_dim b w) as (n & Hh); [eapply Hwf2; apply Hl|auto|].
      apply Hab in Hh as (Hh & Hnw). apply Hnw. eapply undeclared_In; eauto. eapply has_dim_In; eauto.
    - intros L1 L2 HL1 HL2 d Hd _.
      assert (Hnw : ~ In d (wildcard_dims st1 inp)) by (intros Hw; apply (Hun d Hw Hd)).
      destruct (listed_dim_dec st1 inp d) as [(nm & pr & ds & a & Hl & Hda)|Hno].
      + destruct (In_has_dim a d) as (n & Hh); [eapply Hwf1; apply Hl|auto|].
        destruct (F12 _ _ _ _ Hl) as (b & Hb & Hdb).
        rewrite (proj1 HL1 _ _ _ _ _ _ Hl Hh). symmetry. apply (proj1 HL2 _ _ _ _ _ _ Hb). apply Hdb; auto.
      + rewrite (unlisted_one st1 inp L1 d), (unlisted_one st2 inp L2 d); auto.
        intros nm pr ds b Hl Hdb. destruct (F21 _ _ _ _ Hl) as (a & Ha & Hab).
        destruct (In_has_dim b d) as (n & Hh); [eapply Hwf2; apply Hl|auto|].
        apply Hab in Hh as (Hh & _). apply (Hno _ _ _ _ Ha). eapply has_dim_In; eauto.
    - split; [apply Hs|]. intros name pr ds u a1 a2 q1 q2 Hi Hd Hu A1 A2 Q1 Q2 c1 c2 C1 C2 I1 I2 Hag.
      destruct (proj2 Hs name pr Hi) as (b1 & b2 & B1 & B2 & Hunits & Hdd & Hv).
      rewrite A1 in B1. injection B1 as <-. rewrite A2 in B2. injection B2 as <-.
      apply inside_units with (a := a1) (u := u) in I1; auto. apply inside_units with (a := a2) (u := u) in I2; auto.
      apply (to_units_at a1 a2 q1 q2 u c1 c2); auto; [eapply Hwf1; eauto|eapply Hwf2; eauto|].
      rewrite (Hv c1) by auto. apply da_at_agree. intros d Hd2.
      destruct (In_has_dim a2 d) as (n & Hh); [eapply Hwf2; eauto|auto|]. apply Hdd in Hh as (Hh & Hnw).
      destruct (dims_covered st1 inp name pr ds a1 d) as [Hw|(Hin & Hne)]; auto; [repeat split; auto|eapply has_dim_In; eauto|contradiction].
  Qed.

  (** ** From calls to [one_call] *)

  Lemma validated_any : forall g g' inp (st : state T) raw, validated g inp None st raw -> validated g' inp None st raw.
  Proof.
    intros g g' inp st raw (H1 & H2 & H3 & _ & H5). repeat split; auto; try apply H5. intros p E. discriminate.
  Qed.

  Lemma tendency_one_call : forall {U} g c (ac : U -> dict (rval T) -> U * res (dict (nd T) * dict (nd T))) u u'
      (st : state T) tout dout,
    wf_state st -> t_packer c = None -> proper_inputs (t_inp c) ->
    tendency_call g c ac u st = (u', Ok (tout, dout)) ->
    one_call (t_inp c) (t_tend c) (fun raw out => exists v d, ac u raw = (v, Ok (out, d))) st tout /\
    exists dg, one_call (t_inp c) (t_diag c) (fun raw out => exists v t, ac u raw = (v, Ok (t, out))) st dg /\
      dout = if t_tid c then insert_tendencies (t_name c) tout dg else dg.
  Proof.
    intros U g c ac u u' st tout dout Hwf Hpk Hpi H. unfold tendency_call in H.
    destruct (let* _ := raise_if _ _ in _) as [raw|e] eqn:Er; [|congruence].
    apply bind_ok in Er as ([] & _ & Er). apply raw_state_ok in Er; auto. rewrite Hpk in Er.
    destruct (ac u raw) as [u1 r] eqn:Hac. injection H as <- H.
    apply bind_ok in H as ([rt rd] & -> & H). unfold tendency_finish in H. rewrite Hpk in H.
    cbn [unpack_tracers bind fst snd] in H.
    apply bind_ok in H as ([] & _ & H). apply bind_ok in H as ([] & _ & H).
    apply bind_ok in H as (tr & Htr & H). apply bind_ok in H as (dg & Hdg & H).
    pose proof (restore_NoDup _ _ _ _ _ _ _ Htr) as Hn.
    rewrite dupdate_nil in H by auto. injection H as <- <-.
    split.
    - exists raw, rt, []. repeat split; eauto; try apply (validated_any g empty_treg _ _ _ Er).
    - exists dg. split; auto. exists raw, rd, (t_added c). repeat split; eauto; try apply (validated_any g empty_treg _ _ _ Er).
  Qed.

  Lemma diagnostic_one_call : forall {U} c (ac : U -> dict (rval T) -> U * res (dict (nd T))) u u' (st : state T) dout,
    wf_state st -> proper_inputs (d_inp c) -> diagnostic_call c ac u st = (u', Ok dout) ->
    one_call (d_inp c) (d_diag c) (fun raw out => exists v, ac u raw = (v, Ok out)) st dout.
  Proof.
    intros U c ac u u' st dout Hwf Hpi H. unfold diagnostic_call in H.
    destruct (let* _ := raise_if _ _ in _) as [raw|e] eqn:Er; [|congruence].
    apply bind_ok in Er as ([] & _ & Er). apply raw_state_ok in Er; auto.
    destruct (ac u raw) as [u1 r] eqn:Hac. injection H as <- H.
    apply bind_ok in H as (rd & -> & H). unfold diagnostic_finish in H. apply bind_ok in H as ([] & _ & H).
    exists raw, rd, []. split; auto. split; eauto.
  Qed.

  Lemma stepper_one_call : forall {U} g c (ac : U -> dict (rval T) -> Z -> U * res (dict (nd T) * dict (nd T))) u u'
      (st : state T) dt dout nout,
    wf_state st -> s_packer c = None -> proper_inputs (s_inp c) ->
    stepper_call g c ac u st dt = (u', Ok (dout, nout)) ->
    one_call (s_inp c) (s_out c) (fun raw out => exists v d, ac u raw dt = (v, Ok (d, out))) st nout /\
    (s_tid c = false ->
     one_call (s_inp c) (s_diag c) (fun raw out => exists v n, ac u raw dt = (v, Ok (out, n))) st dout).
  Proof.
    intros U g c ac u u' st dt dout nout Hwf Hpk Hpi H. unfold stepper_call in H.
    destruct (let* _ := raise_if _ _ in _) as [raw|e] eqn:Er; [|congruence].
    apply bind_ok in Er as ([] & _ & Er). apply raw_state_ok in Er; auto. rewrite Hpk in Er.
    destruct (ac u raw dt) as [u1 r] eqn:Hac. injection H as <- H.
    apply bind_ok in H as ([rd rn] & -> & H). unfold stepper_finish in H. rewrite Hpk in H.
    cbn [unpack_tracers bind fst snd] in H.
    apply bind_ok in H as ([] & _ & H). apply bind_ok in H as ([] & _ & H).
    apply bind_ok in H as (rd' & Hrd & H).
    apply bind_ok in H as (dg & Hdg & H). apply bind_ok in H as (nw & Hnw & H).
    pose proof (restore_NoDup _ _ _ _ _ _ _ Hnw) as Hn.
    rewrite dupdate_nil in H by auto. injection H as <- <-.
    split.
    - exists raw, rn, []. repeat split; eauto; try apply (validated_any g empty_treg _ _ _ Er).
    - intros Ht. rewrite Ht in Hrd. injection Hrd as <-.
      exists raw, rd, []. repeat split; eauto; try apply (validated_any g empty_treg _ _ _ Er).
  Qed.

  (** ** The consequences, for any call *)

  Lemma determined_core : forall (inp outp : pdict) f (st1 st2 : state T) out1 out2,
    column_setup inp outp st1 -> column_setup inp outp st2 -> proper_inputs inp -> NoDup (keys outp) -> stars_ok outp inp ->
    columnwise inp outp f -> one_call inp outp f st1 out1 -> one_call inp outp f st2 out2 ->
    same_lengths inp st1 st2 -> determined inp outp st1 out1 st2 out2.
  Proof.
    intros inp outp f st1 st2 out1 out2 (W1 & U1) (W2 & U2) Hpi Hnd Hst Hc O1 O2 Hl p1 p2 P1 P2 Hs.
    eapply columns_core; eauto.
  Qed.

  Lemma one_call_declared : forall (inp outp : pdict) f (st : state T) out name q,
    wf_state st -> NoDup (keys outp) -> stars_ok outp inp -> one_call inp outp f st out -> dget name out = Some q ->
    exists ds, declared_dims outp inp name ds /\ dims q = expand_dims (wildcard_dims st inp) ds.
  Proof.
    intros inp outp f st out name q Hwf Hnd Hst (raw & ra & ign & _ & _ & Hr) Hq.
    destruct (main_restore st ra outp inp ign false out Hwf Hnd Hst Hr) as (Hk & Hv).
    assert (Hin : In name (keys out)) by (eapply dget_In_keys; eauto).
    apply Hk in Hin as [Hin Hni]. apply In_keys_dget in Hin as (p & Hp).
    destruct (Hv name p Hp Hni) as (ds & un & r & q' & H1 & _ & H2 & H3 & _ & H4 & _).
    rewrite Hq in H3. injection H3 as <-. exists ds. auto.
  Qed.

  Lemma layout_core : forall (inp outp : pdict) f (st1 st2 : state T) out1 out2,
    column_setup inp outp st1 -> wf_state st2 -> proper_inputs inp -> NoDup (keys outp) -> stars_ok outp inp ->
    columnwise inp outp f -> one_call inp outp f st1 out1 -> one_call inp outp f st2 out2 ->
    same_fields inp st1 st2 -> same_output_fields inp st1 out1 out2.
  Proof.
    intros inp outp f st1 st2 out1 out2 (W1 & U1) W2 Hpi Hnd Hst Hc O1 O2 Hs.
    destruct (same_fields_columns inp st1 st2 W1 W2 Hs) as (Hl & HW & Hp).
    assert (U2 : unambiguous st2 inp outp) by (intros d Hd; apply U1, HW; auto).
    intros name q1 q2 Q1 Q2 c Hcol Hin. destruct (Hp c Hcol) as (Hcol2 & Hsame).
    destruct (one_call_declared inp outp f st1 out1 name q1 W1 Hnd Hst O1 Q1) as (ds & Hds & _).
    apply (columns_core inp outp f st1 st2 out1 out2 c c W1 W2 Hpi Hnd Hst U1 U2 Hc O1 O2 Hl Hcol Hcol2 Hsame name ds q1 q2 Hds Q1 Q2 c c);
      auto; intros d Hd; auto.
  Qed.

  Lemma column_core : forall (inp outp : pdict) f (st1 st2 : state T) out1 out2 p,
    column_setup inp outp st1 -> wf_state st2 -> proper_inputs inp -> NoDup (keys outp) -> stars_ok outp inp ->
    columnwise inp outp f -> one_call inp outp f st1 out1 -> one_call inp outp f st2 out2 ->
    column_of st1 inp p -> single_column inp st1 p st2 -> output_column inp st1 p out1 out2.
  Proof.
    intros inp outp f st1 st2 out1 out2 p (W1 & U1) W2 Hpi Hnd Hst Hc O1 O2 Hp Hs.
    destruct (single_column_alone inp st1 st2 p W1 W2) as (HW & Hl & Hsame); auto.
    { intros d Hd. apply U1; auto. }
    assert (U2 : unambiguous st2 inp outp) by (intros d Hd; rewrite HW in Hd; contradiction).
    assert (Hp2 : column_of st2 inp p).
    { intros nm pr ds a d n _ _ Hd. rewrite HW in Hd. contradiction. }
    intros name q1 q2 Q1 Q2.
    destruct (one_call_declared inp outp f st1 out1 name q1 W1 Hnd Hst O1 Q1) as (ds & Hds & _).
    destruct (one_call_declared inp outp f st2 out2 name q2 W2 Hnd Hst O2 Q2) as (ds2 & Hds2 & E2).
    rewrite (declared_dims_fun _ _ _ _ _ Hds2 Hds) in E2. rewrite HW in E2. split.
    - intros d Hd Hw. rewrite E2 in Hd. unfold expand_dims in Hd. apply in_flat_map in Hd as (x & Hx & Hd).
      destruct (String.eqb x "*"); [contradiction|]. destruct Hd as [->|[]].
      apply (proj2 (U1 d Hw)). exists name, ds; auto.
    - intros c Hcc Hin.
      apply (columns_core inp outp f st1 st2 out1 out2 p p W1 W2 Hpi Hnd Hst U1 U2 Hc O1 O2 Hl Hp Hp2 Hsame name ds q1 q2 Hds Q1 Q2 c c);
        auto. intros d Hd. rewrite HW in Hd. contradiction.
  Qed.

  Lemma main_columns :
    (forall {U} g c (ac : U -> dict (rval T) -> U * res (dict (nd T) * dict (nd T))) u v1 v2
       (st1 st2 : state T) t1 d1 t2 d2,
      proper_inputs (t_inp c) -> t_packer c = None ->
      NoDup (keys (t_tend c)) -> stars_ok (t_tend c) (t_inp c) ->
      NoDup (keys (t_diag c)) -> stars_ok (t_diag c) (t_inp c) ->
      tendency_call g c ac u st1 = (v1, Ok (t1, d1)) -> tendency_call g c ac u st2 = (v2, Ok (t2, d2)) ->
      same_lengths (t_inp c) st1 st2 ->
      (column_setup (t_inp c) (t_tend c) st1 -> column_setup (t_inp c) (t_tend c) st2 ->
       columnwise (t_inp c) (t_tend c)
         (fun raw out => exists v d, ac u raw = (v, Ok (out, d))) ->
       determined (t_inp c) (t_tend c) st1 t1 st2 t2) /\
      (t_tid c = false -> column_setup (t_inp c) (t_diag c) st1 -> column_setup (t_inp c) (t_diag c) st2 ->
       columnwise (t_inp c) (t_diag c)
         (fun raw out => exists v t, ac u raw = (v, Ok (t, out))) ->
       determined (t_inp c) (t_diag c) st1 d1 st2 d2)) /\
    (forall {U} c (ac : U -> dict (rval T) -> U * res (dict (nd T))) u v1 v2 (st1 st2 : state T) d1 d2,
      proper_inputs (d_inp c) -> NoDup (keys (d_diag c)) -> stars_ok (d_diag c) (d_inp c) ->
      diagnostic_call c ac u st1 = (v1, Ok d1) -> diagnostic_call c ac u st2 = (v2, Ok d2) ->
      same_lengths (d_inp c) st1 st2 ->
      (column_setup (d_inp c) (d_diag c) st1 -> column_setup (d_inp c) (d_diag c) st2 ->
       columnwise (d_inp c) (d_diag c)
         (fun raw out => exists v, ac u raw = (v, Ok out)) ->
       determined (d_inp c) (d_diag c) st1 d1 st2 d2)) /\
    (forall {U} g c (ac : U -> dict (rval T) -> Z -> U * res (dict (nd T) * dict (nd T))) u v1 v2
       (st1 st2 : state T) dt n1 d1 n2 d2,
      proper_inputs (s_inp c) -> s_packer c = None ->
      NoDup (keys (s_out c)) -> stars_ok (s_out c) (s_inp c) ->
      NoDup (keys (s_diag c)) -> stars_ok (s_diag c) (s_inp c) ->
      stepper_call g c ac u st1 dt = (v1, Ok (d1, n1)) -> stepper_call g c ac u st2 dt = (v2, Ok (d2, n2)) ->
      same_lengths (s_inp c) st1 st2 ->
      (column_setup (s_inp c) (s_out c) st1 -> column_setup (s_inp c) (s_out c) st2 ->
       columnwise (s_inp c) (s_out c)
         (fun raw out => exists v d, ac u raw dt = (v, Ok (d, out))) ->
       determined (s_inp c) (s_out c) st1 n1 st2 n2) /\
      (s_tid c = false -> column_setup (s_inp c) (s_diag c) st1 -> column_setup (s_inp c) (s_diag c) st2 ->
       columnwise (s_inp c) (s_diag c)
         (fun raw out => exists v n, ac u raw dt = (v, Ok (out, n))) ->
       determined (s_inp c) (s_diag c) st1 d1 st2 d2)).
  Proof.
    split; [|split].
    - intros U g c ac u v1 v2 st1 st2 t1 d1 t2 d2 Hpi Hpk Hn1 Hs1 Hn2 Hs2 C1 C2 Hl. split.
      + intros S1 S2 Hc; eapply determined_core; eauto;
          eapply tendency_one_call; eauto; first [apply S1|apply S2|auto].
      + intros Ht S1 S2 Hc; eapply determined_core; eauto.
        * destruct (tendency_one_call g c ac u v1 st1 t1 d1 (proj1 S1) Hpk Hpi C1) as (_ & dg & O & ->). rewrite Ht. exact O.
        * destruct (tendency_one_call g c ac u v2 st2 t2 d2 (proj1 S2) Hpk Hpi C2) as (_ & dg & O & ->). rewrite Ht. exact O.
    - intros U c ac u v1 v2 st1 st2 d1 d2 Hpi Hn1 Hs1 C1 C2 Hl S1 S2 Hc; eapply determined_core; eauto;
        eapply diagnostic_one_call; eauto; first [apply S1|apply S2|auto].
    - intros U g c ac u v1 v2 st1 st2 dt n1 d1 n2 d2 Hpi Hpk Hn1 Hs1 Hn2 Hs2 C1 C2 Hl. split.
      + intros S1 S2 Hc; eapply determined_core; eauto;
          eapply stepper_one_call; eauto; first [apply S1|apply S2|auto].
      + intros Ht S1 S2 Hc; eapply determined_core; eauto;
          eapply stepper_one_call; eauto; first [apply S1|apply S2|auto].
  Qed.

  Lemma main_layout :
    (forall {U} g c (ac : U -> dict (rval T) -> U * res (dict (nd T) * dict (nd T))) u v1 v2
       (st1 st2 : state T) t1 d1 t2 d2,
      proper_inputs (t_inp c) -> t_packer c = None ->
      NoDup (keys (t_tend c)) -> stars_ok (t_tend c) (t_inp c) ->
      NoDup (keys (t_diag c)) -> stars_ok (t_diag c) (t_inp c) ->
      tendency_call g c ac u st1 = (v1, Ok (t1, d1)) -> tendency_call g c ac u st2 = (v2, Ok (t2, d2)) ->
      wf_state st2 -> same_fields (t_inp c) st1 st2 ->
      (column_setup (t_inp c) (t_tend c) st1 ->
       columnwise (t_inp c) (t_tend c)
         (fun raw out => exists v d, ac u raw = (v, Ok (out, d))) ->
       same_output_fields (t_inp c) st1 t1 t2) /\
      (t_tid c = false -> column_setup (t_inp c) (t_diag c) st1 ->
       columnwise (t_inp c) (t_diag c)
         (fun raw out => exists v t, ac u raw = (v, Ok (t, out))) ->
       same_output_fields (t_inp c) st1 d1 d2)) /\
    (forall {U} c (ac : U -> dict (rval T) -> U * res (dict (nd T))) u v1 v2 (st1 st2 : state T) d1 d2,
      proper_inputs (d_inp c) -> NoDup (keys (d_diag c)) -> stars_ok (d_diag c) (d_inp c) ->
      diagnostic_call c ac u st1 = (v1, Ok d1) -> diagnostic_call c ac u st2 = (v2, Ok d2) ->
      wf_state st2 -> same_fields (d_inp c) st1 st2 ->
      (column_setup (d_inp c) (d_diag c) st1 ->
       columnwise (d_inp c) (d_diag c)
         (fun raw out => exists v, ac u raw = (v, Ok out)) ->
       same_output_fields (d_inp c) st1 d1 d2)) /\
    (forall {U} g c (ac : U -> dict (rval T) -> Z -> U * res (dict (nd T) * dict (nd T))) u v1 v2
       (st1 st2 : state T) dt n1 d1 n2 d2,
      proper_inputs (s_inp c) -> s_packer c = None ->
      NoDup (keys (s_out c)) -> stars_ok (s_out c) (s_inp c) ->
      NoDup (keys (s_diag c)) -> stars_ok (s_diag c) (s_inp c) ->
      stepper_call g c ac u st1 dt = (v1, Ok (d1, n1)) -> stepper_call g c ac u st2 dt = (v2, Ok (d2, n2)) ->
      wf_state st2 -> same_fields (s_inp c) st1 st2 ->
      (column_setup (s_inp c) (s_out c) st1 ->
       columnwise (s_inp c) (s_out c)
         (fun raw out => exists v d, ac u raw dt = (v, Ok (d, out))) ->
       same_output_fields (s_inp c) st1 n1 n2) /\
      (s_tid c = false -> column_setup (s_inp c) (s_diag c) st1 ->
       columnwise (s_inp c) (s_diag c)
         (fun raw out => exists v n, ac u raw dt = (v, Ok (out, n))) ->
       same_output_fields (s_inp c) st1 d1 d2)).
  Proof.
    split; [|split].
    - intros U g c ac u v1 v2 st1 st2 t1 d1 t2 d2 Hpi Hpk Hn1 Hs1 Hn2 Hs2 C1 C2 W2 Hf. split.
      + intros S1 Hc; eapply layout_core; eauto;
          eapply tendency_one_call; eauto; first [apply S1|apply S2|auto].
      + intros Ht S1 Hc; eapply layout_core; eauto.
        * destruct (tendency_one_call g c ac u v1 st1 t1 d1 (proj1 S1) Hpk Hpi C1) as (_ & dg & O & ->). rewrite Ht. exact O.
        * destruct (tendency_one_call g c ac u v2 st2 t2 d2 W2 Hpk Hpi C2) as (_ & dg & O & ->). rewrite Ht. exact O.
    - intros U c ac u v1 v2 st1 st2 d1 d2 Hpi Hn1 Hs1 C1 C2 W2 Hf S1 Hc; eapply layout_core; eauto;
        eapply diagnostic_one_call; eauto; first [apply S1|apply S2|auto].
    - intros U g c ac u v1 v2 st1 st2 dt n1 d1 n2 d2 Hpi Hpk Hn1 Hs1 Hn2 Hs2 C1 C2 W2 Hf. split.
      + intros S1 Hc; eapply layout_core; eauto;
          eapply stepper_one_call; eauto; first [apply S1|apply S2|auto].
      + intros Ht S1 Hc; eapply layout_core; eauto;
          eapply stepper_one_call; eauto; first [apply S1|apply S2|auto].
  Qed.

  Lemma main_single_column :
    (forall {U} g c (ac : U -> dict (rval T) -> U * res (dict (nd T) * dict (nd T))) u v1 v2
       (st1 st2 : state T) (p : string -> nat) t1 d1 t2 d2,
      proper_inputs (t_inp c) -> t_packer c = None ->
      NoDup (keys (t_tend c)) -> stars_ok (t_tend c) (t_inp c) ->
      NoDup (keys (t_diag c)) -> stars_ok (t_diag c) (t_inp c) ->
      tendency_call g c ac u st1 = (v1, Ok (t1, d1)) -> tendency_call g c ac u st2 = (v2, Ok (t2, d2)) ->
      wf_state st2 -> column_of st1 (t_inp c) p -> single_column (t_inp c) st1 p st2 ->
      (column_setup (t_inp c) (t_tend c) st1 ->
       columnwise (t_inp c) (t_tend c)
         (fun raw out => exists v d, ac u raw = (v, Ok (out, d))) ->
       output_column (t_inp c) st1 p t1 t2) /\
      (t_tid c = false -> column_setup (t_inp c) (t_diag c) st1 ->
       columnwise (t_inp c) (t_diag c)
         (fun raw out => exists v t, ac u raw = (v, Ok (t, out))) ->
       output_column (t_inp c) st1 p d1 d2)) /\
    (forall {U} c (ac : U -> dict (rval T) -> U * res (dict (nd T))) u v1 v2 (st1 st2 : state T) (p : string -> nat) d1 d2,
      proper_inputs (d_inp c) -> NoDup (keys (d_diag c)) -> stars_ok (d_diag c) (d_inp c) ->
      diagnostic_call c ac u st1 = (v1, Ok d1) -> diagnostic_call c ac u st2 = (v2, Ok d2) ->
      wf_state st2 -> column_of st1 (d_inp c) p -> single_column (d_inp c) st1 p st2 ->
      (column_setup (d_inp c) (d_diag c) st1 ->
       columnwise (d_inp c) (d_diag c)
         (fun raw out => exists v, ac u raw = (v, Ok out)) ->
       output_column (d_inp c) st1 p d1 d2)) /\
    (forall {U} g c (ac : U -> dict (rval T) -> Z -> U * res (dict (nd T) * dict (nd T))) u v1 v2
       (st1 st2 : state T) (p : string -> nat) dt n1 d1 n2 d2,
      proper_inputs (s_inp c) -> s_packer c = None ->
      NoDup (keys (s_out c)) -> stars_ok (s_out c) (s_inp c) ->
      NoDup (keys (s_diag c)) -> stars_ok (s_diag c) (s_inp c) ->
      stepper_call g c ac u st1 dt = (v1, Ok (d1, n1)) -> stepper_call g c ac u st2 dt = (v2, Ok (d2, n2)) ->
      wf_state st2 -> column_of st1 (s_inp c) p -> single_column (s_inp c) st1 p st2 ->
      (column_setup (s_inp c) (s_out c) st1 ->
       columnwise (s_inp c) (s_out c)
         (fun raw out => exists v d, ac u raw dt = (v, Ok (d, out))) ->
       output_column (s_inp c) st1 p n1 n2) /\
      (s_tid c = false -> column_setup (s_inp c) (s_diag c) st1 ->
       columnwise (s_inp c) (s_diag c)
         (fun raw out => exists v n, ac u raw dt = (v, Ok (out, n))) ->
       output_column (s_inp c) st1 p d1 d2)).
  Proof.
    split; [|split].
    - intros U g c ac u v1 v2 st1 st2 p t1 d1 t2 d2 Hpi Hpk Hn1 Hs1 Hn2 Hs2 C1 C2 W2 Hp Hs. split.
      + intros S1 Hc; eapply column_core; eauto;
          eapply tendency_one_call; eauto; first [apply S1|apply S2|auto].
      + intros Ht S1 Hc; eapply column_core; eauto.
        * destruct (tendency_one_call g c ac u v1 st1 t1 d1 (proj1 S1) Hpk Hpi C1) as (_ & dg & O & ->). rewrite Ht. exact O.
        * destruct (tendency_one_call g c ac u v2 st2 t2 d2 W2 Hpk Hpi C2) as (_ & dg & O & ->). rewrite Ht. exact O.
    - intros U c ac u v1 v2 st1 st2 p d1 d2 Hpi Hn1 Hs1 C1 C2 W2 Hp Hs S1 Hc; eapply column_core; eauto;
        eapply diagnostic_one_call; eauto; first [apply S1|apply S2|auto].
    - intros U g c ac u v1 v2 st1 st2 p dt n1 d1 n2 d2 Hpi Hpk Hn1 Hs1 Hn2 Hs2 C1 C2 W2 Hp Hs. split.
      + intros S1 Hc; eapply column_core; eauto;
          eapply stepper_one_call; eauto; first [apply S1|apply S2|auto].
      + intros Ht S1 Hc; eapply column_core; eauto;
          eapply stepper_one_call; eauto; first [apply S1|apply S2|auto].
  Qed.
End Columns.
