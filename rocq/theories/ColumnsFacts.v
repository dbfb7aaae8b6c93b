(** Lemmas behind C74: what a column of a component's outputs depends on. *)
From Coq Require Import String List Bool Arith ZArith Lia.
From Verif Require Import Prelude PreludeFacts ArithM NdArray NdFacts Units DataArrayM
  Wildcard WildcardFacts GetNp GetNpFacts SpecArrays ExtractFacts Restore RestoreFacts RoundTripFacts ArraysMain
  Tracers SpecComponents Components CallFacts SpecCalls SpecColumns ComponentsMain.
Import ListNotations.
Open Scope string_scope.
Open Scope nat_scope.
Open Scope list_scope.

Section Columns.
  Context {T : Type} {A : Arith T} {R : Registry}.

  Lemma wildcard_dims_listed : forall (st : state T) pd w, In w (wildcard_dims st pd) ->
    exists nm p ds a, listed st pd nm p ds a /\ In w (dims a) /\ ~ In w ds.
  Proof.
    intros st pd w H. unfold wildcard_dims in H. apply dedup_In, in_flat_map in H as ((n & p) & Hi & H).
    unfold undeclared in H; cbn [fst snd] in H. destruct (p_dims p) as [ds|] eqn:Ed; [|contradiction].
    destruct (dget n st) as [[a|]|] eqn:E; try contradiction.
    apply filter_In in H as [H H']. apply negb_true_iff, mem_false in H'.
    exists n, p, ds, a. repeat split; auto.
  Qed.

  Lemma In_has_dim : forall (a : da T) d, wf_da a -> In d (dims a) -> exists n, has_dim a d n.
  Proof.
    intros a d Hw Hd. destruct Hw as (Hlen & _). unfold has_dim.
    revert Hlen. generalize (shape (arr a)). revert Hd. induction (dims a) as [|x l IH]; intros Hd s Hl; [contradiction|].
    destruct s as [|n s]; [discriminate|]. destruct Hd as [->|Hd].
    - exists n. left; auto.
    - destruct (IH Hd s) as (m & Hm); [simpl in Hl; lia|]. exists m. right; auto.
  Qed.

  Lemma wildcard_dim_length : forall (st : state T) pd L w, wf_state st -> common_lengths st pd L ->
    In w (wildcard_dims st pd) ->
    exists nm p ds a, listed st pd nm p ds a /\ has_dim a w (L w).
  Proof.
    intros st pd L w Hwf HL Hw. destruct (wildcard_dims_listed st pd w Hw) as (nm & p & ds & a & Hl & Hd & _).
    destruct (In_has_dim a w) as (n & Hn); [eapply Hwf; apply Hl|auto|].
    exists nm, p, ds, a. split; auto. rewrite (proj1 HL _ _ _ _ _ _ Hl Hn). auto.
  Qed.

  Lemma column_lt : forall (st : state T) pd L p w, wf_state st -> common_lengths st pd L ->
    column_of st pd p -> In w (wildcard_dims st pd) -> p w < L w.
  Proof.
    intros st pd L p w Hwf HL Hp Hw. destruct (wildcard_dim_length st pd L w Hwf HL Hw) as (nm & pr & ds & a & Hl & Hh).
    eapply Hp; eauto.
  Qed.

  Lemma column_number_lt : forall (st : state T) pd L p, wf_state st -> common_lengths st pd L ->
    column_of st pd p ->
    ravel (map L (wildcard_dims st pd)) (map p (wildcard_dims st pd)) < prod (map L (wildcard_dims st pd)).
  Proof.
    intros st pd L p Hwf HL Hp. apply ravel_lt. unfold in_range.
    assert (H : forall w, In w (wildcard_dims st pd) -> p w < L w) by (intros; eapply column_lt; eauto).
    revert H. induction (wildcard_dims st pd) as [|w W IH]; intros H; cbn [map]; constructor.
    - apply H. left; auto.
    - apply IH. intros v Hv. apply H. right; auto.
  Qed.

  (** Restoring fails when '*' of an output stands for nothing. *)
  Lemma restore_needs_star : forall (st : state T) raw outp inp ign out,
    wf_state st -> NoDup (keys outp) ->
    restore_data_arrays_with_properties raw outp st inp ign false = Ok out ->
    forall name ds, In name (keys out) -> declared_dims outp inp name ds -> In "*" ds ->
      (forall name' ds', declared_dims outp inp name' ds' -> one_star ds') ->
      exists nm p ds', In (nm, p) inp /\ p_dims p = Some ds' /\ In "*" ds'.
  Proof.
    intros st raw outp inp ign out Hwf Hnd H name ds Hin Hds Hstar Hos.
    destruct (restoration_spec st raw outp inp ign false out Hwf Hnd Hos H) as (Hk0 & _).
    apply Hk0 in Hin as [Hin Hni].
    unfold restore_data_arrays_with_properties in H.
    apply bind_ok in H as ((wn & dl) & Hscan & H). apply bind_ok in H as (dd & Hdd & H).
    apply bind_ok in H as ((dl' & out') & Hf & _).
    apply wildcard_matches_spec in Hscan as (_ & Hwn); auto.
    destruct (existsb (fun np => match p_dims (snd np) with Some ds0 => mem "*" ds0 | None => false end) inp) eqn:Ex.
    - apply existsb_exists in Ex as ((nm & p) & Hi & Hm). cbn [snd] in Hm.
      destruct (p_dims p) as [ds'|] eqn:Ed; [|discriminate]. exists nm, p, ds'. repeat split; auto. apply mem_In; auto.
    - exfalso. unfold extract_output_dims_properties in Hdd.
      apply extract_dims_ok in Hdd as (Hk & _ & Hdims); [|simpl; apply NoDup_filter; auto].
      apply In_keys_dget in Hin as (p & Hp).
      assert (Hni' : ~ In name ign) by (intros Hi; apply Hni; left; auto).
      destruct (Hdims name p (dget_In _ _ _ Hp) Hni') as (ds' & Hg & Hor).
      assert (ds' = ds) as ->.
      { eapply declared_dims_fun; [|exact Hds]. exists p; auto. }
      apply dget_In in Hg. apply in_split in Hg as (l1 & l2 & ->).
      rewrite foldM_app in Hf. apply bind_ok in Hf as ([dl1 o1] & _ & Hf). cbn [foldM] in Hf.
      apply bind_ok in Hf as ([dl2 o2] & Hf & _). unfold restore_step in Hf.
      rewrite (proj2 (mem_false name ign)) in Hf by auto.
      apply bind_ok in Hf as (rn & _ & Hf). apply bind_ok in Hf as (x & Hx & _).
      apply mem_In in Hstar. rewrite Hstar in Hx.
      apply bind_ok in Hx as (ra & _ & Hx). apply bind_ok in Hx as ([ds2 tg] & Hx & _).
      pose proof (one_star_index ds (Hos _ _ Hds)) as Hi. unfold fill_dims_wildcard in Hx.
      destruct (index_of "*" ds) as [i|]; [|discriminate].
      destruct Hi as (pre & post & -> & _ & Hpre & Hpost).
      apply fill_dims_star in Hx as (W & HW & _); auto.
      rewrite HW in Hwn. destruct (existsb (fun np => has_wildcard (snd np)) inp) eqn:Ex2; [|discriminate].
      unfold has_wildcard in Ex2. congruence.
  Qed.

  Lemma place_pos : forall W (L c : string -> nat) ds j i,
    j = ravel (map L W) (map c W) -> (forall d, In d ds -> d <> "*" -> c d = i d) ->
    map (axis_pos W L c) ds = place ds j i.
  Proof.
    intros W L c ds j i -> H. unfold place. apply map_ext_in. intros d Hd. unfold axis_pos.
    destruct (String.eqb d "*") eqn:E; auto. apply H; auto. intros ->. discriminate.
  Qed.

  Lemma map_agree : forall {B} (f g : string -> B) W, (forall w, In w W -> f w = g w) -> map f W = map g W.
  Proof. intros. apply map_ext_in. auto. Qed.

  (** What restoring gives when array_call's outputs lie on the grid of its inputs. *)
  Lemma restore_on_grid : forall (st : state T) (inp outp : pdict) ign raw ra out L m,
    wf_state st -> proper_inputs inp -> NoDup (keys outp) -> stars_ok outp inp -> unambiguous st inp outp ->
    validated empty_treg inp None st raw -> common_lengths st inp L ->
    result_grid inp outp (axis_len (wildcard_dims st inp) L) m ra ->
    restore_data_arrays_with_properties ra outp st inp ign false = Ok out ->
    let M := fun d => if mem d (wildcard_dims st inp) then L d else m d in
    forall name ds q, declared_dims outp inp name ds -> dget name out = Some q ->
      exists a, dget (out_key outp inp name) ra = Some a /\
        dims q = expand_dims (wildcard_dims st inp) ds /\ shape (arr q) = map M (dims q) /\
        forall c, da_at q c = at_ a (map (axis_pos (wildcard_dims st inp) L c) ds).
  Proof.
    intros st inp outp ign raw ra out L m Hwf Hpi Hnd Hst Hun (Hnu & Hval & _) HL (Hm & Hsh) Hres M name ds q Hds Hq.
    set (W := wildcard_dims st inp) in *.
    assert (HMW : map M W = map L W).
    { apply map_agree. intros w Hw. unfold M. rewrite (proj2 (mem_In w W) Hw). auto. }
    assert (HM : forall nm p ds' a d n, listed st inp nm p ds' a -> has_dim a d n -> M d = n).
    { intros nm p ds' a d n Hl Hh. rewrite <- (proj1 HL _ _ _ _ _ _ Hl Hh). unfold M.
      destruct (mem d W) eqn:E; auto. apply mem_false in E.
      assert (Hdin : In d ds').
      { destruct (In_dec_str d ds') as [Hi|Hi]; auto. exfalso. apply E. eapply undeclared_In; eauto.
        eapply has_dim_In; eauto. }
      destruct Hl as (H1 & H2 & H3). rewrite Hm; [|exists nm, p, ds'; auto].
      unfold axis_len. destruct (String.eqb d "*") eqn:E2; auto. apply String.eqb_eq in E2. subst d.
      exfalso. apply (proj2 (Hwf _ _ H3)). eapply has_dim_In; eauto. }
    destruct (main_restore st ra outp inp ign false out Hwf Hnd Hst Hres) as (Hk & Hv).
    assert (Hre : forall name p, dget name outp = Some p -> ~ ignored ra outp ign false name ->
      exists ds u a, restorable ra st outp inp M name p ds u a).
    { intros nm p Hp Hni. destruct (Hv nm p Hp Hni) as (ds' & u & a & q' & D1 & D2 & D3 & D4 & _).
      exists ds', u, a. assert (Hstar : In "*" ds' -> exists nm0 p0 ds0, In (nm0, p0) inp /\ p_dims p0 = Some ds0 /\ In "*" ds0).
      { intros Hs. eapply restore_needs_star; eauto. eapply dget_In_keys; eauto. }
      repeat split; auto; [eapply Hst; eauto|].
      rewrite (Hsh _ _ _ D1 D3). apply map_agree. intros d Hd. unfold axis_len.
      destruct (String.eqb d "*") eqn:E.
      - apply String.eqb_eq in E. subst d. fold W. rewrite HMW.
        destruct (Hstar Hd) as (nm0 & p0 & ds0 & S1 & S2 & S3).
        rewrite Hm; [reflexivity|exists nm0, p0, ds0; auto].
      - unfold M. destruct (mem d W) eqn:E2; auto. apply mem_In in E2.
        exfalso. apply (proj2 (Hun d E2)). exists nm, ds'; auto. }
    assert (Hc : complete st inp).
    { intros nm p Hi. destruct Hval as (L0 & _ & Hx). destruct (Hx nm p Hi) as (r & _ & ds' & u & a & q' & X1 & X2 & X3 & _).
      repeat split; eauto. }
    destruct (main_restore_ok st ra outp inp ign false M Hwf Hnd Hc) as (out' & Ho & _ & Hout); auto.
    1,2: intros Hx; apply Hnu; unfold unusable; auto.
    rewrite Hres in Ho. injection Ho as <-.
    assert (Hin : In name (keys out)) by (eapply dget_In_keys; eauto).
    apply Hk in Hin as [Hin Hni]. apply In_keys_dget in Hin as (p & Hp).
    destruct (Hre name p Hp Hni) as (ds' & u & a & Hra). destruct (Hout name p ds' u a Hp Hni Hra) as (q' & Q1 & _ & Q2 & Q3 & Q4).
    rewrite Hq in Q1. injection Q1 as <-. destruct Hra as (R1 & _ & _ & R2 & _ & _).
    rewrite (declared_dims_fun _ _ _ _ _ R1 Hds) in *. exists a. repeat split; auto.
    intros c. rewrite Q4. f_equal. apply map_agree. intros d _. unfold axis_pos. fold W. rewrite HMW. auto.
  Qed.

  (** One call: the arrays array_call got and what was restored from its outputs. *)
  Definition one_call (inp outp : pdict) (f : dict (rval T) -> dict (nd T) -> Prop)
      (st : state T) (out : dict (da T)) : Prop :=
    exists raw ra ign, validated empty_treg inp None st raw /\ f raw ra /\
      restore_data_arrays_with_properties ra outp st inp ign false = Ok out.

  Lemma validated_grid : forall (st : state T) inp raw L, wf_state st ->
    validated empty_treg inp None st raw -> common_lengths st inp L ->
    on_grid inp (axis_len (wildcard_dims st inp) L) raw /\
    forall name p ds u a q r, In (name, p) inp -> p_dims p = Some ds -> p_units p = Some u ->
      dget name st = Some (VDA a) -> to_units a u = Ok q -> dget (raw_name name p) raw = Some (RArr r) ->
      forall c, grid_point (wildcard_dims st inp) L c ds ->
        at_ r (map (axis_pos (wildcard_dims st inp) L c) ds) = da_at q c.
  Proof.
    intros st inp raw L Hwf (_ & (L0 & HL0 & Hex) & _) HL.
    assert (E : forall d, L0 d = L d) by (apply (common_lengths_unique st inp); auto).
    split.
    - intros name p ds Hi Hd. destruct (Hex name p Hi) as (r & Hr & ds' & u & a & q & X1 & X2 & X3 & X4 & X5 & X6 & X7).
      rewrite Hd in X1. injection X1 as <-. exists r. repeat split; auto. rewrite X6.
      apply map_agree. intros. apply axis_len_ext; auto.
    - intros name p ds u a q r Hi Hd Hu Ha Hq Hr c Hg.
      destruct (Hex name p Hi) as (r' & Hr' & ds' & u' & a' & q' & X1 & X2 & X3 & X4 & X5 & X6 & X7).
      rewrite Hr in Hr'. injection Hr' as <-. rewrite Hd in X1. injection X1 as <-.
      rewrite Hu in X2. injection X2 as <-. rewrite Ha in X3. injection X3 as <-. rewrite Hq in X4. injection X4 as <-.
      rewrite <- X7.
      + f_equal. apply map_agree. intros. apply axis_pos_ext. auto.
      + intros d Hd'. specialize (Hg d Hd'). rewrite E. destruct (String.eqb d "*"); auto.
        intros w Hw. rewrite E. auto.
  Qed.

  Lemma inside_q : forall (st : state T) inp outp L p nm pr ds u a q i, wf_state st -> common_lengths st inp L ->
    unambiguous st inp outp -> column_of st inp p -> listed st inp nm pr ds a -> to_units a u = Ok q ->
    within (axis_len (wildcard_dims st inp) L) ds i ->
    let c := fun d => if mem d (wildcard_dims st inp) then p d else i d in
    inside q c /\ grid_point (wildcard_dims st inp) L c ds /\ in_column st inp p c /\
    (forall d, In d ds -> d <> "*" -> c d = i d).
  Proof.
    intros st inp outp L p nm pr ds u a q i Hwf HL Hun Hp Hl Hq Hi c.
    assert (Hout : forall d, In d ds -> ~ In d (wildcard_dims st inp)).
    { intros d Hd Hw. apply (proj1 (Hun d Hw)). destruct Hl as (? & ? & ?). exists nm, pr, ds; auto. }
    assert (Hcw : forall w, In w (wildcard_dims st inp) -> c w = p w).
    { intros w Hw. unfold c. rewrite (proj2 (mem_In w _) Hw). auto. }
    assert (Hcd : forall d, In d ds -> c d = i d).
    { intros d Hd. unfold c. rewrite (proj2 (mem_false d _) (Hout d Hd)). auto. }
    assert (Hlen : forall d, In d ds -> d <> "*" -> c d < L d).
    { intros d Hd Hne. rewrite Hcd by auto. specialize (Hi d Hd Hne). unfold axis_len in Hi.
      destruct (String.eqb d "*") eqn:E; auto. apply String.eqb_eq in E. congruence. }
    repeat split; auto.
    - intros d n Hh.
      assert (Hha : has_dim a d n).
      { unfold has_dim in *. destruct (to_units_dims a q u Hq) as (E1 & E2). rewrite E1, E2 in Hh. auto. }
      rewrite <- (proj1 HL _ _ _ _ _ _ Hl Hha).
      destruct (In_dec_str d ds) as [Hd|Hd].
      + apply Hlen; auto. intros ->. destruct Hl as (_ & _ & H3). apply (proj2 (Hwf _ _ H3)). eapply has_dim_In; eauto.
      + assert (Hw : In d (wildcard_dims st inp)) by (eapply undeclared_In; eauto; eapply has_dim_In; eauto).
        rewrite Hcw by auto. eapply column_lt; eauto.
    - intros d Hd. destruct (String.eqb d "*") eqn:E.
      + intros w Hw. rewrite Hcw by auto. eapply column_lt; eauto.
      + apply Hlen; auto. intros ->. discriminate.
  Qed.

  Lemma columns_core : forall (inp outp : pdict) f (st1 st2 : state T) out1 out2 p1 p2,
    wf_state st1 -> wf_state st2 -> proper_inputs inp -> NoDup (keys outp) -> stars_ok outp inp ->
    unambiguous st1 inp outp -> unambiguous st2 inp outp ->
    columnwise inp outp f -> one_call inp outp f st1 out1 -> one_call inp outp f st2 out2 ->
    same_lengths inp st1 st2 -> column_of st1 inp p1 -> column_of st2 inp p2 ->
    same_inputs inp st1 p1 st2 p2 -> same_outputs inp outp st1 p1 out1 st2 p2 out2.
  Proof.
    intros inp outp f st1 st2 out1 out2 p1 p2 Hwf1 Hwf2 Hpi Hnd Hst Hu1 Hu2 Hcol
      (raw1 & ra1 & ign1 & Hv1 & Hf1 & Hr1) (raw2 & ra2 & ign2 & Hv2 & Hf2 & Hr2) Hlen Hp1 Hp2 (Htime & Hsame).
    destruct (proj1 (proj2 Hv1)) as (L1 & HL1 & _). destruct (proj1 (proj2 Hv2)) as (L2 & HL2 & _).
    destruct (validated_grid st1 inp raw1 L1 Hwf1 Hv1 HL1) as (G1 & V1).
    destruct (validated_grid st2 inp raw2 L2 Hwf2 Hv2 HL2) as (G2 & V2).
    specialize (Hlen L1 L2 HL1 HL2).
    destruct (Hcol _ _ raw1 raw2 ra1 ra2 Hf1 Hf2 G1 G2) as (m1 & m2 & Hg1 & Hg2 & Hmm & Heq).
    { intros d Hd Hne. unfold axis_len. destruct (String.eqb d "*") eqn:E; [apply String.eqb_eq in E; congruence|auto]. }
    set (W1 := wildcard_dims st1 inp) in *. set (W2 := wildcard_dims st2 inp) in *.
    specialize (Heq (ravel (map L1 W1) (map p1 W1)) (ravel (map L2 W2) (map p2 W2))).
    assert (Heq' : forall name ds a1 a2, declared_dims outp inp name ds ->
      dget (out_key outp inp name) ra1 = Some a1 -> dget (out_key outp inp name) ra2 = Some a2 ->
      forall i, within m1 ds i -> at_ a1 (place ds (ravel (map L1 W1) (map p1 W1)) i) = at_ a2 (place ds (ravel (map L2 W2) (map p2 W2)) i)).
    { apply Heq; [apply column_number_lt; auto|apply column_number_lt; auto|]. split.
      - destruct Hv1 as (_ & _ & (t1 & T1 & T2) & _). destruct Hv2 as (_ & _ & (t2 & T3 & T4) & _). congruence.
      - intros name p ds r1 r2 Hi Hd Hq1 Hq2 i Hw.
        destruct (proj1 (proj2 Hv1)) as (L1' & _ & X1). destruct (X1 name p Hi) as (_ & _ & ds1 & u & a1 & q1 & D1 & U1 & A1 & Q1 & _).
        destruct (proj1 (proj2 Hv2)) as (L2' & _ & X2). destruct (X2 name p Hi) as (_ & _ & ds2 & u2 & a2 & q2 & D2 & U2 & A2 & Q2 & _).
        rewrite Hd in D1, D2. injection D1 as <-. injection D2 as <-. rewrite U1 in U2. injection U2 as <-.
        assert (Hw2 : within (axis_len W2 L2) ds i).
        { intros d Hin Hne. specialize (Hw d Hin Hne). unfold axis_len in *.
          destruct (String.eqb d "*") eqn:E; [apply String.eqb_eq in E; congruence|].
          rewrite <- Hlen; auto. exists name, p, ds; auto. }
        destruct (inside_q st1 inp outp L1 p1 name p ds u a1 q1 i) as (I1 & I2 & I3 & I4); auto; [repeat split; auto|].
        destruct (inside_q st2 inp outp L2 p2 name p ds u a2 q2 i) as (J1 & J2 & J3 & J4); auto; [repeat split; auto|].
        specialize (V1 name p ds u a1 q1 r1 Hi Hd U1 A1 Q1 Hq1 _ I2).
        specialize (V2 name p ds u a2 q2 r2 Hi Hd U1 A2 Q2 Hq2 _ J2).
        rewrite (place_pos W1 L1 _ ds (ravel (map L1 W1) (map p1 W1)) i) in V1;
          [|f_equal; symmetry; apply map_agree; exact I3|exact I4].
        rewrite (place_pos W2 L2 _ ds (ravel (map L2 W2) (map p2 W2)) i) in V2;
          [|f_equal; symmetry; apply map_agree; exact J3|exact J4].
        rewrite V1, V2.
        apply (Hsame name p ds u a1 a2 q1 q2 Hi Hd U1 A1 A2 Q1 Q2); auto.
        intros d Hin Hne. rewrite I4, J4; auto. }
    intros name ds q1 q2 Hds Hq1 Hq2 c1 c2 Hc1 Hc2 Hin Hag.
    destruct (restore_on_grid st1 inp outp ign1 raw1 ra1 out1 L1 m1 Hwf1 Hpi Hnd Hst Hu1 Hv1 HL1 Hg1 Hr1 name ds q1 Hds Hq1) as (a1 & K1 & E1 & S1 & At1).
    destruct (restore_on_grid st2 inp outp ign2 raw2 ra2 out2 L2 m2 Hwf2 Hpi Hnd Hst Hu2 Hv2 HL2 Hg2 Hr2 name ds q2 Hds Hq2) as (a2 & K2 & E2 & S2 & At2).
    fold W1 in E1, S1, At1. fold W2 in E2, S2, At2.
    assert (Hw1 : forall d, In d ds -> ~ In d W1).
    { intros d Hd Hw. apply (proj2 (Hu1 d Hw)). exists name, ds; auto. }
    assert (Hw2 : forall d, In d ds -> ~ In d W2).
    { intros d Hd Hw. apply (proj2 (Hu2 d Hw)). exists name, ds; auto. }
    assert (Hin1 : within m1 ds c1).
    { intros d Hd Hne. specialize (Hin d (m1 d)). apply Hin. unfold has_dim. rewrite S1.
      assert (Hx : In d (dims q1)).
      { rewrite E1. unfold expand_dims. apply in_flat_map. exists d. split; auto.
        destruct (String.eqb d "*") eqn:E; [apply String.eqb_eq in E; congruence|left; auto]. }
      revert Hx. generalize (dims q1) as l. induction l as [|x l IH]; intros Hx; [contradiction|].
      cbn [map combine]. destruct Hx as [->|Hx]; [left|right; auto].
      rewrite (proj2 (mem_false d W1) (Hw1 d Hd)). auto. }
    split.
    - intros d n Hh. unfold has_dim in Hh. rewrite S2 in Hh. apply in_combine_map2 in Hh as (-> & Hd).
      rewrite E2 in Hd. unfold expand_dims in Hd. apply in_flat_map in Hd as (x & Hx & Hd).
      destruct (String.eqb x "*") eqn:E.
      + rewrite (proj2 (mem_In d W2) Hd). rewrite Hc2 by auto. eapply column_lt; eauto.
      + destruct Hd as [->|[]]. rewrite (proj2 (mem_false d W2) (Hw2 d Hx)).
        assert (Hne : d <> "*") by (intros ->; discriminate).
        rewrite <- Hag, <- Hmm by auto. apply Hin1; auto.
    - rewrite At1, At2.
      rewrite (place_pos W1 L1 c1 ds (ravel (map L1 W1) (map p1 W1)) c1); auto;
        [|f_equal; symmetry; apply map_agree; exact Hc1].
      rewrite (place_pos W2 L2 c2 ds (ravel (map L2 W2) (map p2 W2)) c1); auto;
        [|f_equal; symmetry; apply map_agree; exact Hc2|intros d Hd Hne; symmetry; auto].
      eapply Heq'; eauto.
  Qed.
End Columns.
