(** C74: the order in which a state stores the dims of its arrays is invisible to
    array_call, as long as '*' stands for the same dims in the same order. *)
From Coq Require Import String List Bool Arith ZArith Lia.
From Verif Require Import Prelude PreludeFacts ArithM NdArray NdFacts Units DataArrayM
  Wildcard WildcardFacts GetNp GetNpFacts SpecArrays ExtractFacts Restore RestoreFacts RoundTripFacts ArraysMain
  Tracers SpecComponents Components CallFacts SpecCalls SpecColumns ColumnsFacts ColumnsMain.
Import ListNotations.
Open Scope string_scope.
Open Scope nat_scope.
Open Scope list_scope.

Lemma dict_ext : forall {V} (d1 d2 : dict V), NoDup (keys d1) -> keys d1 = keys d2 ->
  (forall k, In k (keys d1) -> dget k d1 = dget k d2) -> d1 = d2.
Proof.
  induction d1 as [|[k v] d1 IH]; intros [|[k' v'] d2] Hn Hk H; try discriminate; auto.
  cbn [keys map fst] in *. injection Hk as -> Hk. inversion Hn as [|? ? Hni Hn']; subst.
  pose proof (H k' (or_introl eq_refl)) as E. cbn [dget] in E. rewrite String.eqb_refl in E. injection E as ->.
  f_equal. apply IH; auto. intros k Hin. specialize (H k (or_intror Hin)). cbn [dget] in H.
  destruct (String.eqb k k') eqn:E; auto. apply String.eqb_eq in E. subst k. contradiction.
Qed.

Section Layout.
  Context {T : Type} {A : Arith T} {R : Registry}.

  (** ** dim_lengths is only ever looked up *)

  Definition dl_same (d1 d2 : dict nat) : Prop := forall k, dget k d1 = dget k d2.

  Lemma dmem_same : forall d1 d2 k, dl_same d1 d2 -> dmem k d1 = dmem k d2.
  Proof. intros d1 d2 k H. unfold dmem. rewrite H. auto. Qed.

  Lemma note_new_dims_same : forall ds sh d1 d2, dl_same d1 d2 ->
    dl_same (note_new_dims ds sh d1) (note_new_dims ds sh d2).
  Proof.
    intros ds sh. unfold note_new_dims. induction (combine ds sh) as [|[d n] l IH]; intros d1 d2 H; cbn [fold_left]; auto.
    apply IH. cbn [fst snd]. rewrite (dmem_same d1 d2 d H).
    destruct (negb (dmem d d2) && negb (String.eqb d "*")); auto.
    intros k. rewrite !dget_dset, H. auto.
  Qed.

  Lemma fill_dims_same : forall ds d1 d2 wn b, dl_same d1 d2 -> fill_dims ds d1 wn b = fill_dims ds d2 wn b.
  Proof.
    intros ds d1 d2 wn b H. revert b. induction ds as [|d ds IH]; intros b; cbn [fill_dims]; auto.
    assert (Hm : forall l, mapM (fun n => dgetE n d1) l = mapM (fun n => dgetE n d2) l).
    { induction l as [|x l IHl]; cbn [mapM]; auto. unfold dgetE. rewrite H.
      destruct (dget x d2); cbn [bind]; auto. unfold dgetE in IHl. rewrite IHl. auto. }
    rewrite !IH. unfold dgetE at 2 4. rewrite H. destruct wn as [names|]; [rewrite Hm|]; auto.
  Qed.

  Lemma check_array_shape_same : forall ds (a : nd T) d1 d2, dl_same d1 d2 ->
    check_array_shape ds a d1 = check_array_shape ds a d2.
  Proof.
    intros ds a d1 d2 H. unfold check_array_shape. destruct (negb _); auto.
    generalize tt. induction (combine ds (shape a)) as [|[d n] l IH]; intros t; cbn [foldM]; auto.
    cbn [fst snd]. rewrite H. destruct (dget d d2) as [m|]; cbn [bind]; auto.
    destruct (Nat.eqb m n); cbn [bind]; auto.
  Qed.

  Lemma restore_fold_same : forall raw outp inp wn ign dd d1 d2 (out : dict (da T)), dl_same d1 d2 ->
    (let* (_, o) := foldM (restore_step raw outp inp wn ign) dd (d1, out) in Ok o) =
    (let* (_, o) := foldM (restore_step raw outp inp wn ign) dd (d2, out) in Ok o).
  Proof.
    intros raw outp inp wn ign. induction dd as [|[name ds] dd IH]; intros d1 d2 out H; cbn [foldM]; auto.
    unfold restore_step at 1 3. destruct (mem name ign); [cbn [bind]; apply IH; auto|].
    destruct (get_alias_or_name name outp inp) as [rn|]; cbn [bind]; auto.
    destruct (mem "*" ds).
    - destruct (dgetE rn raw) as [ra|]; cbn [bind]; auto.
      unfold fill_dims_wildcard. destruct (index_of "*" ds); cbn [bind]; auto.
      pose proof (note_new_dims_same ds (shape ra) d1 d2 H) as Hn.
      rewrite (fill_dims_same ds _ _ wn false Hn).
      destruct (fill_dims ds _ wn false) as [[ds2 tg]|]; cbn [bind]; auto.
      destruct (expand_array_wildcard_dims ra tg); cbn [bind]; auto.
      destruct (dgetE name outp) as [p|]; cbn [bind]; auto. destruct (p_units p); cbn [bind]; auto.
      destruct (create_quantity _ _ _); cbn [bind]; auto.
    - destruct (dgetE rn raw) as [ra|]; cbn [bind]; auto.
      rewrite (check_array_shape_same ds ra d1 d2 H). destruct (check_array_shape ds ra d2); cbn [bind]; auto.
      destruct (dgetE name outp) as [p|]; cbn [bind]; auto. destruct (p_units p); cbn [bind]; auto.
      destruct (create_quantity _ _ _); cbn [bind]; auto.
  Qed.

  Lemma scan_same : forall inp (st1 st2 : state T) w1 w2 d1 d2, wf_state st1 -> wf_state st2 ->
    same_fields inp st1 st2 -> wildcard_dims st1 inp = wildcard_dims st2 inp ->
    get_wildcard_matches_and_dim_lengths st1 inp = Ok (w1, d1) ->
    get_wildcard_matches_and_dim_lengths st2 inp = Ok (w2, d2) -> w1 = w2 /\ dl_same d1 d2.
  Proof.
    intros inp st1 st2 w1 w2 d1 d2 Hwf1 Hwf2 Hs HW H1 H2.
    apply wildcard_matches_spec in H1 as ((_ & _ & _ & A1 & B1) & E1); auto.
    apply wildcard_matches_spec in H2 as ((_ & _ & _ & A2 & B2) & E2); auto.
    split; [rewrite E1, E2, HW; auto|]. destruct (same_fields_sym_dims inp st1 st2 Hs) as (F12 & F21).
    assert (Hhalf : forall (sa sb : state T) da db, wf_state sb ->
      (forall nm p ds a, listed sa inp nm p ds a -> exists b, listed sb inp nm p ds b /\ forall d n, has_dim a d n <-> has_dim b d n) ->
      (forall d n, dget d da = Some n -> exists name p ds a, listed sa inp name p ds a /\ has_dim a d n) ->
      (forall name p ds a d, listed sb inp name p ds a -> In d (dims a) -> dget d db = dim_len a d) ->
      forall d n, dget d da = Some n -> dget d db = Some n).
    { intros sa sb da db Hwf F B0 A0 d n Hd. destruct (B0 d n Hd) as (nm & p & ds & a & Hl & Hh).
      destruct (F _ _ _ _ Hl) as (b & Hb & Hab). apply Hab in Hh.
      rewrite (A0 _ _ _ _ _ Hb (has_dim_In _ _ _ Hh)). apply has_dim_len; auto. eapply Hwf; apply Hb. }
    intros d. destruct (dget d d1) as [n|] eqn:G1.
    - symmetry. eapply (Hhalf st1 st2); eauto.
    - destruct (dget d d2) as [n|] eqn:G2; auto. rewrite <- G1. eapply (Hhalf st2 st1); eauto.
  Qed.

  Lemma usable_scan : forall inp (st : state T), wf_state st -> complete st inp ->
    ~ length_conflict st inp -> ~ unexpected_dim st inp ->
    exists wd, get_wildcard_matches_and_dim_lengths st inp = Ok wd.
  Proof.
    intros inp st Hwf Hc H1 H2. destruct (wildcard_matches_iff st inp Hwf Hc) as (_ & H).
    destruct H as (wn & dl & E); eauto.
  Qed.

  Lemma restore_same : forall inp (st1 st2 : state T) raw outp ign, wf_state st1 -> wf_state st2 ->
    same_fields inp st1 st2 -> wildcard_dims st1 inp = wildcard_dims st2 inp ->
    (exists wd, get_wildcard_matches_and_dim_lengths st1 inp = Ok wd) ->
    (exists wd, get_wildcard_matches_and_dim_lengths st2 inp = Ok wd) ->
    restore_data_arrays_with_properties raw outp st1 inp ign false =
    restore_data_arrays_with_properties raw outp st2 inp ign false.
  Proof.
    intros inp st1 st2 raw outp ign Hwf1 Hwf2 Hs HW ((w1 & d1) & H1) ((w2 & d2) & H2).
    destruct (scan_same inp st1 st2 w1 w2 d1 d2) as (-> & Hd); auto.
    unfold restore_data_arrays_with_properties. rewrite H1, H2. cbn [bind].
    destruct (extract_output_dims_properties outp inp ign) as [dd|]; cbn [bind]; auto.
    apply restore_fold_same; auto.
  Qed.

  (** ** The arrays given to array_call *)

  Lemma same_points_same_array : forall W L ds (r1 r2 : nd T), one_star ds -> NoDup (expand_dims W ds) ->
    wf_nd r1 -> wf_nd r2 -> shape r1 = map (axis_len W L) ds -> shape r2 = map (axis_len W L) ds ->
    (forall c, grid_point W L c ds -> at_ r1 (map (axis_pos W L c) ds) = at_ r2 (map (axis_pos W L c) ds)) -> r1 = r2.
  Proof.
    intros W L ds r1 r2 Hos Hnd Hw1 Hw2 Hs1 Hs2 H.
    assert (E : arr (rebuilt W L ds "" r1) = arr (rebuilt W L ds "" r2)).
    { apply nd_ext; [apply rebuilt_wf; auto|apply rebuilt_wf; auto|reflexivity|].
      intros idx Hr. cbn [rebuilt arr shape] in Hr.
      assert (Hlen : length (expand_dims W ds) = length idx).
      { apply Forall2_len in Hr. rewrite map_length in Hr. auto. }
      set (c := fun d => or1 (dget d (combine (expand_dims W ds) idx))).
      assert (Hc : map c (expand_dims W ds) = idx) by (apply map_dget_combine; auto). clearbody c.
      assert (Hin : forall d, In d (expand_dims W ds) -> c d < L d).
      { rewrite <- Hc in Hr. clear - Hr. induction (expand_dims W ds) as [|x l IH]; intros d Hd; [contradiction|].
        cbn [map] in Hr. inversion Hr as [|? ? ? ? Hx Hl]; subst. destruct Hd as [->|Hd]; [exact Hx|apply IH; auto]. }
      assert (Hg : grid_point W L c ds).
      { intros d Hd. destruct (String.eqb d "*") eqn:Es.
        - intros w Hw. apply Hin. unfold expand_dims. apply in_flat_map. exists d. rewrite Es. auto.
        - apply Hin. unfold expand_dims. apply in_flat_map. exists d. rewrite Es. split; auto. left; auto. }
      pose proof (rebuilt_at W L ds "" r1 c Hos Hs1) as R1. pose proof (rebuilt_at W L ds "" r2 c Hos Hs2) as R2.
      unfold da_at in R1, R2. cbn [rebuilt dims] in R1, R2. rewrite Hc in R1, R2.
      rewrite R1, R2. apply H; auto. }
    assert (Ed : data r1 = data r2) by (injection E; auto).
    destruct r1 as [s1 x1], r2 as [s2 x2]. cbn [shape data] in *. congruence.
  Qed.

  Lemma fields_q : forall inp (st1 st2 : state T) name p u q1 q2 a1 a2, wf_state st1 -> wf_state st2 ->
    same_fields inp st1 st2 -> In (name, p) inp ->
    dget name st1 = Some (VDA a1) -> dget name st2 = Some (VDA a2) ->
    to_units a1 u = Ok q1 -> to_units a2 u = Ok q2 -> forall c, inside a1 c -> da_at q1 c = da_at q2 c.
  Proof.
    intros inp st1 st2 name p u q1 q2 a1 a2 Hwf1 Hwf2 Hs Hi A1 A2 Q1 Q2 c Hc.
    destruct (proj2 Hs name p Hi) as (b1 & b2 & B1 & B2 & Hun & Hd & Hv).
    rewrite A1 in B1. injection B1 as <-. rewrite A2 in B2. injection B2 as <-.
    apply (to_units_at a1 a2 q1 q2 u c c); auto; [eapply Hwf1; eauto|eapply Hwf2; eauto|].
    intros d n Hh. apply Hc. apply Hd; auto.
  Qed.

  Lemma extract_same : forall inp (st1 st2 : state T) r1 r2, wf_state st1 -> wf_state st2 ->
    proper_inputs inp -> no_repeated_dims st1 inp ->
    same_fields inp st1 st2 -> wildcard_dims st1 inp = wildcard_dims st2 inp ->
    ~ unexpected_dim st1 inp ->
    get_numpy_arrays_with_properties st1 inp = Ok r1 -> get_numpy_arrays_with_properties st2 inp = Ok r2 -> r1 = r2.
  Proof.
    intros inp st1 st2 r1 r2 Hwf1 Hwf2 (Hwp & Hnd & _) Hrep Hs HW Hne H1 H2.
    destruct (extraction_spec st1 inp r1 Hwf1 Hwp Hnd H1) as (L1 & HL1 & K1 & V1).
    destruct (extraction_spec st2 inp r2 Hwf2 Hwp Hnd H2) as (L2 & HL2 & K2 & V2).
    destruct (same_fields_sym_dims inp st1 st2 Hs) as (F12 & F21).
    assert (HL : forall d, L1 d = L2 d).
    { apply (common_lengths_unique st1 inp L1 L2); auto. split.
      - intros nm p ds a d n Hl Hh. destruct (F12 _ _ _ _ Hl) as (b & Hb & Hab). apply Hab in Hh. eapply HL2; eauto.
      - intros d Hno. apply HL2. intros nm p ds b Hl Hd. destruct (F21 _ _ _ _ Hl) as (a & Ha & Hab).
        destruct (In_has_dim b d) as (n & Hh); [eapply Hwf2; apply Hl|auto|]. apply Hab in Hh.
        apply (Hno _ _ _ _ Ha). eapply has_dim_In; eauto. }
    apply dict_ext; [rewrite K1; auto|congruence|].
    intros k Hk. rewrite K1 in Hk. apply in_map_iff in Hk as ((name & p) & <- & Hi). cbn [fst snd].
    destruct (V1 name p Hi) as (x1 & E1 & ds & u & a1 & q1 & D1 & U1 & A1 & Q1 & W1 & S1 & P1).
    destruct (V2 name p Hi) as (x2 & E2 & ds' & u' & a2 & q2 & D2 & U2 & A2 & Q2 & W2 & S2 & P2).
    rewrite D1 in D2. injection D2 as <-. rewrite U1 in U2. injection U2 as <-.
    rewrite E1, E2. f_equal. rewrite <- HW in S2, P2.
    assert (S2' : shape x2 = map (axis_len (wildcard_dims st1 inp) L1) ds).
    { rewrite S2. apply map_agree. intros d _. apply axis_len_ext. auto. }
    apply (same_points_same_array (wildcard_dims st1 inp) L1 ds); auto; [eapply Hwp; eauto|eapply Hrep; eauto|].
    intros c Hg. rewrite P1 by auto.
    assert (Hg2 : grid_point (wildcard_dims st1 inp) L2 c ds).
    { intros d Hd. specialize (Hg d Hd). rewrite <- HL. destruct (String.eqb d "*"); auto.
      intros w Hw. rewrite <- HL. auto. }
    transitivity (da_at q2 c); [|rewrite <- (P2 c Hg2); f_equal; apply map_agree; intros d _; apply axis_pos_ext; auto].
    apply (fields_q inp st1 st2 name p u q1 q2 a1 a2); auto.
    intros d n Hh. assert (Hl : listed st1 inp name p ds a1) by (repeat split; auto).
    rewrite <- (proj1 HL1 _ _ _ _ _ _ Hl Hh). pose proof (has_dim_In _ _ _ Hh) as Hd.
    destruct (In_dec_str d ds) as [Hin|Hin].
    - specialize (Hg d Hin). destruct (String.eqb d "*") eqn:E; auto. apply String.eqb_eq in E. subst d.
      exfalso. apply (proj2 (Hwf1 _ _ A1)). auto.
    - destruct (In_dec_str "*" ds) as [Hst|Hst].
      + specialize (Hg "*" Hst). cbn in Hg. apply Hg. eapply undeclared_In; eauto.
      + exfalso. apply Hne. exists name, p, ds, a1, d. auto.
  Qed.

  (** ** Whole calls *)

  Lemma complete_same : forall inp (st1 st2 : state T), same_fields inp st1 st2 -> complete st1 inp -> complete st2 inp.
  Proof.
    intros inp st1 st2 (_ & Hs) Hc name p Hi. destruct (Hc name p Hi) as (H1 & H2 & _).
    destruct (Hs name p Hi) as (a1 & a2 & _ & E & _). repeat split; eauto.
  Qed.

  Lemma same_fields_sym : forall inp (st1 st2 : state T), same_fields inp st1 st2 -> same_fields inp st2 st1.
  Proof.
    intros inp st1 st2 (Ht & Hs). split; auto. intros name p Hi.
    destruct (Hs name p Hi) as (a1 & a2 & E1 & E2 & Hu & Hd & Hv). exists a2, a1. repeat split; auto; try apply Hd.
    intros c Hc. symmetry. apply Hv. intros d n Hh. apply Hc. apply Hd; auto.
  Qed.

  Lemma bad_same : forall inp (st1 st2 : state T), wf_state st1 -> wf_state st2 -> same_fields inp st1 st2 ->
    length_conflict st1 inp \/ unexpected_dim st1 inp \/ bad_units st1 inp ->
    length_conflict st2 inp \/ unexpected_dim st2 inp \/ bad_units st2 inp.
  Proof.
    intros inp st1 st2 Hwf1 Hwf2 Hs. destruct (same_fields_sym_dims inp st1 st2 Hs) as (F12 & _).
    intros [H|[H|H]].
    - left. destruct H as (n1 & p1 & ds1 & a1 & n2 & p2 & ds2 & a2 & d & l1 & l2 & H1 & H2 & H3 & H4 & H5).
      destruct (F12 _ _ _ _ H1) as (b1 & B1 & D1). destruct (F12 _ _ _ _ H2) as (b2 & B2 & D2).
      exists n1, p1, ds1, b1, n2, p2, ds2, b2, d, l1, l2. repeat split; auto; try apply B1; try apply B2; [apply D1|apply D2]; auto.
    - right; left. destruct H as (nm & p & ds & a & d & H1 & H2 & H3).
      destruct (F12 _ _ _ _ H1) as (b & B1 & D1). exists nm, p, ds, b, d. split; auto. split; auto.
      destruct (In_has_dim a d) as (n & Hh); [eapply Hwf1; apply H1|auto|]. apply D1 in Hh. eapply has_dim_In; eauto.
    - right; right. destruct H as (nm & p & u & a & H1 & H2 & H3 & H4).
      destruct (proj2 Hs nm p H1) as (b1 & b2 & E1 & E2 & Hu & _). rewrite H3 in E1. injection E1 as <-.
      exists nm, p, u, b2. rewrite <- Hu. auto.
  Qed.

  Lemma known_same : forall inp (st1 st2 : state T), same_fields inp st1 st2 -> known_units st1 inp -> known_units st2 inp.
  Proof.
    intros inp st1 st2 (_ & Hs) Hk name p Hi. destruct (Hk name p Hi) as (H1 & H2). split; auto.
    intros a own Ha Ho. destruct (Hs name p Hi) as (a1 & a2 & E1 & E2 & Hu & _).
    rewrite Ha in E2. injection E2 as <-. eapply H2; eauto. congruence.
  Qed.

  Lemma check_inputs_present : forall (inp : pdict) (st : state T), complete st inp -> check_inputs inp st = Ok tt.
  Proof.
    intros inp st. unfold check_inputs. generalize tt at 1 3. induction inp as [|[n p] inp IH]; intros t Hc; cbn [foldM]; [destruct t; auto|].
    cbn [fst]. destruct (Hc n p (or_introl eq_refl)) as (_ & _ & a & Ha). unfold dmem. rewrite Ha. cbn [bind].
    destruct t. apply IH. intros n' p' Hi. apply Hc. right; auto.
  Qed.

  (** What both calls do before array_call, and what array_call is given. *)
  Lemma raw_state_same : forall g inp (st1 st2 : state T), wf_state st1 -> wf_state st2 ->
    proper_inputs inp -> complete st1 inp -> known_units st1 inp -> no_repeated_dims st1 inp ->
    same_fields inp st1 st2 -> wildcard_dims st1 inp = wildcard_dims st2 inp ->
    raw_state g inp None st1 = raw_state g inp None st2 /\
    (forall raw outp ign, (exists r, raw_state g inp None st1 = Ok r) ->
       restore_data_arrays_with_properties raw outp st1 inp ign false =
       restore_data_arrays_with_properties raw outp st2 inp ign false).
  Proof.
    intros g inp st1 st2 Hwf1 Hwf2 Hpi Hc Hk Hrep Hs HW. pose proof (complete_same inp st1 st2 Hs Hc) as Hc2.
    pose proof (known_same inp st1 st2 Hs Hk) as Hk2. pose proof (same_fields_sym inp st1 st2 Hs) as Hs2.
    assert (Hrep2 : no_repeated_dims st2 inp) by (unfold no_repeated_dims in *; rewrite <- HW; auto).
    destruct (extraction_iff st1 inp Hwf1 (proj1 Hpi) Hc Hk Hrep) as (B1 & G1).
    destruct (extraction_iff st2 inp Hwf2 (proj1 Hpi) Hc2 Hk2 Hrep2) as (B2 & G2).
    assert (Hx : get_numpy_arrays_with_properties st1 inp = get_numpy_arrays_with_properties st2 inp /\
      ((exists r, get_numpy_arrays_with_properties st1 inp = Ok r) ->
       ~ (length_conflict st1 inp \/ unexpected_dim st1 inp \/ bad_units st1 inp))).
    { destruct (get_numpy_arrays_with_properties st1 inp) as [r1|e1] eqn:E1.
      - assert (Hno : ~ (length_conflict st1 inp \/ unexpected_dim st1 inp \/ bad_units st1 inp)).
        { intros Hb. specialize (B1 Hb). discriminate. }
        split; [|intros _; exact Hno].
        assert (Hno2 : ~ (length_conflict st2 inp \/ unexpected_dim st2 inp \/ bad_units st2 inp)).
        { intros Hb. apply Hno. apply (bad_same inp st2 st1); auto. }
        destruct G2 as (r2 & E2); try tauto. rewrite E2. f_equal.
        eapply (extract_same inp st1 st2); eauto.
      - split; [|intros (r & Hr); discriminate].
        destruct (get_numpy_arrays_with_properties st2 inp) as [r2|e2] eqn:E2.
        + assert (Hno2 : ~ (length_conflict st2 inp \/ unexpected_dim st2 inp \/ bad_units st2 inp)).
          { intros Hb. specialize (B2 Hb). discriminate. }
          destruct G1 as (r1 & Hr1); [| | |discriminate]; intros Hb; apply Hno2, (bad_same inp st1 st2); auto.
        + assert (Hb1 : e1 = EInvalidState /\ e2 = EInvalidState).
          { assert (Hdec : ~ ~ (e1 = EInvalidState /\ e2 = EInvalidState)).
            { intros Hn. destruct G1 as (r1 & Hr1); [| | |discriminate]; intros Hb; apply Hn;
                (assert (Hb1 : length_conflict st1 inp \/ unexpected_dim st1 inp \/ bad_units st1 inp) by tauto);
                specialize (B1 Hb1); apply (bad_same inp st1 st2 Hwf1 Hwf2 Hs) in Hb1; specialize (B2 Hb1); split; congruence. }
            destruct e1, e2; auto; exfalso; apply Hdec; intros [X Y]; discriminate. }
          destruct Hb1 as [-> ->]. auto. }
    destruct Hx as (Hx & Hsc). split.
    - unfold raw_state. rewrite !check_inputs_present by auto. cbn [bind]. rewrite Hx.
      destruct (get_numpy_arrays_with_properties st2 inp); cbn [bind]; auto.
      unfold dgetE. rewrite (proj1 Hs). auto.
    - intros raw outp ign (r & Hr). unfold raw_state in Hr. apply bind_ok in Hr as (_ & _ & Hr).
      apply bind_ok in Hr as (r0 & Hr0 & _). assert (Hno : ~ (length_conflict st1 inp \/ unexpected_dim st1 inp \/ bad_units st1 inp)) by (apply Hsc; eauto).
      assert (Hno2 : ~ (length_conflict st2 inp \/ unexpected_dim st2 inp \/ bad_units st2 inp)).
      { intros Hb. apply Hno, (bad_same inp st2 st1); auto. }
      apply restore_same; auto; apply usable_scan; auto; tauto.
  Qed.

  Lemma main_stored_order :
    (forall {U} g c (ac : U -> dict (rval T) -> U * res (dict (nd T) * dict (nd T))) u (st1 st2 : state T),
      t_packer c = None -> readable (t_inp c) st1 -> wf_state st2 ->
      same_fields (t_inp c) st1 st2 -> wildcard_dims st1 (t_inp c) = wildcard_dims st2 (t_inp c) ->
      tendency_call g c ac u st1 = tendency_call g c ac u st2) /\
    (forall {U} c (ac : U -> dict (rval T) -> U * res (dict (nd T))) u (st1 st2 : state T),
      readable (d_inp c) st1 -> wf_state st2 ->
      same_fields (d_inp c) st1 st2 -> wildcard_dims st1 (d_inp c) = wildcard_dims st2 (d_inp c) ->
      diagnostic_call c ac u st1 = diagnostic_call c ac u st2) /\
    (forall {U} g c (ac : U -> dict (rval T) -> Z -> U * res (dict (nd T) * dict (nd T))) u (st1 st2 : state T) dt,
      s_packer c = None -> readable (s_inp c) st1 -> wf_state st2 ->
      same_fields (s_inp c) st1 st2 -> wildcard_dims st1 (s_inp c) = wildcard_dims st2 (s_inp c) ->
      stepper_call g c ac u st1 dt = stepper_call g c ac u st2 dt).
  Proof.
    split; [|split].
    - intros U g c ac u st1 st2 Hpk (Hwf1 & Hpi & Hc & Hk & Hr) Hwf2 Hs HW.
      destruct (raw_state_same g (t_inp c) st1 st2) as (E & Er); auto. unfold tendency_call. rewrite Hpk, <- E.
      destruct (raise_if _ _) as [[]|]; cbn [bind]; auto.
      destruct (raw_state g (t_inp c) None st1) as [raw|] eqn:E1; auto.
      destruct (ac u raw) as [v [out|]]; cbn [bind]; auto. f_equal. unfold tendency_finish. rewrite Hpk. cbn [unpack_tracers bind].
      rewrite !(Er _ _ _ (ex_intro _ raw eq_refl)). auto.
    - intros U c ac u st1 st2 (Hwf1 & Hpi & Hc & Hk & Hr) Hwf2 Hs HW.
      destruct (raw_state_same empty_treg (d_inp c) st1 st2) as (E & Er); auto. unfold diagnostic_call. rewrite <- E.
      destruct (raise_if _ _) as [[]|]; cbn [bind]; auto.
      destruct (raw_state empty_treg (d_inp c) None st1) as [raw|] eqn:E1; auto.
      destruct (ac u raw) as [v [out|]]; cbn [bind]; auto. f_equal. unfold diagnostic_finish.
      rewrite !(Er _ _ _ (ex_intro _ raw eq_refl)). auto.
    - intros U g c ac u st1 st2 dt Hpk (Hwf1 & Hpi & Hc & Hk & Hr) Hwf2 Hs HW.
      destruct (raw_state_same g (s_inp c) st1 st2) as (E & Er); auto. unfold stepper_call. rewrite Hpk, <- E.
      destruct (raise_if _ _) as [[]|]; cbn [bind]; auto.
      destruct (raw_state g (s_inp c) None st1) as [raw|] eqn:E1; auto.
      destruct (ac u raw dt) as [v [[rd rn]|]]; cbn [bind]; auto. f_equal. unfold stepper_finish. rewrite Hpk. cbn [unpack_tracers bind].
      destruct (check_outputs (s_diag c) _ _ _) as [[]|]; cbn [bind]; auto.
      destruct (check_outputs (s_out c) _ _ _) as [[]|]; cbn [bind]; auto.
      destruct (if s_tid c then _ else _); cbn [bind]; auto.
      rewrite !(Er _ _ _ (ex_intro _ raw eq_refl)). auto.
  Qed.

  (** With at most one undeclared dim, the order in which '*' lists them cannot differ. *)
  Lemma main_one_wildcard : forall inp (st1 st2 : state T), wf_state st1 -> wf_state st2 ->
    same_fields inp st1 st2 -> length (wildcard_dims st1 inp) <= 1 ->
    wildcard_dims st1 inp = wildcard_dims st2 inp.
  Proof.
    intros inp st1 st2 Hwf1 Hwf2 Hs Hl. destruct (same_fields_columns inp st1 st2 Hwf1 Hwf2 Hs) as (_ & HW & _).
    assert (N2 : NoDup (wildcard_dims st2 inp)) by apply dedup_NoDup.
    destruct (wildcard_dims st1 inp) as [|w [|w' W]] eqn:E1; [| |simpl in Hl; lia].
    - destruct (wildcard_dims st2 inp) as [|v V]; auto. exfalso. apply (HW v). left; auto.
    - destruct (wildcard_dims st2 inp) as [|v V].
      + exfalso. apply (HW w). left; auto.
      + assert (v = w) as ->. { destruct (proj2 (HW v) (or_introl eq_refl)) as [<-|[]]; auto. }
        destruct V as [|v' V]; auto. exfalso.
        destruct (proj2 (HW v') (or_intror (or_introl eq_refl))) as [<-|[]].
        inversion N2 as [|? ? Hn _]. apply Hn. left; auto.
  Qed.
End Layout.
