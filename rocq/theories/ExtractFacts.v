(** Lemmas about get_numpy_arrays_with_properties. *)
From Coq Require Import String List Bool Arith ZArith Lia.
From Verif Require Import Prelude PreludeFacts ArithM NdArray NdFacts Units DataArrayM
  SpecUnits UnitsFacts Wildcard GetNp GetNpFacts SpecArrays WildcardFacts.
Import ListNotations.
Open Scope string_scope.
Open Scope nat_scope.
Open Scope list_scope.

Section Extract.
  Context {T : Type} {A : Arith T} {R : Registry}.

  Lemma to_units_dims : forall (a q : da T) u, to_units a u = Ok q ->
    dims q = dims a /\ shape (arr q) = shape (arr a).
  Proof.
    unfold to_units; intros a q u H. destruct (dget "units" (attrs a)); [|discriminate].
    apply bind_ok in H as (u1 & H1 & H). apply bind_ok in H as (u2 & H2 & H).
    destruct (negb _); [destruct (udim_eqb u1 u2); [|discriminate]|];
      injection H as <-; auto.
  Qed.

  Lemma to_units_wf : forall (a q : da T) u, wf_da a -> to_units a u = Ok q -> wf_da q.
  Proof.
    unfold to_units; intros a q u (H1 & H2 & H3) H. destruct (dget "units" (attrs a)); [|discriminate].
    apply bind_ok in H as (u1 & Hu1 & H). apply bind_ok in H as (u2 & Hu2 & H).
    destruct (negb _); [destruct (udim_eqb u1 u2); [|discriminate]|];
      injection H as <-; repeat split; auto. simpl. apply wf_nd_map; auto.
  Qed.

  Lemma to_units_dim_len : forall (a q : da T) u d, to_units a u = Ok q -> dim_len q d = dim_len a d.
  Proof. intros a q u d H. apply to_units_dims in H as [H1 H2]. unfold dim_len; congruence. Qed.

  Lemma get_array_ok : forall v u od dl (r : nd T), get_array v u od dl = Ok r ->
    exists a q, v = VDA a /\ to_units a u = Ok q /\ get_numpy_array q od dl = Ok r.
  Proof.
    unfold get_array; intros v u od dl r H. destruct v as [a|t]; [|discriminate].
    destruct (negb _); [discriminate|].
    apply bind_ok in H as (q & Hq & H). exists a, q. repeat split; auto.
    destruct (to_units a u) as [q'|e]; auto. destruct e; discriminate.
  Qed.

  (** ** Wildcard splicing and flattening *)
  Lemma splice_none : forall W ds, ~ In "*" ds -> splice_wildcard W ds = ds.
  Proof.
    induction ds as [|d ds IH]; simpl; intros H; auto.
    destruct (String.eqb d "*") eqn:E; [apply String.eqb_eq in E; subst; exfalso; auto|].
    f_equal; auto.
  Qed.

  Lemma splice_one : forall W pre post, ~ In "*" pre ->
    splice_wildcard W (pre ++ "*" :: post) = pre ++ W ++ post.
  Proof.
    induction pre as [|d pre IH]; simpl; intros post H; auto.
    destruct (String.eqb d "*") eqn:E; [apply String.eqb_eq in E; subst; exfalso; auto|].
    f_equal; auto.
  Qed.

  Lemma map_axis_id : forall W L l, ~ In "*" l -> map (axis_len W L) l = map L l.
  Proof.
    intros W L l H; apply map_ext_in; intros d Hd; unfold axis_len.
    destruct (String.eqb d "*") eqn:E; auto. apply String.eqb_eq in E; subst; contradiction.
  Qed.

  Lemma map_pos_id : forall W L c l, ~ In "*" l -> map (axis_pos W L c) l = map c l.
  Proof.
    intros W L c l H; apply map_ext_in; intros d Hd; unfold axis_pos.
    destruct (String.eqb d "*") eqn:E; auto. apply String.eqb_eq in E; subst; contradiction.
  Qed.

  Lemma flatten_spec : forall (b : nd T) (L : string -> nat) W pre post,
    wf_nd b -> shape b = map L (pre ++ W ++ post) -> ~ In "*" pre -> ~ In "*" post ->
    exists r, flatten_wildcard_dims b (length pre) (length pre + length W) = Ok r /\
      wf_nd r /\ shape r = map (axis_len W L) (pre ++ "*" :: post) /\
      forall c, at_ r (map (axis_pos W L c) (pre ++ "*" :: post)) = at_ b (map c (pre ++ W ++ post)).
  Proof.
    intros b L W pre post Hw Hsh Hp1 Hp2.
    assert (E1 : firstn (length pre) (shape b) = map L pre).
    { rewrite Hsh, map_app. rewrite firstn_app, firstn_all2 by (rewrite map_length; lia).
      rewrite map_length, Nat.sub_diag. simpl. apply app_nil_r. }
    assert (E2 : skipn (length pre) (shape b) = map L (W ++ post)).
    { rewrite Hsh, map_app. rewrite skipn_app, skipn_all2 by (rewrite map_length; lia).
      rewrite map_length, Nat.sub_diag. reflexivity. }
    assert (E3 : firstn (length W) (map L (W ++ post)) = map L W).
    { rewrite map_app, firstn_app, firstn_all2 by (rewrite map_length; lia).
      rewrite map_length, Nat.sub_diag. simpl. apply app_nil_r. }
    assert (E4 : skipn (length pre + length W) (shape b) = map L post).
    { rewrite Hsh, app_assoc, map_app, skipn_app, skipn_all2 by (rewrite map_length, app_length; lia).
      rewrite map_length, app_length, Nat.sub_diag. reflexivity. }
    assert (Hf : flatten_wildcard_dims b (length pre) (length pre + length W)
                 = reshape b (map L pre ++ [prod (map L W)] ++ map L post)).
    { unfold flatten_wildcard_dims.
      assert (Hlt : Nat.ltb (length (shape b)) (length pre + length W) = false).
      { apply Nat.ltb_ge. rewrite Hsh, map_length, !app_length. lia. }
      rewrite Hlt.
      assert (Hlt2 : Nat.ltb (length pre + length W) (length pre) = false) by (apply Nat.ltb_ge; lia).
      rewrite Hlt2.
      destruct (Nat.eqb (length pre) (length pre + length W)) eqn:E.
      - apply Nat.eqb_eq in E. assert (HW : W = []) by (destruct W; simpl in *; auto; lia).
        subst W. rewrite E1, E2. reflexivity.
      - replace (length pre + length W - length pre) with (length W) by lia.
        rewrite E1, E2, E3, E4. reflexivity. }
    assert (Hp : prod (map L pre ++ [prod (map L W)] ++ map L post) = prod (shape b)).
    { rewrite prod_flatten, Hsh, !map_app. reflexivity. }
    rewrite Hf, reshape_succeeds by auto.
    eexists; split; [reflexivity|]. split; [|split].
    - unfold wf_nd in *; cbn [shape data]. rewrite Hp; auto.
    - simpl. rewrite map_app. simpl. rewrite !map_axis_id by auto. reflexivity.
    - intros c. unfold at_. cbn [shape data]. f_equal.
      rewrite map_app. simpl map. rewrite !map_pos_id by auto.
      change (axis_pos W L c "*") with (ravel (map L W) (map c W)).
      rewrite Hsh, !map_app.
      apply (ravel_flatten (map L pre) (map c pre) (map L W) (map c W) (map L post) (map c post));
        rewrite !map_length; reflexivity.
  Qed.

  Lemma one_star_index : forall ds, one_star ds ->
    match index_of "*" ds with
    | None => ~ In "*" ds
    | Some i => exists pre post, ds = pre ++ "*" :: post /\ length pre = i /\
                                 ~ In "*" pre /\ ~ In "*" post
    end.
  Proof.
    intros ds [H|(pre & post & -> & H)].
    - rewrite (proj2 (index_of_none _ _) H). auto.
    - assert (H1 : ~ In "*" pre) by (intros Hi; apply H, in_app_iff; auto).
      assert (H2 : ~ In "*" post) by (intros Hi; apply H, in_app_iff; auto).
      rewrite index_of_app_cons by auto. exists pre, post; auto.
  Qed.

  Lemma undeclared_In : forall (st : state T) pd name p ds a d,
    listed st pd name p ds a -> In d (dims a) -> ~ In d ds -> In d (wildcard_dims st pd).
  Proof.
    intros st pd name p ds a d (Hin & Hds & Ha) Hd Hn.
    unfold wildcard_dims. apply dedup_In, in_flat_map. exists (name, p). split; auto.
    unfold undeclared; simpl. rewrite Hds, Ha. apply filter_In. split; auto.
    apply negb_true_iff, mem_false; auto.
  Qed.

  Lemma wildcard_dims_no_star : forall (st : state T) pd, wf_state st ->
    ~ In "*" (wildcard_dims st pd).
  Proof.
    intros st pd Hwf H. unfold wildcard_dims in H. apply dedup_In, in_flat_map in H as ((n & p) & Hi & H).
    unfold undeclared in H; simpl in H. destruct (p_dims p); [|contradiction].
    destruct (dget n st) as [[a|]|] eqn:E; try contradiction.
    apply filter_In in H as [H _]. apply (Hwf _ _ E); auto.
  Qed.

  Lemma extract_step_ok : forall st pd wn dl out name p out',
    wf_state st -> wf_pdict pd ->
    get_wildcard_matches_and_dim_lengths st pd = Ok (wn, dl) ->
    In (name, p) pd ->
    extract_step st wn dl out (name, p) = Ok out' ->
    exists r, out' = dset (raw_name name p) r out /\
      extracted st pd (fun d => or1 (dget d dl)) name p r.
  Proof.
    intros st pd wn dl out name p out' Hwf Hwp Hscan Hin H.
    apply wildcard_matches_spec in Hscan as ((Hc & Hu & HL & Hlen & _) & Hwn); auto.
    unfold extract_step in H; simpl in H.
    apply bind_ok in H as ((ds & u) & Hdu & H).
    unfold dims_and_units in Hdu. destruct (p_dims p) as [ds'|] eqn:Hds; [|discriminate].
    destruct (p_units p) as [u'|] eqn:Hu'; [|discriminate]. injection Hdu as -> ->.
    apply bind_ok in H as (v & Hv & H). apply dgetE_ok in Hv.
    apply bind_ok in H as (r & Hr & H). injection H as <-.
    exists r; split; auto.
    set (L := fun d => or1 (dget d dl)) in *. set (W := wildcard_dims st pd) in *.
    specialize (Hwp _ _ _ Hin Hds). apply one_star_index in Hwp.
    destruct (index_of "*" ds) as [i|] eqn:Ei.
    - destruct wn as [names|]; [|discriminate].
      assert (names = W) as ->.
      { destruct (existsb _ pd); [injection Hwn as ->; reflexivity|discriminate]. }
      apply bind_ok in Hr as (b & Hb & Hr).
      apply get_array_ok in Hb as (a & q & -> & Hq & Hb).
      destruct Hwp as (pre & post & -> & <- & Hp1 & Hp2).
      rewrite splice_one in Hb by auto.
      destruct (Hwf _ _ Hv) as [Hwa Hstar].
      assert (Hli : listed st pd name p (pre ++ "*" :: post) a) by (repeat split; auto).
      assert (Hincl : incl (dims q) (pre ++ W ++ post)).
      { destruct (to_units_dims _ _ _ Hq) as [-> _]. intros d Hd.
        destruct (In_dec_str d (pre ++ "*" :: post)) as [Hi|Hni].
        - apply in_app_iff in Hi as [Hi|[<-|Hi]]; rewrite !in_app_iff; auto; contradiction.
        - assert (HW : In d W) by (eapply undeclared_In; eauto). rewrite !in_app_iff; auto. }
      assert (Hlen' : forall d, In d (dims q) -> dget d dl = dim_len q d).
      { intros d Hd. rewrite (to_units_dim_len _ _ _ _ Hq).
        eapply Hlen; eauto. destruct (to_units_dims _ _ _ Hq) as [<- _]; auto. }
      destruct (get_numpy_array_spec q (pre ++ W ++ post) dl (to_units_wf _ _ _ Hwa Hq) Hincl Hlen' b Hb)
        as (Hwb & Hsb & Hab).
      destruct (flatten_spec b L W pre post Hwb Hsb Hp1 Hp2) as (r' & Hr' & Hwr & Hsr & Har).
      rewrite Hr' in Hr. injection Hr as ->.
      exists (pre ++ "*" :: post), u, a, q. repeat split; auto.
      intros c Hc'. rewrite Har. apply Hab.
      intros d Hd. apply in_app_iff in Hd. rewrite in_app_iff in Hd.
      assert (Hs : forall x, In x (pre ++ "*" :: post) -> x <> "*" -> c x < L x).
      { intros x Hx Hne. specialize (Hc' x Hx). destruct (String.eqb x "*") eqn:E; auto.
        apply String.eqb_eq in E; contradiction. }
      destruct Hd as [Hd|[Hd|Hd]].
      + apply Hs; [apply in_app_iff; auto|intros ->; contradiction].
      + specialize (Hc' "*" ltac:(apply in_app_iff; right; left; auto)). simpl in Hc'.
        exact (Hc' d Hd).
      + apply Hs; [apply in_app_iff; right; right; auto|intros ->; contradiction].
    - apply get_array_ok in Hr as (a & q & -> & Hq & Hb).
      destruct (Hwf _ _ Hv) as [Hwa Hstar].
      assert (Hli : listed st pd name p ds a) by (repeat split; auto).
      assert (Hincl : incl (dims q) ds).
      { destruct (to_units_dims _ _ _ Hq) as [-> _]. intros d Hd.
        destruct (In_dec_str d ds); auto. exfalso. apply Hu.
        exists name, p, ds, a, d. auto. }
      assert (Hlen' : forall d, In d (dims q) -> dget d dl = dim_len q d).
      { intros d Hd. rewrite (to_units_dim_len _ _ _ _ Hq).
        eapply Hlen; eauto. destruct (to_units_dims _ _ _ Hq) as [<- _]; auto. }
      destruct (get_numpy_array_spec q ds dl (to_units_wf _ _ _ Hwa Hq) Hincl Hlen' r Hb)
        as (Hwr & Hsr & Har).
      exists ds, u, a, q. repeat split; auto.
      + rewrite map_axis_id; auto.
      + intros c Hc'. rewrite map_pos_id by auto. apply Har. intros d Hd.
        specialize (Hc' d Hd). destruct (String.eqb d "*") eqn:E; auto.
        apply String.eqb_eq in E; subst; contradiction.
  Qed.

  Lemma extract_fold_ok : forall (Q : string -> props -> nd T -> Prop) step,
    forall l out out',
    (forall out name p out', In (name, p) l -> step out (name, p) = Ok out' ->
       exists r, out' = dset (raw_name name p) r out /\ Q name p r) ->
    foldM step l out = Ok out' ->
    NoDup (keys out ++ map (fun np => raw_name (fst np) (snd np)) l) ->
    keys out' = keys out ++ map (fun np => raw_name (fst np) (snd np)) l /\
    (forall k, In k (keys out) -> dget k out' = dget k out) /\
    (forall name p, In (name, p) l -> exists r, dget (raw_name name p) out' = Some r /\ Q name p r).
  Proof.
    intros Q step; induction l as [|[name p] l IH]; intros out out' Hstep H Hnd; simpl in H.
    - injection H as <-. simpl. rewrite app_nil_r. repeat split; auto. intros ? ? [].
    - apply bind_ok in H as (o1 & H1 & H).
      destruct (Hstep _ _ _ _ (or_introl eq_refl) H1) as (r & -> & HQ).
      simpl in Hnd.
      assert (Hfresh : ~ In (raw_name name p) (keys out)).
      { intros Hi. apply NoDup_remove_2 in Hnd. apply Hnd, in_app_iff; auto. }
      assert (Hk : keys (dset (raw_name name p) r out) = keys out ++ [raw_name name p]).
      { rewrite keys_dset. apply dmem_false in Hfresh. rewrite Hfresh. reflexivity. }
      apply IH in H.
      + destruct H as (Hkeys & Hold & Hnew). repeat split.
        * rewrite Hkeys, Hk, <- app_assoc. reflexivity.
        * intros k Hi. rewrite Hold by (rewrite Hk, in_app_iff; auto).
          apply dget_dset_neq. intros ->; contradiction.
        * intros n q [E|Hi]; [|auto]. injection E as <- <-. exists r; split; auto.
          rewrite Hold by (rewrite Hk, in_app_iff; right; left; auto). apply dget_dset_eq.
      + intros o n q o' Hi Hs. eapply Hstep; eauto. right; auto.
      + rewrite Hk, <- app_assoc. exact Hnd.
  Qed.

  (** C01 and C02 in one statement. *)
  Lemma extraction_spec : forall st pd raw,
    wf_state st -> wf_pdict pd ->
    NoDup (map (fun np => raw_name (fst np) (snd np)) pd) ->
    get_numpy_arrays_with_properties st pd = Ok raw ->
    exists L, common_lengths st pd L /\
      keys raw = map (fun np => raw_name (fst np) (snd np)) pd /\
      forall name p, In (name, p) pd ->
        exists r, dget (raw_name name p) raw = Some r /\ extracted st pd L name p r.
  Proof.
    intros st pd raw Hwf Hwp Hnd H. unfold get_numpy_arrays_with_properties in H.
    apply bind_ok in H as ((wn & dl) & Hscan & H).
    exists (fun d => or1 (dget d dl)).
    pose proof Hscan as Hs. apply wildcard_matches_spec in Hs as ((_ & _ & HL & _) & _); auto.
    split; auto.
    destruct (extract_fold_ok (extracted st pd (fun d => or1 (dget d dl)))
                (extract_step st wn dl) pd [] raw) as (Hk & _ & Hr); auto.
    intros out name p out' Hi Hs. eapply extract_step_ok; eauto.
  Qed.

  (** One step of the loop: succeeds if the units convert, else InvalidStateError. *)
  Lemma extract_step_total : forall st pd wn dl out name p ds u a,
    wf_state st -> wf_pdict pd -> ~ unexpected_dim st pd ->
    (forall name p ds a d, listed st pd name p ds a -> In d (dims a) -> dget d dl = dim_len a d) ->
    wn = (if existsb (fun np => has_wildcard (snd np)) pd
          then Some (wildcard_dims st pd) else None) ->
    In (name, p) pd -> p_dims p = Some ds -> p_units p = Some u -> dget name st = Some (VDA a) ->
    NoDup (expand_dims (wildcard_dims st pd) ds) ->
    ((exists q, to_units a u = Ok q) -> exists o, extract_step st wn dl out (name, p) = Ok o) /\
    (dget "units" (attrs a) = None \/ to_units a u = Err EValue ->
       extract_step st wn dl out (name, p) = Err EInvalidState).
  Proof.
    intros st pd wn dl out name p ds u a Hwf Hwp Hnu Hlen Hwn Hin Hds Hu Ha Hnd.
    unfold extract_step; cbn [fst snd]. unfold dims_and_units. rewrite Hds, Hu. cbn [bind].
    unfold dgetE. rewrite Ha. cbn [bind].
    pose proof (one_star_index ds (Hwp _ _ _ Hin Hds)) as Hos.
    assert (Hwn' : index_of "*" ds <> None -> wn = Some (wildcard_dims st pd)).
    { intros Hi. assert (Hex : existsb (fun np => has_wildcard (snd np)) pd = true).
      { apply existsb_exists. exists (name, p). split; auto. unfold has_wildcard; simpl.
        rewrite Hds. apply mem_In. destruct (In_dec_str "*" ds) as [|Hn]; auto.
        exfalso. apply Hi. apply index_of_none; auto. }
      rewrite Hex in Hwn. auto. }
    split.
    - intros (q & Hq).
      assert (Hga : forall od, incl (dims a) od -> NoDup od -> exists r, get_array (VDA a) u od dl = Ok r /\
                  shape r = map (fun d => or1 (dget d dl)) od /\ wf_nd r).
      { intros od Hod Hndo. destruct (Hwf _ _ Ha) as [Hwa _].
        destruct (to_units_dims _ _ _ Hq) as [Hdq Hsq].
        assert (Hlen' : forall d, In d (dims q) -> dget d dl = dim_len q d).
        { intros d Hd. rewrite (to_units_dim_len _ _ _ _ Hq). rewrite Hdq in Hd.
          eapply Hlen; eauto. repeat split; eauto. }
        assert (Hod' : incl (dims q) od) by (rewrite Hdq; auto).
        assert (Hwq : wf_da q) by (eapply to_units_wf; eauto).
        destruct (get_numpy_array_succeeds q od dl Hwq Hod' Hlen' Hndo) as (r & Hr).
        exists r. split.
        - unfold get_array. rewrite Hq.
          assert (Hun : dmem "units" (attrs a) = true).
          { unfold to_units in Hq. unfold dmem. destruct (dget "units" (attrs a)); auto; discriminate. }
          rewrite Hun. simpl. auto.
        - destruct (get_numpy_array_spec q od dl Hwq Hod' Hlen' r Hr) as (Hw & Hs & _); auto. }
      assert (Hid : forall l, ~ In "*" l -> flat_map (fun d => if String.eqb d "*" then wildcard_dims st pd else [d]) l = l).
      { clear. induction l as [|x l IH]; simpl; intros H; auto.
        destruct (String.eqb x "*") eqn:E; [apply String.eqb_eq in E; subst; exfalso; auto|].
        simpl. f_equal; auto. }
      destruct (index_of "*" ds) as [i|] eqn:Ei.
      + destruct Hos as (pre & post & -> & <- & Hp1 & Hp2).
        rewrite Hwn' by discriminate.
        rewrite splice_one by auto.
        destruct (Hga (pre ++ wildcard_dims st pd ++ post)) as (b & Hb & Hsb & Hwb).
        * intros d Hd. destruct (In_dec_str d (pre ++ "*" :: post)) as [Hi'|Hni].
          -- apply in_app_iff in Hi' as [Hi'|[<-|Hi']]; rewrite !in_app_iff; auto.
             exfalso. apply (Hwf _ _ Ha); auto.
          -- rewrite !in_app_iff. right; left. eapply undeclared_In; eauto. repeat split; eauto.
        * unfold expand_dims in Hnd. rewrite flat_map_app in Hnd. simpl in Hnd.
          rewrite !Hid in Hnd by auto. exact Hnd.
        * rewrite Hb. simpl.
          destruct (flatten_spec b (fun d => or1 (dget d dl)) (wildcard_dims st pd) pre post Hwb Hsb Hp1 Hp2)
            as (r & Hr & _). rewrite Hr. simpl. eauto.
      + destruct (Hga ds) as (b & Hb & _).
        * intros d Hd. destruct (In_dec_str d ds); auto. exfalso. apply Hnu.
          exists name, p, ds, a, d. repeat split; auto.
        * unfold expand_dims in Hnd. rewrite Hid in Hnd by auto. auto.
        * rewrite Hb. simpl. eauto.
    - intros Hbad.
      assert (Hga : forall od, get_array (VDA a) u od dl = Err EInvalidState).
      { intros od. unfold get_array, dmem. destruct Hbad as [->| ->]; auto.
        destruct (dget "units" (attrs a)); auto. }
      destruct (index_of "*" ds) as [i|] eqn:Ei.
      + rewrite Hwn' by discriminate. rewrite Hga. reflexivity.
      + rewrite Hga. reflexivity.
  Qed.

  (** Extraction succeeds when the state is consistent, units convert, and no
      expanded dims list repeats a name. *)
  Lemma extraction_succeeds : forall st pd,
    wf_state st -> wf_pdict pd -> complete st pd ->
    ~ length_conflict st pd -> ~ unexpected_dim st pd ->
    (forall name p ds u a, In (name, p) pd -> p_dims p = Some ds -> p_units p = Some u ->
       dget name st = Some (VDA a) ->
       (exists q, to_units a u = Ok q) /\ NoDup (expand_dims (wildcard_dims st pd) ds)) ->
    exists raw, get_numpy_arrays_with_properties st pd = Ok raw.
  Proof.
    intros st pd Hwf Hwp Hc Hnc Hnu Hall.
    destruct (wildcard_matches_iff st pd Hwf Hc) as [_ Hok].
    destruct (Hok Hnc Hnu) as (wn & dl & Hscan).
    unfold get_numpy_arrays_with_properties. rewrite Hscan. simpl.
    apply wildcard_matches_spec in Hscan as ((_ & _ & _ & Hlen & _) & Hwn); auto.
    assert (G : forall l out, incl l pd -> exists raw, foldM (extract_step st wn dl) l out = Ok raw).
    { induction l as [|[name p] l IH]; intros out Hi; simpl; [eauto|].
      assert (Hin : In (name, p) pd) by (apply Hi; left; auto).
      destruct (Hc name p Hin) as ((ds & Hds) & (u & Hu) & (a & Ha)).
      destruct (Hall name p ds u a Hin Hds Hu Ha) as [Hq Hnd].
      destruct (extract_step_total st pd wn dl out name p ds u a) as [Hstep _]; auto.
      destruct (Hstep Hq) as (o & Ho). rewrite Ho. simpl.
      apply IH. intros x Hx; apply Hi; right; auto. }
    apply G. apply incl_refl.
  Qed.

  Lemma to_units_cases : forall (a : da T) u y, parse u = Some y ->
    (forall own, dget "units" (attrs a) = Some own -> exists x, parse own = Some x) ->
    (exists q, to_units a u = Ok q) \/
    (dget "units" (attrs a) = None \/ to_units a u = Err EValue) /\
    (dget "units" (attrs a) = None \/
       exists own x y', dget "units" (attrs a) = Some own /\ parse own = Some x /\ parse u = Some y' /\
         u_dim x <> u_dim y').
  Proof.
    intros a u y Hu Hown. destruct (dget "units" (attrs a)) as [own|] eqn:E; [|right; auto].
    destruct (Hown own eq_refl) as (x & Hx).
    unfold to_units. rewrite E. unfold parseE. rewrite Hx, Hu. simpl.
    destruct (udim_eqb x y) eqn:Ed.
    - left. destruct (negb (one_eqb x y)); eauto.
    - right. unfold one_eqb. rewrite Ed. simpl. split; auto. right. exists own, x, y.
      repeat split; auto. intros Hd. apply udim_eqb_eq in Hd. congruence.
  Qed.

  Lemma bad_units_to_units : forall (a : da T) u,
    (dget "units" (attrs a) = None \/
       exists own x y, dget "units" (attrs a) = Some own /\ parse own = Some x /\ parse u = Some y /\
         u_dim x <> u_dim y) -> forall q, to_units a u <> Ok q.
  Proof.
    intros a u [E|(own & x & y & E & Hx & Hy & Hd)] q; unfold to_units; rewrite E; [discriminate|].
    unfold parseE. rewrite Hx, Hy. simpl.
    assert (Ed : udim_eqb x y = false).
    { destruct (udim_eqb x y) eqn:Ed; auto. apply udim_eqb_eq in Ed; contradiction. }
    unfold one_eqb. rewrite Ed. simpl. discriminate.
  Qed.

  (** C03 for the whole extraction. *)
  Lemma extraction_iff : forall st pd,
    wf_state st -> wf_pdict pd -> complete st pd -> known_units st pd -> no_repeated_dims st pd ->
    (length_conflict st pd \/ unexpected_dim st pd \/ bad_units st pd ->
       get_numpy_arrays_with_properties st pd = Err EInvalidState) /\
    (~ length_conflict st pd -> ~ unexpected_dim st pd -> ~ bad_units st pd ->
       exists raw, get_numpy_arrays_with_properties st pd = Ok raw).
  Proof.
    intros st pd Hwf Hwp Hc Hk Hnr. split.
    - intros Hbad.
      destruct (wildcard_matches_iff st pd Hwf Hc) as [Herr _].
      unfold get_numpy_arrays_with_properties.
      destruct (get_wildcard_matches_and_dim_lengths st pd) as [[wn dl]|e] eqn:Hscan; simpl.
      2:{ apply wildcard_err in Hscan; auto. congruence. }
      destruct Hbad as [H|[H|Hb]]; [discriminate (Herr (or_introl H))|discriminate (Herr (or_intror H))|].
      pose proof Hscan as Hs. apply wildcard_matches_spec in Hs as ((_ & Hnu & _ & Hlen & _) & Hwn); auto.

      assert (G : forall l out, incl l pd -> (exists name p u a, In (name, p) l /\ p_units p = Some u /\
         dget name st = Some (VDA a) /\ forall q, to_units a u <> Ok q) ->
         foldM (extract_step st wn dl) l out = Err EInvalidState).
      { induction l as [|[name p] l IH]; intros out Hi (nm & p' & u & a & Hin & Hu & Ha & Hno).
        - destruct Hin.
        - cbn [foldM].
          assert (Hin0 : In (name, p) pd) by (apply Hi; left; auto).
          destruct (Hc name p Hin0) as ((ds0 & Hds0) & (u0 & Hu0) & (a0 & Ha0)).
          destruct (Hk name p Hin0) as [Hk1 Hk2]. destruct (Hk1 u0 Hu0) as (y0 & Hy0).
          assert (Hnr0 : NoDup (expand_dims (wildcard_dims st pd) ds0)) by (eapply Hnr; eauto).
          destruct (to_units_cases a0 u0 y0 Hy0) as [(q0 & Hq0)|(Hq0 & _)]; [eauto| |].
          + destruct Hin as [E|Hin].
            * injection E as -> ->. rewrite Hu in Hu0; injection Hu0 as <-.
              rewrite Ha in Ha0; injection Ha0 as <-. exfalso; eapply Hno; eauto.
            * destruct (extract_step_total st pd wn dl out name p ds0 u0 a0) as [Hstep _]; auto.
              destruct Hstep as (o & ->); eauto. cbn [bind]. apply IH.
              -- intros x Hx; apply Hi; right; auto.
              -- exists nm, p', u, a; auto.
          + destruct (extract_step_total st pd wn dl out name p ds0 u0 a0) as [_ Hstep]; auto.
            rewrite Hstep; auto. }
      apply G; [apply incl_refl|].
      destruct Hb as (name & p & u & a & H1 & H2 & H3 & H4). exists name, p, u, a. repeat split; auto.
      apply bad_units_to_units; auto.
    - intros Hnc Hnu Hnb. apply extraction_succeeds; auto.
      intros name p ds u a Hin Hds Hu Ha. split; [|eapply Hnr; eauto].
      destruct (Hk name p Hin) as [Hk1 Hk2]. destruct (Hk1 u Hu) as (y & Hy).
      destruct (to_units_cases a u y Hy) as [H|(_ & H)]; eauto.
      exfalso. apply Hnb. exists name, p, u, a; auto.
  Qed.
End Extract.
