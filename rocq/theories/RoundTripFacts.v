(** Extracting and restoring with the same properties. *)
From Coq Require Import String List Bool Arith ZArith Lia.
From Verif Require Import Prelude PreludeFacts ArithM NdArray NdFacts Units DataArrayM
  Wildcard GetNp GetNpFacts SpecArrays WildcardFacts ExtractFacts Restore RestoreFacts.
Import ListNotations.
Open Scope string_scope.
Open Scope nat_scope.
Open Scope list_scope.

Section RoundTrip.
  Context {T : Type} {A : Arith T} {R : Registry}.

  Lemma extract_dims_all : forall inp ign pd acc,
    (forall name p, In (name, p) pd -> ~ In name ign ->
       (exists ds, p_dims p = Some ds \/
          p_dims p = None /\ exists q, dget name inp = Some q /\ p_dims q = Some ds)) ->
    exists dd, foldM (extract_dims_step inp ign) pd acc = Ok dd.
  Proof.
    induction pd as [|[name p] pd IH]; intros acc H; simpl; [eauto|].
    assert (Hr : forall n q, In (n, q) pd -> ~ In n ign ->
       (exists ds, p_dims q = Some ds \/
          p_dims q = None /\ exists q', dget n inp = Some q' /\ p_dims q' = Some ds))
      by (intros n q Hi; apply (H n q); right; auto).
    unfold extract_dims_step at 1. simpl.
    destruct (mem name ign) eqn:Em; [simpl; apply IH; auto|].
    apply mem_false in Em.
    destruct (H name p (or_introl eq_refl) Em) as (ds & [->|(-> & q & -> & ->)]); simpl; apply IH; auto.
  Qed.

  (** The quantity obtained by restoring raw array [ra]. *)
  Definition rebuilt (W : list string) (L : string -> nat) (ds : list string) (u : string)
      (ra : nd T) : da T :=
    mkda (expand_dims W ds) (mknd (map L (expand_dims W ds)) (data ra)) [("units", u)].

  Lemma rebuilt_at : forall W L ds u ra c, one_star ds ->
    shape ra = map (axis_len W L) ds ->
    da_at (rebuilt W L ds u ra) c = at_ ra (map (axis_pos W L c) ds).
  Proof.
    intros W L ds u ra c Hos Hsh. unfold da_at, at_, rebuilt; cbn [dims arr shape data]. f_equal.
    rewrite Hsh. pose proof (one_star_index ds Hos) as Hi.
    destruct (index_of "*" ds) as [i|].
    - destruct Hi as (pre & post & -> & _ & Hpre & Hpost).
      rewrite expand_dims_one by auto.
      rewrite !map_app. simpl map. rewrite !map_axis_id, !map_pos_id by auto.
      unfold axis_len, axis_pos; simpl. symmetry.
      apply (ravel_flatten (map L pre) (map c pre) (map L W) (map c W) (map L post) (map c post));
        rewrite !map_length; reflexivity.
    - rewrite expand_dims_none by auto. rewrite map_axis_id, map_pos_id by auto. reflexivity.
  Qed.

  Lemma rebuilt_wf : forall W L ds u ra, one_star ds -> wf_nd ra ->
    shape ra = map (axis_len W L) ds -> wf_nd (arr (rebuilt W L ds u ra)).
  Proof.
    intros W L ds u ra Hos Hw Hsh. unfold wf_nd, rebuilt in *; cbn [arr shape data]. rewrite Hw, Hsh.
    pose proof (one_star_index ds Hos) as Hi.
    destruct (index_of "*" ds) as [i|].
    - destruct Hi as (pre & post & -> & _ & Hpre & Hpost).
      rewrite expand_dims_one by auto. rewrite !map_app. simpl map.
      rewrite !map_axis_id by auto. unfold axis_len; simpl.
      apply (prod_flatten (map L pre) (map L W) (map L post)).
    - rewrite expand_dims_none, map_axis_id by auto. reflexivity.
  Qed.

  Lemma in_combine_map2 : forall {B C} (f : B -> C) l d n,
    In (d, n) (combine l (map f l)) -> n = f d /\ In d l.
  Proof.
    induction l as [|x l IH]; simpl; intros d n H; [contradiction|].
    destruct H as [E|H].
    - injection E as <- <-; auto.
    - apply IH in H as [H1 H2]; auto.
  Qed.

  Lemma restore_step_rebuilds : forall raw outp inp W (L : string -> nat) ign name p ds u ra dl out,
    ~ In name ign ->
    one_star ds ->
    dget name outp = Some p -> p_units p = Some u ->
    dget (out_key outp inp name) raw = Some ra ->
    shape ra = map (axis_len W L) ds ->
    (forall d n, dget d dl = Some n -> L d = n) ->
    (In "*" ds -> forall d, In d W -> dmem d dl = true) ->
    exists dl', restore_step raw outp inp (if mem "*" ds then Some W else None) ign (dl, out) (name, ds)
      = Ok (dl', dset name (rebuilt W L ds u ra) out) /\
      (forall d n, dget d dl' = Some n -> L d = n) /\ (forall d, dmem d dl = true -> dmem d dl' = true).
  Proof.
    intros raw outp inp W L ign name p ds u ra dl out Hign Hos Hp Hu Hra Hsh HL HW.
    unfold restore_step. apply mem_false in Hign. rewrite Hign.
    assert (Hrn := get_alias_out_key name outp inp p Hp).
    rewrite Hrn. cbn [bind].
    pose proof (one_star_index ds Hos) as Hi.
    destruct (mem "*" ds) eqn:Es.
    - unfold dgetE. rewrite Hra. cbn [bind].
      apply mem_In in Es.
      destruct (note_new_dims_spec ds (shape ra) dl) as (N1 & N2 & N3).
      set (dl' := note_new_dims ds (shape ra) dl) in *.
      assert (HL' : forall d n, dget d dl' = Some n -> L d = n).
      { intros d n E.
        apply N3 in E as [E|[Hne E]]; auto.
        rewrite Hsh in E. apply in_combine_map2 in E as [E _]. simpl. rewrite E.
        unfold axis_len. apply String.eqb_neq in Hne. rewrite Hne. reflexivity. }
      assert (Hmem : forall d, dmem d dl = true -> dmem d dl' = true).
      { intros d Hd. unfold dmem in *. destruct (dget d dl) eqn:E; [|discriminate].
        apply N1 in E. rewrite E; auto. }
      unfold fill_dims_wildcard.
      destruct (index_of "*" ds) as [i|] eqn:Ei; [|contradiction].
      destruct Hi as (pre & post & -> & _ & Hpre & Hpost).
      assert (Hall : forall d, In d (pre ++ W ++ post) -> dmem d dl' = true).
      { intros d Hd. rewrite !in_app_iff in Hd.
        assert (Hne : In d (pre ++ post) -> d <> "*").
        { intros H ->. apply in_app_iff in H as [H|H]; auto. }
        assert (Hlen : length (pre ++ "*" :: post) = length (shape ra)) by (rewrite Hsh, map_length; auto).
        destruct Hd as [Hd|[Hd|Hd]].
        - apply N2; auto; [apply in_app_iff; auto|apply Hne, in_app_iff; auto].
        - auto.
        - apply N2; auto; [apply in_app_iff; right; right; auto|apply Hne, in_app_iff; auto]. }
      rewrite fill_dims_star_ok; auto.
      cbn [bind]. unfold expand_array_wildcard_dims.
      rewrite (map_ext_in _ L).
      2:{ intros d Hd. apply Hall in Hd. unfold dmem in Hd. destruct (dget d dl') eqn:E; [|discriminate].
          apply HL' in E. simpl. auto. }
      rewrite reshape_succeeds.
      + cbn [bind]. unfold dgetE. rewrite Hp. cbn [bind]. rewrite Hu. cbn [bind].
        unfold create_quantity. cbn [shape]. rewrite map_length, Nat.eqb_refl. cbn [bind].
        exists dl'. split; [|split; auto].
        unfold rebuilt. rewrite expand_dims_one by auto. reflexivity.
      + rewrite Hsh, !map_app. simpl map. rewrite !map_axis_id by auto.
        unfold axis_len; simpl. symmetry. apply (prod_flatten (map L pre) (map L W) (map L post)).
    - unfold dgetE. rewrite Hra. cbn [bind]. apply mem_false in Es.
      rewrite check_array_shape_succeeds.
      + cbn [bind]. rewrite Hp. cbn [bind]. rewrite Hu. cbn [bind].
        unfold create_quantity. rewrite Hsh, map_length, Nat.eqb_refl. cbn [bind].
        exists dl. split; [|split; auto].
        unfold rebuilt. rewrite expand_dims_none by auto.
        rewrite <- (map_axis_id W L ds Es), <- Hsh. destruct ra; reflexivity.
      + rewrite Hsh, map_length; auto.
      + intros d n l Hin Hd. rewrite Hsh in Hin. apply in_combine_map2 in Hin as [-> Hin].
        unfold axis_len. destruct (String.eqb d "*") eqn:E; [apply String.eqb_eq in E; subst; contradiction|].
        first [apply HL; exact Hd | symmetry; apply HL; exact Hd].
  Qed.

  Lemma declared_dims_fun : forall outp inp name ds1 ds2,
    declared_dims outp inp name ds1 -> declared_dims outp inp name ds2 -> ds1 = ds2.
  Proof.
    intros outp inp name ds1 ds2 (p1 & H1 & D1) (p2 & H2 & D2).
    rewrite H1 in H2; injection H2 as <-.
    destruct D1 as [D1|(D1 & q1 & Q1 & E1)], D2 as [D2|(D2 & q2 & Q2 & E2)]; congruence.
  Qed.

  Lemma restore_succeeds : forall st raw outp inp ign b L,
    wf_state st -> NoDup (keys outp) ->
    complete st inp -> ~ length_conflict st inp -> ~ unexpected_dim st inp ->
    (forall nm p ds a d n, listed st inp nm p ds a -> has_dim a d n -> L d = n) ->
    (forall name p, dget name outp = Some p -> ~ ignored raw outp ign b name ->
       exists ds u ra, restorable raw st outp inp L name p ds u ra) ->
    exists out, restore_data_arrays_with_properties raw outp st inp ign b = Ok out /\
      keys out = filter (fun n => negb (mem n (if b then filter (fun n => negb (dmem n raw)) (keys outp) ++ ign
                                              else ign))) (keys outp) /\
      forall name p ds u ra, dget name outp = Some p -> ~ ignored raw outp ign b name ->
        restorable raw st outp inp L name p ds u ra ->
        dget name out = Some (rebuilt (wildcard_dims st inp) L ds u ra).
  Proof.
    intros st raw outp inp ign b L Hwf Hnd Hc Hnc Hnu HL Hall.
    destruct (wildcard_matches_iff st inp Hwf Hc) as [_ Hok].
    destruct (Hok Hnc Hnu) as (wn & dl & Hscan).
    unfold restore_data_arrays_with_properties. rewrite Hscan. cbn [bind].
    set (ignore := if b then filter (fun n => negb (dmem n raw)) (keys outp) ++ ign else ign).
    assert (Hig : forall n, In n ignore <-> ignored raw outp ign b n) by (intros; apply ignored_iff).
    apply wildcard_matches_spec in Hscan as ((_ & _ & _ & Hlen & Hback) & Hwn); auto.
    unfold extract_output_dims_properties.
    destruct (extract_dims_all inp ignore outp []) as (dd & Hdd).
    { intros n p Hi Hn. assert (Hp : dget n outp = Some p) by (apply dget_NoDup_In; auto).
      rewrite Hig in Hn. destruct (Hall n p Hp Hn) as (ds & u & ra & (p' & Hp' & Hd) & _).
      rewrite Hp in Hp'; injection Hp' as <-. exists ds; auto. }
    rewrite Hdd. cbn [bind].
    pose proof Hdd as Hdd'.
    apply extract_dims_ok in Hdd' as (Hkd & _ & Hdims);
      [|change (NoDup (filter (fun n => negb (mem n ignore)) (keys outp))); apply NoDup_filter; auto].
    change (keys dd = filter (fun n => negb (mem n ignore)) (keys outp)) in Hkd.
    set (W := wildcard_dims st inp) in *.
    assert (Hnk : NoDup (keys dd)) by (rewrite Hkd; apply NoDup_filter; auto).
    assert (Hdecl : forall name ds, In (name, ds) dd -> ~ In name ignore /\
       exists p u ra, dget name outp = Some p /\ restorable raw st outp inp L name p ds u ra).
    { intros name ds Hi.
      pose proof (dget_NoDup_In _ _ _ Hnk Hi) as Hg.
      assert (Hin : In name (keys dd)) by (eapply dget_In_keys; eauto).
      rewrite Hkd in Hin. apply filter_In in Hin as [Hin Hm]. apply negb_true_iff, mem_false in Hm.
      split; auto. apply In_keys_dget in Hin as (p & Hp).
      destruct (Hdims name p (dget_In _ _ _ Hp) Hm) as (ds' & Hg' & Hor).
      rewrite Hg in Hg'; injection Hg' as <-.
      assert (Hm' := Hm). rewrite Hig in Hm'.
      destruct (Hall name p Hp Hm') as (ds2 & u & ra & Hre).
      assert (ds2 = ds) as ->.
      { apply (declared_dims_fun outp inp name); [apply Hre|]. exists p; split; auto. }
      exists p, u, ra; auto. }
    assert (HW : forall name ds, In (name, ds) dd -> In "*" ds ->
              wn = Some W /\ forall d, In d W -> dmem d dl = true).
    { intros name ds Hi Hstar. destruct (Hdecl name ds Hi) as (_ & p & u & ra & Hp & Hre).
      destruct Hre as (_ & _ & _ & _ & _ & Hs). destruct (Hs Hstar) as (nm & p' & ds' & Hi1 & Hd1 & Hs1).
      assert (Hex : existsb (fun np => has_wildcard (snd np)) inp = true).
      { apply existsb_exists. exists (nm, p'). split; auto.
        unfold has_wildcard; simpl. rewrite Hd1. apply mem_In; auto. }
      rewrite Hex in Hwn. split; auto.
      intros d Hd. unfold W, wildcard_dims in Hd. apply dedup_In, in_flat_map in Hd as ((n' & p2) & Hi' & Hd).
      unfold undeclared in Hd; simpl in Hd. destruct (p_dims p2) as [ds2|] eqn:Eds; [|contradiction].
      destruct (dget n' st) as [[a'|]|] eqn:Ea; try contradiction.
      apply filter_In in Hd as [Hd _].
      assert (Hwa : wf_da a') by (eapply Hwf; eauto).
      unfold dmem. rewrite (Hlen n' p2 ds2 a' d); [|repeat split; auto|auto].
      apply (dim_len_some a' d Hwa) in Hd as (n & ->). reflexivity. }
    assert (G : forall l dlx out, incl l dd -> NoDup (keys out ++ keys l) ->
       (forall d n, dget d dlx = Some n -> L d = n) -> (forall d, dmem d dl = true -> dmem d dlx = true) ->
       exists dl' out', foldM (restore_step raw outp inp wn ignore) l (dlx, out) = Ok (dl', out') /\
         keys out' = keys out ++ keys l /\
         (forall k, In k (keys out) -> dget k out' = dget k out) /\
         forall name ds, In (name, ds) l -> exists p u ra, dget name outp = Some p /\
           restorable raw st outp inp L name p ds u ra /\
           dget name out' = Some (rebuilt W L ds u ra)).
    { induction l as [|[name ds] l IH]; intros dlx out Hi Hnk' HLx Hx.
      - simpl. exists dlx, out. simpl. rewrite app_nil_r. repeat split; auto. intros ? ? [].
      - destruct (Hdecl name ds (Hi _ (or_introl eq_refl))) as (Hign & p & u & ra & Hp & Hre).
        pose proof Hre as (_ & Hos & Hpu & Hra & Hsh & _).
        destruct (restore_step_rebuilds raw outp inp W L ignore name p ds u ra dlx out)
          as (dl1 & Hst & HL1 & Hm1); auto.
        + intros Hstar d Hd. apply Hx. eapply HW; eauto. apply Hi; left; auto.
        + assert (Hwn' : restore_step raw outp inp wn ignore (dlx, out) (name, ds) =
                         restore_step raw outp inp (if mem "*" ds then Some W else None) ignore (dlx, out) (name, ds)).
          { destruct (mem "*" ds) eqn:Es.
            - apply mem_In in Es. destruct (HW name ds (Hi _ (or_introl eq_refl)) Es) as [-> _]. reflexivity.
            - unfold restore_step. rewrite Es. reflexivity. }
          cbn [foldM]. rewrite Hwn', Hst. cbn [bind].
          simpl in Hnk'.
          assert (Hfresh : ~ In name (keys out)).
          { intros Hin. apply NoDup_remove_2 in Hnk'. apply Hnk', in_app_iff; auto. }
          assert (Hkk : keys (dset name (rebuilt W L ds u ra) out) = keys out ++ [name]).
          { rewrite keys_dset. apply dmem_false in Hfresh. rewrite Hfresh. reflexivity. }
          destruct (IH dl1 (dset name (rebuilt W L ds u ra) out)) as (dl' & out' & Hfo & Hko & Hold & Hnew); auto.
          * intros x Hxx; apply Hi; right; auto.
          * rewrite Hkk, <- app_assoc. exact Hnk'.
          * exists dl', out'. split; auto. split; [|split].
            -- rewrite Hko, Hkk, <- app_assoc. reflexivity.
            -- intros k Hin. rewrite Hold by (rewrite Hkk, in_app_iff; auto).
               apply dget_dset_neq. intros ->; contradiction.
            -- intros n' ds' [E|Hin]; [|auto]. injection E as <- <-.
               exists p, u, ra. repeat split; auto; try apply Hre.
               rewrite Hold by (rewrite Hkk, in_app_iff; right; left; auto). apply dget_dset_eq. }
    destruct (G dd dl []) as (dl' & out & Hfo & Hko & _ & Hnew); auto.
    { apply incl_refl. }
    { intros d n Hd. apply Hback in Hd as (nm & p & ds & a & Hli & Hh). eapply HL; eauto. }
    exists out. split; [match goal with |- context [foldM ?f dd ?x] =>
        replace (foldM f dd x) with (Ok (dl', out)) by (symmetry; exact Hfo) end; reflexivity|].
    split; [rewrite Hko; simpl; auto|].
    intros name p ds u ra Hp Hni Hre.
    assert (Hin : In (name, ds) dd).
    { assert (Hm : ~ In name ignore) by (rewrite Hig; auto).
      destruct (Hdims name p (dget_In _ _ _ Hp) Hm) as (ds' & Hg' & Hor).
      assert (ds' = ds) as ->.
      { apply (declared_dims_fun outp inp name); [|apply Hre]. exists p; split; auto. }
      apply dget_In; auto. }
    destruct (Hnew name ds Hin) as (p' & u' & ra' & Hp' & Hre' & Hout).
    rewrite Hp in Hp'; injection Hp' as <-.
    destruct Hre as (_ & _ & Hu & Hra & _). destruct Hre' as (_ & _ & Hu' & Hra' & _).
    rewrite Hu in Hu'; injection Hu' as <-. rewrite Hra in Hra'; injection Hra' as <-. auto.
  Qed.

  Lemma out_key_self : forall name p (pd : pdict), dget name pd = Some p ->
    out_key pd pd name = raw_name name p.
  Proof.
    intros name p pd H. unfold out_key, raw_name. rewrite H.
    destruct (p_alias p) eqn:E; auto.
  Qed.

  (** C05: restoring what was extracted. *)
  Lemma round_trip : forall st pd raw,
    wf_state st -> wf_pdict pd -> NoDup (keys pd) ->
    NoDup (map (fun np => raw_name (fst np) (snd np)) pd) ->
    get_numpy_arrays_with_properties st pd = Ok raw ->
    exists out L, common_lengths st pd L /\
      restore_data_arrays_with_properties raw pd st pd [] false = Ok out /\
      keys out = keys pd /\
      forall name p ds u a q, dget name pd = Some p -> p_dims p = Some ds -> p_units p = Some u ->
        dget name st = Some (VDA a) -> to_units a u = Ok q ->
        exists q', dget name out = Some q' /\
          dims q' = expand_dims (wildcard_dims st pd) ds /\ attrs q' = [("units", u)] /\
          wf_nd (arr q') /\ shape (arr q') = map L (dims q') /\
          forall c, grid_point (wildcard_dims st pd) L c ds -> da_at q' c = da_at q c.
  Proof.
    intros st pd raw Hwf Hwp Hnd Hndr H. pose proof H as Hext.
    unfold get_numpy_arrays_with_properties in H.
    apply bind_ok in H as ((wn & dl) & Hscan & _).
    pose proof Hscan as Hs. apply wildcard_matches_spec in Hs as ((Hc & Hu & _ & _) & _); auto.
    destruct (wildcard_matches_iff st pd Hwf Hc) as [Hbad _].
    assert (Hnc : ~ length_conflict st pd).
    { intros Hlc. rewrite Hbad in Hscan by auto. discriminate. }
    destruct (extraction_spec st pd raw) as (L & HL & Hk & Hr); auto.
    assert (Hnig : forall name, ~ ignored raw pd [] false name).
    { intros name [[]|(Hf & _)]; discriminate. }
    assert (Hres : forall name p ds u r, dget name pd = Some p -> p_dims p = Some ds -> p_units p = Some u ->
              dget (raw_name name p) raw = Some r -> extracted st pd L name p r ->
              restorable raw st pd pd L name p ds u r).
    { intros name p ds u r Hp Hds Hpu Hr' He.
      destruct He as (ds2 & u2 & a & q & E1 & E2 & E3 & E4 & E5 & E6 & E7).
      rewrite Hds in E1; injection E1 as <-.
      split; [exists p; split; auto|]. split; [eapply Hwp; [apply dget_In; eauto|auto]|].
      split; auto. split; [rewrite (out_key_self name p) by auto; auto|]. split; auto.
      intros Hstar. exists name, p, ds. repeat split; auto. apply dget_In; auto. }
    destruct (restore_succeeds st raw pd pd [] false L) as (out & Hout & Hko & Hv); auto.
    { apply HL. }
    { intros name p Hp _. destruct (Hr name p (dget_In _ _ _ Hp)) as (r & Hr' & He).
      pose proof He as (ds2 & u2 & a & q & E1 & E2 & _). exists ds2, u2, r. eapply Hres; eauto. }
    exists out, L. split; auto. split; auto. split.
    { rewrite Hko. cbv iota. clear. induction (keys pd) as [|x l IH]; simpl; auto. f_equal; auto. }
    intros name p ds u a q Hp Hds Hpu Ha Hq.
    destruct (Hr name p (dget_In _ _ _ Hp)) as (r & Hr' & He).
    assert (Hre : restorable raw st pd pd L name p ds u r) by (eapply Hres; eauto).
    pose proof Hre as (_ & Hos & _).
    destruct He as (ds2 & u2 & a2 & q2 & E1 & E2 & E3 & E4 & E5 & E6 & E7).
    rewrite Hds in E1; injection E1 as <-. rewrite Hpu in E2; injection E2 as <-.
    rewrite Ha in E3; injection E3 as <-. rewrite Hq in E4; injection E4 as <-.
    exists (rebuilt (wildcard_dims st pd) L ds u r).
    split; [eapply Hv; eauto|]. repeat split; auto.
    - eapply rebuilt_wf; eauto.
    - intros c Hg. rewrite rebuilt_at by auto. apply E7; auto.
  Qed.
End RoundTrip.
