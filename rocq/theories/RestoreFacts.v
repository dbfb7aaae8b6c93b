(** Lemmas about Restore.v. *)
From Coq Require Import String List Bool Arith ZArith Lia.
From Verif Require Import Prelude PreludeFacts ArithM NdArray NdFacts Units DataArrayM
  Wildcard GetNp GetNpFacts SpecArrays WildcardFacts ExtractFacts Restore.
Import ListNotations.
Open Scope string_scope.
Open Scope nat_scope.
Open Scope list_scope.

Lemma expand_dims_none : forall W ds, ~ In "*" ds -> expand_dims W ds = ds.
Proof.
  unfold expand_dims; induction ds as [|x l IH]; simpl; intros H; auto.
  destruct (String.eqb x "*") eqn:E; [apply String.eqb_eq in E; subst; exfalso; auto|].
  simpl. f_equal; auto.
Qed.

Lemma expand_dims_one : forall W pre post, ~ In "*" pre -> ~ In "*" post ->
  expand_dims W (pre ++ "*" :: post) = pre ++ W ++ post.
Proof.
  intros W pre post H1 H2. unfold expand_dims. rewrite flat_map_app. simpl.
  change (expand_dims W pre ++ W ++ expand_dims W post = pre ++ W ++ post).
  rewrite !expand_dims_none; auto.
Qed.

Lemma fill_dims_nostar : forall ds dl wn seen ds' sh,
  ~ In "*" ds -> fill_dims ds dl wn seen = Ok (ds', sh) ->
  ds' = ds /\ sh = map (fun d => or1 (dget d dl)) ds /\ (forall d, In d ds -> dmem d dl = true).
Proof.
  induction ds as [|d ds IH]; simpl; intros dl wn seen ds' sh Hn H.
  - injection H as <- <-. repeat split; auto; try (intros ? []).
  - destruct (String.eqb d "*") eqn:E; [apply String.eqb_eq in E; subst; exfalso; auto|].
    simpl in H. apply bind_ok in H as (l & Hl & H). apply bind_ok in H as ((ds1 & sh1) & H1 & H).
    injection H as <- <-. apply dgetE_ok in Hl.
    apply IH in H1 as (-> & -> & Hall); [|intros Hi; apply Hn; auto].
    rewrite Hl. repeat split; auto. intros x [<-|Hx]; auto. unfold dmem; rewrite Hl; auto.
Qed.

Lemma mapM_dgetE : forall (dl : dict nat) l vs, mapM (fun n => dgetE n dl) l = Ok vs ->
  vs = map (fun d => or1 (dget d dl)) l /\ (forall d, In d l -> dmem d dl = true).
Proof.
  induction l as [|x l IH]; simpl; intros vs H.
  - injection H as <-. split; auto; try (intros ? []).
  - apply bind_ok in H as (y & Hy & H). apply bind_ok in H as (ys & Hys & H).
    injection H as <-. apply dgetE_ok in Hy. apply IH in Hys as (-> & Hall).
    rewrite Hy. split; auto. intros d [<-|Hd]; auto. unfold dmem; rewrite Hy; auto.
Qed.

Lemma fill_dims_star : forall pre post dl wn seen ds' sh, seen = false ->
  ~ In "*" pre -> ~ In "*" post ->
  fill_dims (pre ++ "*" :: post) dl wn seen = Ok (ds', sh) ->
  exists W, wn = Some W /\ ds' = pre ++ W ++ post /\
    sh = map (fun d => or1 (dget d dl)) ds' /\ (forall d, In d ds' -> dmem d dl = true).
Proof.
  induction pre as [|d pre IH]; simpl; intros post dl wn seen ds' sh Hs H1 H2 H; subst seen.
  - simpl in H. destruct wn as [W|]; [|discriminate].
    apply bind_ok in H as (ls & Hls & H). apply bind_ok in H as ((ds1 & sh1) & Hf & H).
    injection H as <- <-. apply mapM_dgetE in Hls as (-> & Ha).
    apply fill_dims_nostar in Hf as (-> & -> & Hb); auto.
    exists W. repeat split; auto.
    + rewrite map_app; reflexivity.
    + intros d Hd. apply in_app_iff in Hd as [Hd|Hd]; auto.
  - destruct (String.eqb d "*") eqn:E; [apply String.eqb_eq in E; subst; exfalso; auto|].
    simpl in H. apply bind_ok in H as (l & Hl & H). apply bind_ok in H as ((ds1 & sh1) & Hf & H).
    injection H as <- <-. apply dgetE_ok in Hl.
    apply IH in Hf as (W & -> & -> & -> & Ha); auto.
    exists W. repeat split; auto.
    + simpl. rewrite Hl. reflexivity.
    + intros x [<-|Hx]; auto. unfold dmem; rewrite Hl; auto.
Qed.

Lemma fill_dims_nostar_ok : forall ds dl wn seen, ~ In "*" ds ->
  (forall d, In d ds -> dmem d dl = true) ->
  fill_dims ds dl wn seen = Ok (ds, map (fun d => or1 (dget d dl)) ds).
Proof.
  induction ds as [|d ds IH]; simpl; intros dl wn seen Hn Ha; auto.
  destruct (String.eqb d "*") eqn:E; [apply String.eqb_eq in E; subst; exfalso; auto|].
  simpl. unfold dgetE. assert (Hd : dmem d dl = true) by auto.
  unfold dmem in Hd. destruct (dget d dl); [|discriminate]. simpl. rewrite IH; auto.
Qed.

Lemma mapM_dgetE_ok : forall (dl : dict nat) l, (forall d, In d l -> dmem d dl = true) ->
  mapM (fun n => dgetE n dl) l = Ok (map (fun d => or1 (dget d dl)) l).
Proof.
  induction l as [|x l IH]; simpl; intros H; auto. unfold dgetE at 1.
  assert (Hx : dmem x dl = true) by auto. unfold dmem in Hx. destruct (dget x dl); [|discriminate].
  simpl. rewrite IH; auto.
Qed.

Lemma fill_dims_star_ok : forall pre post dl W, ~ In "*" pre -> ~ In "*" post ->
  (forall d, In d (pre ++ W ++ post) -> dmem d dl = true) ->
  fill_dims (pre ++ "*" :: post) dl (Some W) false
  = Ok (pre ++ W ++ post, map (fun d => or1 (dget d dl)) (pre ++ W ++ post)).
Proof.
  induction pre as [|d pre IH]; intros post dl W H1 H2 Ha.
  - simpl. rewrite mapM_dgetE_ok by (intros; apply Ha; simpl; apply in_app_iff; auto).
    simpl. rewrite fill_dims_nostar_ok; auto.
    + simpl. rewrite map_app; reflexivity.
    + intros; apply Ha; simpl; apply in_app_iff; auto.
  - simpl. destruct (String.eqb d "*") eqn:E; [apply String.eqb_eq in E; subst; exfalso; apply H1; left; auto|].
    simpl. unfold dgetE. assert (Hd : dmem d dl = true) by (apply Ha; left; auto).
    unfold dmem in Hd. destruct (dget d dl) eqn:Ed; [|discriminate]. simpl.
    rewrite IH; auto.
    + intros Hi; apply H1; right; auto.
    + intros x Hx; apply Ha; right; auto.
Qed.

Lemma note_new_dims_spec : forall ds sh dl,
  (forall d n, dget d dl = Some n -> dget d (note_new_dims ds sh dl) = Some n) /\
  (forall d, In d ds -> length ds = length sh -> d <> "*" -> dmem d (note_new_dims ds sh dl) = true) /\
  (forall d n, dget d (note_new_dims ds sh dl) = Some n -> dget d dl = Some n \/
     (d <> "*" /\ In (d, n) (combine ds sh))).
Proof.
  unfold note_new_dims.
  intros ds sh. remember (combine ds sh) as l eqn:El. 
  assert (G : forall (l : list (string * nat)) (dl : dict nat),
    let f := fold_left (fun acc dn => if negb (dmem (fst dn) acc) && negb (String.eqb (fst dn) "*")
                             then dset (fst dn) (snd dn) acc else acc) l dl in
    (forall d n, dget d dl = Some n -> dget d f = Some n) /\
    (forall d n, In (d, n) l -> d <> "*" -> dmem d f = true) /\
    (forall d n, dget d f = Some n -> dget d dl = Some n \/ (d <> "*" /\ In (d, n) l))).
  { clear. induction l as [|[d n] l IH]; intros dl; simpl.
    - repeat split; auto; try (intros ? ? []).
    - set (dl1 := if negb (dmem d dl) && negb (String.eqb d "*") then dset d n dl else dl).
      destruct (IH dl1) as (H1 & H2 & H3).
      assert (Hpres : forall d' n', dget d' dl = Some n' -> dget d' dl1 = Some n').
      { intros d' n' Hd. unfold dl1. destruct (dmem d dl) eqn:Em; simpl; auto.
        destruct (String.eqb d "*"); simpl; auto. rewrite dget_dset.
        destruct (String.eqb d' d) eqn:E; auto. apply String.eqb_eq in E; subst.
        unfold dmem in Em; rewrite Hd in Em; discriminate. }
      repeat split.
      + intros; apply H1, Hpres; auto.
      + intros d' n' [E|Hi] Hne; [|eapply H2; eauto]. injection E as <- <-.
        assert (Hm : dmem d dl1 = true).
        { unfold dl1. destruct (dmem d dl) eqn:Em; simpl; auto.
          destruct (String.eqb d "*") eqn:E; [apply String.eqb_eq in E; contradiction|].
          simpl. unfold dmem. rewrite dget_dset_eq; auto. }
        unfold dmem in Hm. destruct (dget d dl1) eqn:Ed; [|discriminate].
        apply H1 in Ed. apply dmem_In. eapply dget_In_keys; exact Ed.
      + intros d' n' Hd. apply H3 in Hd as [Hd|[Hne Hd]]; [|auto].
        unfold dl1 in Hd. destruct (negb (dmem d dl)) eqn:E1; simpl in Hd; auto.
        destruct (String.eqb d "*") eqn:E2; simpl in Hd; auto.
        rewrite dget_dset in Hd. destruct (String.eqb d' d) eqn:E; auto.
        apply String.eqb_eq in E; subst. injection Hd as ->. apply String.eqb_neq in E2. auto. }
  intros dl. destruct (G l dl) as (H1 & H2 & H3). repeat split; auto.
  intros d Hd Hlen Hne. subst l.
  assert (Hk : In d (keys (combine ds sh))) by (rewrite keys_combine; auto).
  apply in_map_iff in Hk as ((d' & n) & Ed & Hi). simpl in Ed; subst d'. eapply H2; eauto.
Qed.

Section Restore.
  Context {T : Type} {A : Arith T} {R : Registry}.

  Lemma extract_dims_ok : forall outp inp ignore acc dd,
    foldM (extract_dims_step inp ignore) outp acc = Ok dd ->
    NoDup (keys acc ++ filter (fun n => negb (mem n ignore)) (keys outp)) ->
    keys dd = keys acc ++ filter (fun n => negb (mem n ignore)) (keys outp) /\
    (forall k, In k (keys acc) -> dget k dd = dget k acc) /\
    (forall name p, In (name, p) outp -> ~ In name ignore ->
       exists ds, dget name dd = Some ds /\
         (p_dims p = Some ds \/
          p_dims p = None /\ exists q, dget name inp = Some q /\ p_dims q = Some ds)).
  Proof.
    induction outp as [|[name p] outp IH]; intros inp ignore acc dd H Hnd; simpl in H.
    - injection H as <-. simpl. rewrite app_nil_r. repeat split; auto; try (intros ? ? []).
    - apply bind_ok in H as (acc1 & H1 & H). unfold extract_dims_step in H1; simpl in H1.
      simpl in Hnd. destruct (mem name ignore) eqn:Em.
      + injection H1 as <-. simpl in Hnd. apply IH in H as (Hk & Ho & Hn); auto.
        simpl. rewrite Em. simpl. repeat split; auto.
        intros n q [E|Hi] Hni; [|auto]. injection E as <- <-.
        apply mem_In in Em; contradiction.
      + simpl in Hnd.
        assert (Hds : exists ds, acc1 = dset name ds acc /\
           (p_dims p = Some ds \/
            p_dims p = None /\ exists q, dget name inp = Some q /\ p_dims q = Some ds)).
        { destruct (p_dims p) as [ds|]; [injection H1 as <-; eauto|].
          destruct (dget name inp) as [q|]; [|discriminate].
          destruct (p_dims q) as [ds|] eqn:Eq; [|discriminate]. injection H1 as <-.
          exists ds; split; auto. right; split; auto. exists q; auto. }
        destruct Hds as (ds & -> & Hor).
        assert (Hfresh : ~ In name (keys acc)).
        { intros Hi. apply NoDup_remove_2 in Hnd. apply Hnd, in_app_iff; auto. }
        assert (Hk : keys (dset name ds acc) = keys acc ++ [name]).
        { rewrite keys_dset. apply dmem_false in Hfresh. rewrite Hfresh. reflexivity. }
        apply IH in H as (Hkeys & Ho & Hn); [|rewrite Hk, <- app_assoc; exact Hnd].
        simpl. rewrite Em. simpl. repeat split.
        * rewrite Hkeys, Hk, <- app_assoc. reflexivity.
        * intros k Hi. rewrite Ho by (rewrite Hk, in_app_iff; auto).
          apply dget_dset_neq. intros ->; contradiction.
        * intros n q [E|Hi] Hni; [|auto]. injection E as <- <-. exists ds. split; auto.
          rewrite Ho by (rewrite Hk, in_app_iff; right; left; auto). apply dget_dset_eq.
  Qed.

  Lemma create_quantity_ok : forall (a : nd T) u ds q, create_quantity a u ds = Ok q ->
    length ds = length (shape a) /\ q = mkda ds a [("units", u)].
  Proof.
    unfold create_quantity; intros a u ds q H. destruct (Nat.eqb _ _) eqn:E; [|discriminate].
    apply Nat.eqb_eq in E. injection H as <-; auto.
  Qed.

  Lemma check_array_shape_ok : forall ds (a : nd T) dl, check_array_shape ds a dl = Ok tt ->
    length ds = length (shape a) /\
    forall d n l, In (d, n) (combine ds (shape a)) -> dget d dl = Some l -> n = l.
  Proof.
    unfold check_array_shape; intros ds a dl H.
    destruct (negb _) eqn:E; [discriminate|]. apply negb_false_iff, Nat.eqb_eq in E. split; auto.
    revert H. generalize (combine ds (shape a)). induction l as [|[d n] l IH]; simpl; intros H d' n' l' Hi Hd.
    - contradiction.
    - apply bind_ok in H as ([] & H1 & H). destruct Hi as [E'|Hi]; [|eapply IH; eauto].
      injection E' as <- <-. rewrite Hd in H1. destruct (Nat.eqb l' n) eqn:En; [|discriminate].
      apply Nat.eqb_eq in En; auto.
  Qed.

  Lemma check_array_shape_succeeds : forall ds (a : nd T) dl, length ds = length (shape a) ->
    (forall d n l, In (d, n) (combine ds (shape a)) -> dget d dl = Some l -> n = l) ->
    check_array_shape ds a dl = Ok tt.
  Proof.
    unfold check_array_shape; intros ds a dl Hl. rewrite Hl, Nat.eqb_refl. simpl.
    generalize (combine ds (shape a)). induction l as [|[d n] l IH]; simpl; intros H; auto.
    destruct (dget d dl) as [m|] eqn:Ed.
    - rewrite (H d n m) by auto. rewrite Nat.eqb_refl. simpl. apply IH.
      intros; eapply H; eauto.
    - simpl. apply IH. intros; eapply H; eauto.
  Qed.

  Lemma get_alias_out_key : forall name (outp inp : pdict) p, dget name outp = Some p ->
    get_alias_or_name name outp inp = Ok (out_key outp inp name).
  Proof.
    intros name outp inp p Hp. unfold get_alias_or_name, out_key, dgetE. rewrite Hp. simpl.
    destruct (p_alias p); auto. destruct (dget name inp) as [q|]; auto. unfold raw_name. destruct (p_alias q); auto.
  Qed.

  Lemma in_combine_map : forall {B} (f : string -> B) l d n,
    In (d, n) (combine l (map f l)) -> n = f d.
  Proof.
    induction l as [|x l IH]; simpl; intros d n H; [contradiction|].
    destruct H as [E|H]; auto. congruence.
  Qed.

  Definition dl_extends (dl0 dl : dict nat) : Prop :=
    forall d n, dget d dl0 = Some n -> dget d dl = Some n.

  Lemma restore_step_ok : forall (st : state T) raw outp inp wn dl0 ignore dl out name ds dl' out' p,
    wf_state st ->
    get_wildcard_matches_and_dim_lengths st inp = Ok (wn, dl0) ->
    one_star ds -> dl_extends dl0 dl -> ~ In name ignore ->
    dget name outp = Some p ->
    restore_step raw outp inp wn ignore (dl, out) (name, ds) = Ok (dl', out') ->
    dl_extends dl0 dl' /\ exists q, out' = dset name q out /\ restored raw st outp inp name p ds q.
  Proof.
    intros st raw outp inp wn dl0 ignore dl out name ds dl' out' p Hwf Hscan Hos Hext Hni Hp H.
    apply wildcard_matches_spec in Hscan as ((_ & Hu & HL & Hlen & _) & Hwn); auto.
    unfold restore_step in H. apply mem_false in Hni. rewrite Hni in H.
    apply bind_ok in H as (rn & Hrn & H).
    assert (Hok : out_key outp inp name = rn) by (rewrite (get_alias_out_key name outp inp p Hp) in Hrn; congruence).
    apply bind_ok in H as (((dl1 & ds1) & oa) & Hr & H).
    apply bind_ok in H as (p' & Hp' & H). apply dgetE_ok in Hp'.
    rewrite Hp in Hp'; injection Hp' as <-.
    apply bind_ok in H as (u & Hpu & H). destruct (p_units p) as [u'|] eqn:Hu'; [|discriminate].
    injection Hpu as ->.
    apply bind_ok in H as (q & Hq & H). injection H as <- <-.
    apply create_quantity_ok in Hq as (Hlq & ->).
    assert (Hinput : forall dlx, dl_extends dl0 dlx -> forall d n,
       (forall l, dget d dlx = Some l -> n = l) ->
       forall nm p' ds' a m, listed st inp nm p' ds' a -> has_dim a d m -> n = m).
    { intros dlx Hx d n Hd nm p' ds' a m Hli Hh. apply Hd. apply Hx.
      assert (Hwa : wf_da a) by (eapply Hwf; apply Hli).
      rewrite (Hlen _ _ _ _ _ Hli (has_dim_In _ _ _ Hh)). apply has_dim_len; auto. }
    destruct (mem "*" ds) eqn:Es.
    - apply bind_ok in Hr as (ra & Hra & Hr). apply dgetE_ok in Hra.
      apply bind_ok in Hr as ((ds2 & target) & Hf & Hr).
      apply bind_ok in Hr as (oa' & Hoa & Hr). injection Hr as <- <- <-.
      destruct (note_new_dims_spec ds (shape ra) dl) as (Hn1 & _ & _).
      assert (Hext' : dl_extends dl0 (note_new_dims ds (shape ra) dl)).
      { intros d n Hd. apply Hn1, Hext; auto. }
      split; auto. exists (mkda ds2 oa' [("units", u)]). split; auto.
      unfold expand_array_wildcard_dims in Hoa.
      destruct (reshape ra target) as [b|e] eqn:Er; [|discriminate]. injection Hoa as ->.
      apply reshape_ok in Er as (Hp1 & Hs1 & Hd1).
      pose proof (one_star_index ds Hos) as Hi. unfold fill_dims_wildcard in Hf.
      destruct (index_of "*" ds) as [i|] eqn:Ei; [|discriminate].
      destruct Hi as (pre & post & -> & _ & Hpre & Hpost).
      apply fill_dims_star in Hf as (W & HW & -> & -> & Hall); auto.
      assert (W = wildcard_dims st inp) as ->.
      { rewrite HW in Hwn. destruct (existsb _ inp); congruence. }
      exists ra, u. rewrite Hok. repeat split; auto.
      + rewrite expand_dims_one; auto.
      + simpl. rewrite Hs1. congruence.
      + intros Hnstar. exfalso. apply Hnstar, in_app_iff. right; left; auto.
      + intros d n Hin. simpl in Hin. rewrite Hs1 in Hin.
        apply (Hinput _ Hext'). intros l Hl.
        apply in_combine_map in Hin. rewrite Hl in Hin. exact Hin.
    - apply bind_ok in Hr as (ra & Hra & Hr). apply dgetE_ok in Hra.
      apply bind_ok in Hr as ([] & Hchk & Hr). injection Hr as <- <- <-.
      split; auto. exists (mkda ds ra [("units", u)]). split; auto.
      apply mem_false in Es. apply check_array_shape_ok in Hchk as (_ & Hchk).
      exists ra, u. rewrite Hok. repeat split; auto.
      + rewrite expand_dims_none; auto.
      + intros d n Hin. apply (Hinput _ Hext). intros l Hl. eapply Hchk; eauto.
  Qed.

  Lemma restore_fold_ok : forall (st : state T) raw outp inp wn dl0 ignore,
    wf_state st ->
    get_wildcard_matches_and_dim_lengths st inp = Ok (wn, dl0) ->
    forall dd dl out dl' out',
    (forall name ds, In (name, ds) dd -> one_star ds /\ ~ In name ignore /\
       exists p, dget name outp = Some p) ->
    dl_extends dl0 dl ->
    foldM (restore_step raw outp inp wn ignore) dd (dl, out) = Ok (dl', out') ->
    NoDup (keys out ++ keys dd) ->
    keys out' = keys out ++ keys dd /\
    (forall k, In k (keys out) -> dget k out' = dget k out) /\
    (forall name ds p, In (name, ds) dd -> dget name outp = Some p ->
       exists q, dget name out' = Some q /\ restored raw st outp inp name p ds q).
  Proof.
    intros st raw outp inp wn dl0 ignore Hwf Hscan.
    induction dd as [|[name ds] dd IH]; intros dl out dl' out' Hdd Hext H Hnd; simpl in H.
    - injection H as <- <-. simpl. rewrite app_nil_r. repeat split; auto; try (intros ? ? ? []).
    - apply bind_ok in H as ((dl1 & o1) & H1 & H).
      destruct (Hdd name ds (or_introl eq_refl)) as (Hos & Hni & p & Hp).
      apply (restore_step_ok st raw outp inp wn dl0 ignore dl out name ds dl1 o1 p) in H1; auto.
      destruct H1 as (Hext1 & q & -> & Hq).
      simpl in Hnd.
      assert (Hfresh : ~ In name (keys out)).
      { intros Hi. apply NoDup_remove_2 in Hnd. apply Hnd, in_app_iff; auto. }
      assert (Hk : keys (dset name q out) = keys out ++ [name]).
      { rewrite keys_dset. apply dmem_false in Hfresh. rewrite Hfresh. reflexivity. }
      apply IH in H; auto.
      + destruct H as (Hkeys & Hold & Hnew). repeat split.
        * rewrite Hkeys, Hk, <- app_assoc. reflexivity.
        * intros k Hi. rewrite Hold by (rewrite Hk, in_app_iff; auto).
          apply dget_dset_neq. intros ->; contradiction.
        * intros n d' p' [E|Hi] Hp'; [|eauto]. injection E as <- <-.
          rewrite Hp in Hp'; injection Hp' as <-. exists q; split; auto.
          rewrite Hold by (rewrite Hk, in_app_iff; right; left; auto). apply dget_dset_eq.
      + intros n d' Hi. apply Hdd; right; auto.
      + rewrite Hk, <- app_assoc. exact Hnd.
  Qed.

  Lemma ignored_iff : forall raw outp ign b name,
    In name (if b : bool then filter (fun n => negb (@dmem (nd T) n raw)) (keys outp) ++ ign else ign)
    <-> ignored raw outp ign b name.
  Proof.
    intros raw outp ign b name; unfold ignored. destruct b.
    - rewrite in_app_iff, filter_In, negb_true_iff, dmem_false. tauto.
    - split; auto. intros [H|(H & _)]; auto; discriminate.
  Qed.

  Lemma restoration_spec : forall (st : state T) raw outp inp ign b out,
    wf_state st -> NoDup (keys outp) ->
    (forall name ds, declared_dims outp inp name ds -> one_star ds) ->
    restore_data_arrays_with_properties raw outp st inp ign b = Ok out ->
    (forall name, In name (keys out) <-> In name (keys outp) /\ ~ ignored raw outp ign b name) /\
    (forall name p, dget name outp = Some p -> ~ ignored raw outp ign b name ->
       exists ds q, declared_dims outp inp name ds /\ dget name out = Some q /\
         restored raw st outp inp name p ds q).
  Proof.
    intros st raw outp inp ign b out Hwf Hnd Hos H.
    unfold restore_data_arrays_with_properties in H.
    set (ignore := if b then filter (fun n => negb (dmem n raw)) (keys outp) ++ ign else ign) in *.
    apply bind_ok in H as ((wn & dl) & Hscan & H).
    apply bind_ok in H as (dd & Hdd & H).
    apply bind_ok in H as ((dl' & out') & Hf & H). injection H as <-.
    unfold extract_output_dims_properties in Hdd.
    apply extract_dims_ok in Hdd as (Hk & _ & Hdims);
      [|simpl; apply NoDup_filter; auto]. simpl in Hk.
    assert (Hddk : NoDup (keys dd)) by (rewrite Hk; apply NoDup_filter; auto).
    assert (Hdecl : forall name ds, In (name, ds) dd -> ~ In name ignore /\ declared_dims outp inp name ds).
    { intros name ds Hi. pose proof (dget_NoDup_In _ _ _ Hddk Hi) as Hg.
      assert (Hin : In name (keys dd)) by (eapply dget_In_keys; eauto).
      rewrite Hk in Hin. apply filter_In in Hin as [Hin Hm]. apply negb_true_iff, mem_false in Hm.
      split; auto. apply In_keys_dget in Hin as (p & Hp).
      destruct (Hdims name p (dget_In _ _ _ Hp) Hm) as (ds' & Hg' & Hor).
      rewrite Hg in Hg'; injection Hg' as <-. exists p; auto. }
    apply (restore_fold_ok st raw outp inp wn dl ignore Hwf Hscan) in Hf; auto.
    - destruct Hf as (Hkeys & _ & Hnew). simpl in Hkeys. split.
      + intros name. rewrite Hkeys, Hk, filter_In, negb_true_iff, mem_false.
        unfold ignore. rewrite ignored_iff. tauto.
      + intros name p Hp Hni.
        assert (Hni' : ~ In name ignore) by (unfold ignore; rewrite ignored_iff; auto).
        destruct (Hdims name p (dget_In _ _ _ Hp) Hni') as (ds & Hg & Hor).
        destruct (Hnew name ds p (dget_In _ _ _ Hg) Hp) as (q & Hq & Hr).
        exists ds, q. repeat split; auto. exists p; auto.
    - intros name ds Hi. destruct (Hdecl name ds Hi) as (Hni & Hd). split; [eauto|].
      split; auto. destruct Hd as (p & Hp & _); eauto.
    - intros d n Hd; auto.
  Qed.

  (** Values of a restored quantity, when the raw array has the declared shape. *)
  Lemma restored_values : forall raw (st : state T) outp inp name p ds q,
    restored raw st outp inp name p ds q -> one_star ds ->
    NoDup (expand_dims (wildcard_dims st inp) ds) ->
    forall ra, dget (out_key outp inp name) raw = Some ra ->
    let W := wildcard_dims st inp in
    let L := fun d => or1 (dim_len q d) in
    shape ra = map (axis_len W L) ds ->
    forall c, da_at q c = at_ ra (map (axis_pos W L c) ds).
  Proof.
    intros raw st outp inp name p ds q (ra' & u & Hra & _ & _ & Hdims & Hlq & Hdata & Hprod & _ & _) Hos Hnd
      ra Hra' W L Hsh c.
    rewrite Hra in Hra'; injection Hra' as ->.
    assert (Hshq : shape (arr q) = map L (dims q)).
    { unfold L, dim_len. symmetry. apply map_dget_combine; auto. rewrite Hdims; auto. }
    unfold da_at, at_. rewrite Hdata. f_equal.
    pose proof (one_star_index ds Hos) as Hi.
    destruct (index_of "*" ds) as [i|].
    - destruct Hi as (pre & post & -> & _ & Hpre & Hpost).
      rewrite Hshq, Hdims, Hsh. fold W. rewrite expand_dims_one by auto.
      rewrite !map_app. simpl map. rewrite !map_axis_id, !map_pos_id by auto.
      unfold axis_len, axis_pos; simpl. symmetry.
      apply (ravel_flatten (map L pre) (map c pre) (map L W) (map c W) (map L post) (map c post));
        rewrite !map_length; reflexivity.
    - rewrite Hshq, Hdims, Hsh. rewrite expand_dims_none by auto.
      rewrite map_axis_id, map_pos_id by auto. reflexivity.
  Qed.
End Restore.
