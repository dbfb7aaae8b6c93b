(** Lemmas about InitNp.v. *)
From Coq Require Import String List Bool Arith ZArith Lia.
From Verif Require Import Prelude PreludeFacts ArithM NdArray NdFacts Units DataArrayM
  Wildcard GetNp GetNpFacts SpecArrays WildcardFacts ExtractFacts Restore RestoreFacts
  RoundTripFacts InitNp.
Import ListNotations.
Open Scope string_scope.
Open Scope nat_scope.
Open Scope list_scope.

Section InitFacts.
  Context {T : Type} {A : Arith T} {R : Registry}.

  (** Axis [d] of raw input [name] has length [n]. *)
  Lemma enumerate_In : forall {B} (l : list B) i x,
    In (i, x) (enumerate l) <-> nth_error l i = Some x.
  Proof.
    intros B l i x. unfold enumerate.
    enough (G : forall k, In (i, x) (combine (seq k (length l)) l) <-> k <= i /\ nth_error l (i - k) = Some x).
    { rewrite G, Nat.sub_0_r. split; [tauto|]. intros; split; auto; lia. }
    induction l as [|y l IH]; simpl; intros k.
    - split; [tauto|]. intros [_ H]. destruct (i - k); discriminate.
    - rewrite IH. split.
      + intros [E|[H1 H2]].
        * injection E as -> ->. split; auto. rewrite Nat.sub_diag; auto.
        * split; [lia|]. replace (i - k) with (S (i - S k)) by lia. auto.
      + intros [H1 H2]. destruct (Nat.eq_dec k i) as [->|Hne].
        * rewrite Nat.sub_diag in H2; simpl in H2. left; congruence.
        * right. split; [lia|]. replace (i - k) with (S (i - S k)) in H2 by lia. auto.
  Qed.

  Lemma raw_axis_ok : forall (raw : dict (nd T)) name i n, raw_axis raw name i = Ok n <->
    exists a, dget name raw = Some a /\ nth_error (shape a) i = Some n.
  Proof.
    intros raw name i n. unfold raw_axis. split.
    - intros H. apply bind_ok in H as (a & Ha & H). apply dgetE_ok in Ha.
      destruct (nth_error (shape a) i) eqn:E; [|discriminate]. injection H as <-. eauto.
    - intros (a & Ha & Hn). unfold dgetE. rewrite Ha. simpl. rewrite Hn. auto.
  Qed.

  Lemma dim_lengths_inner : forall (raw : dict (nd T)) key l dl dl',
    foldM (dim_length_step raw key) l dl = Ok dl' ->
    (forall d n, dget d dl = Some n -> dget d dl' = Some n) /\
    (forall i d, In (i, d) l -> exists n, raw_axis raw key i = Ok n /\ dget d dl' = Some n) /\
    (forall d n, dget d dl' = Some n -> dget d dl = Some n \/
       exists i, In (i, d) l /\ raw_axis raw key i = Ok n).
  Proof.
    induction l as [|[i d] l IH]; simpl; intros dl dl' H.
    - injection H as <-. repeat split; auto. intros ? ? [].
    - apply bind_ok in H as (dl1 & H1 & H). apply IH in H as (E1 & E2 & E3).
      unfold dim_length_step in H1; simpl in H1. apply bind_ok in H1 as (n & Hn & H1).
      assert (Hx : (forall e m, dget e dl = Some m -> dget e dl1 = Some m) /\ dget d dl1 = Some n /\
                   (forall e m, dget e dl1 = Some m -> dget e dl = Some m \/ (e = d /\ m = n))).
      { destruct (dget d dl) as [m|] eqn:Ed.
        - destruct (Nat.eqb n m) eqn:En; simpl in H1; [|discriminate].
          apply Nat.eqb_eq in En; subst m. injection H1 as <-. auto.
        - injection H1 as <-. split; [|split].
          + intros e m He. rewrite dget_dset_neq; auto. intros ->; congruence.
          + apply dget_dset_eq.
          + intros e m He. rewrite dget_dset in He. destruct (String.eqb e d) eqn:Ee.
            * apply String.eqb_eq in Ee. injection He as <-. auto.
            * auto. }
      destruct Hx as (X1 & X2 & X3). split; [|split].
      + intros e m He. auto.
      + intros j e [E|Hin]; [|apply E2; auto]. injection E as <- <-. eauto.
      + intros e m He. apply E3 in He as [He|(j & Hj & Hr)]; [|right; eauto].
        apply X3 in He as [He|[-> ->]]; auto. right; eauto.
  Qed.

  Lemma dim_lengths_spec : forall (raw : dict (nd T)) inp dl,
    get_dim_lengths_from_raw_input raw inp = Ok dl ->
    (forall name p ds i d, In (name, p) inp -> p_tracer p = false -> p_dims p = Some ds ->
       nth_error ds i = Some d ->
       exists n, raw_axis raw (raw_name name p) i = Ok n /\ dget d dl = Some n) /\
    (forall d n, dget d dl = Some n ->
       exists name p ds i, In (name, p) inp /\ p_tracer p = false /\ p_dims p = Some ds /\
         nth_error ds i = Some d /\ raw_axis raw (raw_name name p) i = Ok n).
  Proof.
    intros raw inp dl H. unfold get_dim_lengths_from_raw_input in H.
    set (f := fun dl np => _) in H.
    enough (G : forall l dl0 dl1, foldM f l dl0 = Ok dl1 ->
      (forall d n, dget d dl0 = Some n -> dget d dl1 = Some n) /\
      (forall name p ds i d, In (name, p) l -> p_tracer p = false -> p_dims p = Some ds ->
         nth_error ds i = Some d ->
         exists n, raw_axis raw (raw_name name p) i = Ok n /\ dget d dl1 = Some n) /\
      (forall d n, dget d dl1 = Some n -> dget d dl0 = Some n \/
         exists name p ds i, In (name, p) l /\ p_tracer p = false /\ p_dims p = Some ds /\
           nth_error ds i = Some d /\ raw_axis raw (raw_name name p) i = Ok n)).
    { apply G in H as (_ & H1 & H2). split; auto. intros d n Hd. apply H2 in Hd as [Hd|Hd]; auto.
      discriminate. }
    clear H dl. induction l as [|[name p] l IH]; simpl; intros dl0 dl1 H.
    - injection H as <-. repeat split; auto. intros ? ? ? ? ? [].
    - apply bind_ok in H as (dlm & Hm & H). apply IH in H as (E1 & E2 & E3).
      unfold f in Hm; simpl in Hm. destruct (p_tracer p) eqn:Et.
      + injection Hm as <-. split; auto. split.
        * intros name' p' ds i d [E|Hin] Ht; [injection E as <- <-; congruence|]. eauto.
        * intros d n Hd. apply E3 in Hd as [Hd|(n' & p' & ds & i & Hin & Hrest)]; auto.
          right. exists n', p', ds, i. auto.
      + destruct (p_dims p) as [ds0|] eqn:Eds; [|discriminate].
        apply dim_lengths_inner in Hm as (M1 & M2 & M3). split; [|split].
        * intros d n Hd. auto.
        * intros name' p' ds i d [E|Hin] Ht Hds Hi; [|eauto]. injection E as <- <-.
          rewrite Eds in Hds; injection Hds as <-. apply enumerate_In in Hi.
          destruct (M2 _ _ Hi) as (n & Hr & Hd). eauto.
        * intros d n Hd. apply E3 in Hd as [Hd|(n' & p' & ds & i & Hin & Hrest)].
          -- apply M3 in Hd as [Hd|(i & Hi & Hr)]; auto. right.
             exists name, p, ds0, i. apply enumerate_In in Hi. repeat split; auto.
          -- right. exists n', p', ds, i. auto.
  Qed.

  Lemma shape_zeros : forall sh, shape (zeros sh) = sh.
  Proof. reflexivity. Qed.

  Lemma init_fold_ok : forall dl tn dd out out',
    foldM (init_step dl None tn) dd out = Ok out' -> NoDup (keys out ++ keys dd) ->
    keys out' = keys out ++ keys dd /\
    (forall k, In k (keys out) -> dget k out' = dget k out) /\
    (forall name ds, In (name, ds) dd -> (forall d, In d ds -> dmem d dl = true) /\
       dget name out' = Some (zeros (map (fun d => or1 (dget d dl)) ds))).
  Proof.
    induction dd as [|[name ds] dd IH]; simpl; intros out out' H Hnd.
    - injection H as <-. rewrite app_nil_r. repeat split; auto; try (intros ? ? []); contradiction.
    - apply bind_ok in H as (o1 & H1 & H). unfold init_step in H1; simpl in H1.
      apply bind_ok in H1 as (sh & Hsh & H1). injection H1 as <-.
      apply mapM_dgetE in Hsh as (-> & Hmem).
      assert (Hf : ~ In name (keys out)).
      { intros Hin. apply NoDup_remove_2 in Hnd. apply Hnd, in_app_iff; auto. }
      assert (Hk : keys (dset name (zeros (map (fun d => or1 (dget d dl)) ds)) out) = keys out ++ [name]).
      { rewrite keys_dset. apply dmem_false in Hf. rewrite Hf. auto. }
      apply IH in H as (E1 & E2 & E3); [|rewrite Hk, <- app_assoc; auto].
      split; [rewrite E1, Hk, <- app_assoc; auto|]. split.
      + intros k Hin. rewrite E2 by (rewrite Hk; apply in_app_iff; auto).
        apply dget_dset_neq. intros ->; contradiction.
      + intros n' ds' [E|Hin]; [|auto]. injection E as <- <-. split; auto.
        rewrite E2 by (rewrite Hk; apply in_app_iff; right; left; auto). apply dget_dset_eq.
  Qed.

  (** C07, shapes. *)
  Lemma init_shapes : forall (raw : dict (nd T)) outp inp tn out,
    NoDup (keys outp) ->
    initialize_numpy_arrays_with_properties outp raw inp None tn = Ok out ->
    keys out = keys outp /\
    exists L : string -> nat,
      (forall nm p ids i d, In (nm, p) inp -> p_tracer p = false -> p_dims p = Some ids ->
         nth_error ids i = Some d ->
         exists a, dget (raw_name nm p) raw = Some a /\ nth_error (shape a) i = Some (L d)) /\
      forall name ds, declared_dims outp inp name ds ->
        (forall d, In d ds -> exists nm p ids, In (nm, p) inp /\ p_tracer p = false /\
                                p_dims p = Some ids /\ In d ids) /\
        exists z, dget name out = Some z /\ wf_nd z /\ shape z = map L ds /\
          forall idx, in_range idx (shape z) -> at_ z idx = azero.
  Proof.
    intros raw outp inp tn out Hnd H. unfold initialize_numpy_arrays_with_properties in H.
    apply bind_ok in H as (dl & Hdl & H). apply bind_ok in H as (dd & Hdd & H).
    apply bind_ok in H as (out' & Hf & H). injection H as ->.
    apply dim_lengths_spec in Hdl as (D1 & D2).
    assert (Hflt : filter (fun n => negb (mem n [])) (keys outp) = keys outp).
    { clear. induction (keys outp) as [|x l IH]; simpl; auto. f_equal; auto. }
    unfold extract_output_dims_properties in Hdd.
    apply extract_dims_ok in Hdd as (Hkd & _ & Hdims);
      [|change (NoDup (filter (fun n => negb (mem n [])) (keys outp))); rewrite Hflt; auto].
    change (keys dd = filter (fun n => negb (mem n [])) (keys outp)) in Hkd. rewrite Hflt in Hkd.
    apply init_fold_ok in Hf as (E1 & _ & E3); [|simpl; rewrite Hkd; auto].
    split; [rewrite E1; simpl; auto|].
    exists (fun d => or1 (dget d dl)). split.
    - intros nm p ids i d Hin Ht Hds Hi. destruct (D1 _ _ _ _ _ Hin Ht Hds Hi) as (n & Hr & Hd).
      apply raw_axis_ok in Hr as (a & Ha & Hn). exists a. rewrite Hd. auto.
    - intros name ds Hdecl. pose proof Hdecl as (p & Hp & Hor).
      destruct (Hdims name p (dget_In _ _ _ Hp)) as (ds' & Hg & Hor'); [simpl; auto|].
      assert (ds' = ds) as ->.
      { apply (declared_dims_fun outp inp name); [exists p|]; auto. }
      destruct (E3 name ds (dget_In _ _ _ Hg)) as (Hmem & Hz). split.
      + intros d Hd. apply Hmem in Hd. unfold dmem in Hd. destruct (dget d dl) as [n|] eqn:E; [|discriminate].
        apply D2 in E as (nm & p' & ids & i & Hin & Ht & Hids & Hi & _).
        exists nm, p', ids. repeat split; auto. eapply nth_error_In; eauto.
      + exists (zeros (map (fun d => or1 (dget d dl)) ds)). split; auto.
        split; [apply wf_build|]. split; [reflexivity|].
        intros idx Hi. apply at_full; auto.
  Qed.

  (** C07, restoring. *)
  Lemma init_restores : forall st raw outp inp tn out,
    wf_state st -> wf_pdict inp -> NoDup (keys outp) ->
    NoDup (map (fun np => raw_name (fst np) (snd np)) inp) ->
    (forall nm p, In (nm, p) inp -> p_tracer p = false) ->
    get_numpy_arrays_with_properties st inp = Ok raw ->
    initialize_numpy_arrays_with_properties outp raw inp None tn = Ok out ->
    (forall name ds, declared_dims outp inp name ds -> one_star ds) ->
    (forall name p, dget name outp = Some p ->
       (exists u, p_units p = Some u) /\ out_key outp inp name = name) ->
    exists L res, common_lengths st inp L /\
      restore_data_arrays_with_properties out outp st inp [] false = Ok res /\
      keys res = keys outp /\
      forall name p ds u, dget name outp = Some p -> declared_dims outp inp name ds -> p_units p = Some u ->
        exists q, dget name res = Some q /\ dims q = expand_dims (wildcard_dims st inp) ds /\
          attrs q = [("units", u)] /\ shape (arr q) = map L (dims q) /\ wf_nd (arr q) /\
          forall c, grid_point (wildcard_dims st inp) L c ds -> da_at q c = azero.
  Proof.
    intros st raw outp inp tn out Hwf Hwp Hnd Hndr Hnt Hext Hinit Hos Hkey.
    pose proof Hext as H. unfold get_numpy_arrays_with_properties in H.
    apply bind_ok in H as ((wn & dl) & Hscan & _).
    pose proof Hscan as Hs. apply wildcard_matches_spec in Hs as ((Hc & Hu & _ & _) & _); auto.
    destruct (wildcard_matches_iff st inp Hwf Hc) as [Hbad _].
    assert (Hnc : ~ length_conflict st inp).
    { intros Hlc. rewrite Hbad in Hscan by auto. discriminate. }
    destruct (extraction_spec st inp raw) as (L & HL & Hk & Hr); auto.
    destruct (init_shapes raw outp inp tn out Hnd Hinit) as (Hko & L' & HL' & Hdecl).
    set (W := wildcard_dims st inp).
    assert (HLL : forall nm p ids d, In (nm, p) inp -> p_dims p = Some ids -> In d ids ->
              L' d = axis_len W L d).
    { intros nm p ids d Hin Hds Hd. apply In_nth_error in Hd as (i & Hi).
      destruct (HL' nm p ids i d Hin (Hnt _ _ Hin) Hds Hi) as (a & Ha & Hn).
      destruct (Hr nm p Hin) as (r & Hr' & He).
      destruct He as (ds2 & u & a2 & q & F1 & F2 & F3 & F4 & F5 & F6 & F7).
      rewrite Hds in F1; injection F1 as <-. rewrite Ha in Hr'; injection Hr' as <-.
      fold W in F6. rewrite F6, nth_error_map, Hi in Hn. simpl in Hn. congruence. }
    assert (Hres : forall name p ds u z, dget name outp = Some p -> declared_dims outp inp name ds ->
      p_units p = Some u -> dget name out = Some z -> shape z = map L' ds ->
      restorable out st outp inp L name p ds u z).
    { intros name p ds u z Hp Hds Hpu Hz Hsh. destruct (Hkey name p Hp) as (_ & Hok).
      destruct (Hdecl name ds Hds) as (Hocc & _).
      split; auto. split; [eapply Hos; eauto|]. split; auto. split; [rewrite Hok; auto|]. split.
      - rewrite Hsh. apply map_ext_in. intros d Hd. destruct (Hocc d Hd) as (nm & p' & ids & X1 & X2 & X3 & X4).
        eapply HLL; eauto.
      - intros Hstar. destruct (Hocc _ Hstar) as (nm & p' & ids & X1 & X2 & X3 & X4). exists nm, p', ids; auto. }
    assert (Hnig : forall name, ~ ignored out outp [] false name).
    { intros name [[]|(Hf & _)]; discriminate. }
    destruct (restore_succeeds st out outp inp [] false L) as (rs & Hrs & Hkr & Hv); auto.
    { apply HL. }
    { intros name p Hp _. destruct (Hkey name p Hp) as ((u & Hpu) & _).
      assert (Hex : exists ds, declared_dims outp inp name ds).
      { unfold initialize_numpy_arrays_with_properties in Hinit.
        apply bind_ok in Hinit as (? & _ & Hi). apply bind_ok in Hi as (dd & Hdd & _).
        unfold extract_output_dims_properties in Hdd. apply extract_dims_ok in Hdd as (_ & _ & Hdims).
        - destruct (Hdims name p (dget_In _ _ _ Hp)) as (ds & _ & Hor); [simpl; auto|]. exists ds, p; auto.
        - change (NoDup (filter (fun n => negb (mem n [])) (keys outp))). apply NoDup_filter; auto. }
      destruct Hex as (ds & Hds). destruct (Hdecl name ds Hds) as (_ & z & Hz & _ & Hsh & _).
      exists ds, u, z. apply Hres; auto. }
    exists L, rs. split; auto. split; auto. split.
    { rewrite Hkr. cbv iota. clear. induction (keys outp) as [|x l IH]; simpl; auto. f_equal; auto. }
    intros name p ds u Hp Hds Hpu.
    destruct (Hdecl name ds Hds) as (_ & z & Hz & Hwz & Hsh & Hzero).
    pose proof (Hres name p ds u z Hp Hds Hpu Hz Hsh) as Hre.
    pose proof Hre as (_ & Hos' & _ & _ & Hsh' & _).
    exists (rebuilt W L ds u z). split; [apply (Hv name p); auto|]. repeat split; auto.
    - apply rebuilt_wf; auto.
    - intros c Hg. rewrite rebuilt_at by auto. apply Hzero. rewrite Hsh'. fold W.
      clear - Hg. unfold in_range. induction ds as [|d ds IH]; simpl; constructor.
      + specialize (Hg d (or_introl eq_refl)). unfold axis_pos, axis_len.
        destruct (String.eqb d "*"); auto. apply ravel_lt.
        clear - Hg. induction W as [|w W IH]; simpl; constructor; [apply Hg; left; auto|].
        apply IH. intros w' Hw; apply Hg; right; auto.
      + apply IH. intros d' Hd'. apply Hg. right; auto.
  Qed.
End InitFacts.
