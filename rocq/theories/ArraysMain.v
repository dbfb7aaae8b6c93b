(** The array lemmas in the form used by the property theorems. *)
From Coq Require Import String List Bool Arith ZArith Lia.
From Verif Require Import Prelude PreludeFacts ArithM NdArray NdFacts Units DataArrayM
  Wildcard GetNp GetNpFacts SpecArrays WildcardFacts ExtractFacts Restore RestoreFacts RoundTripFacts.
Import ListNotations.
Open Scope string_scope.
Open Scope nat_scope.
Open Scope list_scope.

Section ArraysMain.
  Context {T : Type} {A : Arith T} {R : Registry}.

  Lemma listed_dim_dec : forall (st : state T) (pd : pdict) d,
    (exists name p ds a, listed st pd name p ds a /\ In d (dims a)) \/
    (forall name p ds a, listed st pd name p ds a -> ~ In d (dims a)).
  Proof.
    intros st pd d. induction pd as [|[name p] pd IH].
    - right. intros name p ds a (H & _). destruct H.
    - destruct IH as [(n & q & ds & a & (H1 & H2) & H3)|IH].
      + left. exists n, q, ds, a. repeat split; auto; try tauto. right; auto.
      + destruct (p_dims p) as [ds|] eqn:Eds.
        2:{ right. intros n q ds a ([E|H1] & H2 & H3).
            - injection E as <- <-. congruence.
            - eapply IH; repeat split; eauto. }
        destruct (dget name st) as [[a|t]|] eqn:Ea.
        * destruct (In_dec_str d (dims a)) as [Hd|Hd].
          -- left. exists name, p, ds, a. repeat split; auto. left; auto.
          -- right. intros n q ds' a' ([E|H1] & H2 & H3).
             ++ injection E as <- <-. rewrite Ea in H3; injection H3 as <-. auto.
             ++ eapply IH; repeat split; eauto.
        * right. intros n q ds' a' ([E|H1] & H2 & H3); [injection E as <- <-; congruence|].
          eapply IH; repeat split; eauto.
        * right. intros n q ds' a' ([E|H1] & H2 & H3); [injection E as <- <-; congruence|].
          eapply IH; repeat split; eauto.
  Qed.

  Lemma common_lengths_unique : forall (st : state T) pd L1 L2, wf_state st ->
    common_lengths st pd L1 -> common_lengths st pd L2 -> forall d, L1 d = L2 d.
  Proof.
    intros st pd L1 L2 Hwf (A1 & B1) (A2 & B2) d.
    destruct (listed_dim_dec st pd d) as [(name & p & ds & a & Hl & Hd)|Hn].
    - assert (Hh : exists n, has_dim a d n).
      { destruct (Hwf name a) as [(Hlen & _) _]; [apply Hl|].
        apply In_nth_error in Hd as (i & Hi).
        assert (Hlt : i < length (shape (arr a))) by (rewrite <- Hlen; apply nth_error_Some; congruence).
        apply nth_error_Some in Hlt. destruct (nth_error (shape (arr a)) i) as [n|] eqn:En; [|congruence].
        exists n. unfold has_dim. clear - Hi En. revert i Hi En. generalize (shape (arr a)).
        induction (dims a) as [|x l IH]; intros l0 i Hi En; [destruct i; discriminate|].
        destruct l0 as [|y l0]; [destruct i; discriminate|].
        destruct i as [|i]; simpl in *; [left; congruence|right; eauto]. }
      destruct Hh as (n & Hh). rewrite (A1 _ _ _ _ _ _ Hl Hh), (A2 _ _ _ _ _ _ Hl Hh). auto.
    - rewrite B1, B2; auto.
  Qed.

  Lemma axis_len_ext : forall W L1 L2 d, (forall d, L1 d = L2 d) -> axis_len W L1 d = axis_len W L2 d.
  Proof.
    intros W L1 L2 d H. unfold axis_len. destruct (String.eqb d "*"); auto.
    rewrite (map_ext _ _ H); auto.
  Qed.

  Lemma axis_pos_ext : forall W L1 L2 c d, (forall d, L1 d = L2 d) -> axis_pos W L1 c d = axis_pos W L2 c d.
  Proof.
    intros W L1 L2 c d H. unfold axis_pos. destruct (String.eqb d "*"); auto.
    rewrite (map_ext _ _ H); auto.
  Qed.

  (** C01 *)
  Lemma main_shapes : forall (st : state T) pd raw,
    wf_state st -> wf_pdict pd ->
    NoDup (map (fun np => raw_name (fst np) (snd np)) pd) ->
    get_numpy_arrays_with_properties st pd = Ok raw ->
    keys raw = map (fun np => raw_name (fst np) (snd np)) pd /\
    (exists L, common_lengths st pd L) /\
    forall L, common_lengths st pd L ->
      forall name p ds, In (name, p) pd -> p_dims p = Some ds ->
        exists r, dget (raw_name name p) raw = Some r /\
          shape r = map (axis_len (wildcard_dims st pd) L) ds /\ wf_nd r.
  Proof.
    intros st pd raw Hwf Hwp Hnd H.
    destruct (extraction_spec st pd raw Hwf Hwp Hnd H) as (L0 & HL0 & Hk & Hr).
    split; auto. split; [eauto|]. intros L HL name p ds Hin Hds.
    destruct (Hr name p Hin) as (r & Hr' & ds' & u & a & q & E1 & E2 & E3 & E4 & E5 & E6 & E7).
    rewrite Hds in E1; injection E1 as <-. exists r. split; auto. split; auto.
    rewrite E6. apply map_ext. intros d. apply axis_len_ext.
    apply (common_lengths_unique st pd); auto.
  Qed.

  (** C02 *)
  Lemma main_values : forall (st : state T) pd raw,
    wf_state st -> wf_pdict pd ->
    NoDup (map (fun np => raw_name (fst np) (snd np)) pd) ->
    get_numpy_arrays_with_properties st pd = Ok raw ->
    forall L, common_lengths st pd L ->
      forall name p ds u, In (name, p) pd -> p_dims p = Some ds -> p_units p = Some u ->
        exists a q r, dget name st = Some (VDA a) /\ to_units a u = Ok q /\
          dget (raw_name name p) raw = Some r /\
          forall c, grid_point (wildcard_dims st pd) L c ds ->
            at_ r (map (axis_pos (wildcard_dims st pd) L c) ds) = da_at q c.
  Proof.
    intros st pd raw Hwf Hwp Hnd H L HL name p ds u Hin Hds Hu.
    destruct (extraction_spec st pd raw Hwf Hwp Hnd H) as (L0 & HL0 & Hk & Hr).
    destruct (Hr name p Hin) as (r & Hr' & ds' & u' & a & q & E1 & E2 & E3 & E4 & E5 & E6 & E7).
    rewrite Hds in E1; injection E1 as <-. rewrite Hu in E2; injection E2 as <-.
    assert (HLL : forall d, L d = L0 d) by (apply (common_lengths_unique st pd); auto).
    exists a, q, r. repeat split; auto. intros c Hg. rewrite <- E7.
    - f_equal. apply map_ext. intros d. apply axis_pos_ext; auto.
    - intros d Hd. specialize (Hg d Hd). destruct (String.eqb d "*").
      + intros w Hw. rewrite <- HLL; auto.
      + rewrite <- HLL; auto.
  Qed.

  (** C04 *)
  Lemma main_restore : forall (st : state T) raw outp inp ign b out,
    wf_state st -> NoDup (keys outp) ->
    (forall name ds, declared_dims outp inp name ds -> one_star ds) ->
    restore_data_arrays_with_properties raw outp st inp ign b = Ok out ->
    (forall name, In name (keys out) <-> In name (keys outp) /\ ~ ignored raw outp ign b name) /\
    (forall name p, dget name outp = Some p -> ~ ignored raw outp ign b name ->
       exists ds u ra q, declared_dims outp inp name ds /\ p_units p = Some u /\
         dget (out_key outp inp name) raw = Some ra /\ dget name out = Some q /\
         attrs q = [("units", u)] /\
         dims q = expand_dims (wildcard_dims st inp) ds /\
         (~ In "*" ds -> arr q = ra) /\
         (NoDup (dims q) ->
          let L := fun d => or1 (dim_len q d) in
          shape ra = map (axis_len (wildcard_dims st inp) L) ds ->
          forall c, da_at q c = at_ ra (map (axis_pos (wildcard_dims st inp) L c) ds))).
  Proof.
    intros st raw outp inp ign b out Hwf Hnd Hos H.
    destruct (restoration_spec st raw outp inp ign b out Hwf Hnd Hos H) as (Hk & Hv).
    split; auto. intros name p Hp Hni.
    destruct (Hv name p Hp Hni) as (ds & q & Hds & Hq & Hre).
    pose proof Hre as (ra & u & E1 & E2 & E3 & E4 & E5 & E6 & E7 & E8 & E9).
    exists ds, u, ra, q. repeat split; auto.
    - intros Hn. specialize (E8 Hn). destruct (arr q), ra; simpl in *; congruence.
    - intros Hndq L Hsh. eapply restored_values; eauto. rewrite <- E4; auto.
  Qed.

  (** C06 *)
  Lemma main_reject : forall (st : state T) raw outp inp ign b out,
    wf_state st -> NoDup (keys outp) ->
    (forall name ds, declared_dims outp inp name ds -> one_star ds) ->
    restore_data_arrays_with_properties raw outp st inp ign b = Ok out ->
    forall name p ds ra, dget name outp = Some p -> ~ ignored raw outp ign b name ->
      declared_dims outp inp name ds -> dget (out_key outp inp name) raw = Some ra ->
      (~ In "*" ds ->
         length (shape ra) = length ds /\
         forall d n, In (d, n) (combine ds (shape ra)) ->
           forall nm p' ds' a m, listed st inp nm p' ds' a -> has_dim a d m -> n = m) /\
      (exists q, dget name out = Some q /\ prod (shape (arr q)) = prod (shape ra) /\
         forall d n, In (d, n) (combine (dims q) (shape (arr q))) ->
           forall nm p' ds' a m, listed st inp nm p' ds' a -> has_dim a d m -> n = m).
  Proof.
    intros st raw outp inp ign b out Hwf Hnd Hos H name p ds ra Hp Hni Hds Hra.
    destruct (restoration_spec st raw outp inp ign b out Hwf Hnd Hos H) as (Hk & Hv).
    destruct (Hv name p Hp Hni) as (ds' & q & Hds' & Hq & Hre).
    rewrite (declared_dims_fun _ _ _ _ _ Hds' Hds) in Hre.
    destruct Hre as (ra' & u & E1 & E2 & E3 & E4 & E5 & E6 & E7 & E8 & E9).
    rewrite Hra in E1; injection E1 as <-. split.
    - intros Hn. specialize (E8 Hn). rewrite expand_dims_none in E4 by auto.
      rewrite E4, E8 in *. split; auto.
    - exists q. auto.
  Qed.

  (** C04, success. *)
  Lemma main_restore_ok : forall (st : state T) raw outp inp ign b L,
    wf_state st -> NoDup (keys outp) ->
    complete st inp -> ~ length_conflict st inp -> ~ unexpected_dim st inp ->
    (forall nm p ds a d n, listed st inp nm p ds a -> has_dim a d n -> L d = n) ->
    (forall name p, dget name outp = Some p -> ~ ignored raw outp ign b name ->
       exists ds u ra, restorable raw st outp inp L name p ds u ra) ->
    exists out, restore_data_arrays_with_properties raw outp st inp ign b = Ok out /\
      (forall name, In name (keys out) <-> In name (keys outp) /\ ~ ignored raw outp ign b name) /\
      forall name p ds u ra, dget name outp = Some p -> ~ ignored raw outp ign b name ->
        restorable raw st outp inp L name p ds u ra ->
        exists q, dget name out = Some q /\ attrs q = [("units", u)] /\
          dims q = expand_dims (wildcard_dims st inp) ds /\ shape (arr q) = map L (dims q) /\
          forall c, da_at q c = at_ ra (map (axis_pos (wildcard_dims st inp) L c) ds).
  Proof.
    intros st raw outp inp ign b L Hwf Hnd Hc Hnc Hnu HL Hall.
    destruct (restore_succeeds st raw outp inp ign b L Hwf Hnd Hc Hnc Hnu HL Hall) as (out & Ho & Hk & Hv).
    exists out. split; auto. split.
    - intros name. rewrite Hk, filter_In, negb_true_iff, mem_false, ignored_iff. tauto.
    - intros name p ds u ra Hp Hni Hre. exists (rebuilt (wildcard_dims st inp) L ds u ra).
      split; [eapply Hv; eauto|]. repeat split; auto.
      intros c. apply rebuilt_at; apply Hre.
  Qed.
End ArraysMain.
