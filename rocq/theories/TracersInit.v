(** Initialised tracer arrays (C48) and the columns of packed tracers (C65). *)
From Coq Require Import String List Bool Arith ZArith Lia.
From Verif Require Import Prelude PreludeFacts ArithM NdArray NdFacts Units DataArrayM Wildcard WildcardFacts GetNp GetNpFacts Restore
  RestoreFacts SpecArrays ExtractFacts RoundTripFacts ArraysMain UnitsFacts InitNp InitFacts Tracers SpecTracers RestoreExtract TracersFacts TracersMain.
Import ListNotations.
Open Scope string_scope.
Open Scope nat_scope.
Open Scope list_scope.

Section Init.
  Context {T : Type} {A : Arith T} {R : Registry}.

  Lemma order_length : forall g p, NoDup (tr_names g ++ map fst (pk_prepend p)) ->
    length (tracer_order g p) = length (tr_names g ++ map fst (pk_prepend p)).
  Proof.
    intros g p N. unfold tracer_order, dedup. set (pre := map fst (pk_prepend p)) in *.
    assert (N1 : NoDup (tr_names g)). { clear - N. induction (tr_names g) as [|x l IH]. constructor. cbn [app] in N. inversion N; subst. constructor; auto. intros K; apply H1, in_or_app; auto. }
    rewrite dedup_acc_id by (auto; intros x _ []).
    assert (E : filter (fun n => negb (mem n pre)) (tr_names g) = tr_names g).
    { clear - N. induction (tr_names g) as [|x l IH]; auto. cbn [app] in N. inversion N; subst. cbn [filter].
      destruct (mem x pre) eqn:E. exfalso. apply H1, in_or_app. right. apply mem_In; auto. cbn [negb]. f_equal; auto. }
    rewrite E, !app_length. lia.
  Qed.

  (** Where two groups of quantities of the same state agree on the lengths. *)
  Definition shared_dims (st : state T) (pd pd' : pdict) (ds : list string) : Prop :=
    forall d, In d ds -> exists n, (exists name pr dl a, listed st pd name pr dl a /\ has_dim a d n) /\ (exists name pr dl a, listed st pd' name pr dl a /\ has_dim a d n).

  Lemma shared_axis : forall (st : state T) pd pd' L L' W qd d, common_lengths st pd L -> common_lengths st pd' L' ->
    shared_dims st pd pd' (expand_dims W qd) -> In d qd -> axis_len W L d = axis_len W L' d.
  Proof.
    intros st pd pd' L L' W qd d (HL & _) (HL' & _) Hs Hd.
    assert (H : forall x, In x (expand_dims W qd) -> L x = L' x).
    { intros x Hx. destruct (Hs x Hx) as (n & (n1 & p1 & d1 & a1 & A1 & A2) & (n2 & p2 & d2 & a2 & B1 & B2)).
      rewrite (HL _ _ _ _ _ _ A1 A2), (HL' _ _ _ _ _ _ B1 B2). auto. }
    unfold axis_len. destruct (String.eqb_spec d "*") as [->|Hne].
    - f_equal. apply map_ext_in. intros x Hx. apply H. apply in_flat_map. exists "*". split; auto.
    - apply H. apply in_flat_map. exists d. split; auto. destruct (String.eqb_spec d "*"). contradiction. left; auto.
  Qed.

  Theorem main_init_tracers : forall g p qd (st : state T) inp outp raw arr out, consistent g -> has_dims p qd -> one_star qd -> wf_state st ->
    wf_pdict inp -> NoDup (map (fun np => raw_name (fst np) (snd np)) inp) ->
    let tp := get_tracer_input_properties g (pk_prepend p) (pk_dims p) in
    NoDup (tr_names g ++ map fst (pk_prepend p)) -> tracer_order g p <> [] ->
    wildcard_dims st inp = wildcard_dims st tp -> shared_dims st inp tp (expand_dims (wildcard_dims st tp) qd) ->
    get_numpy_arrays_with_properties st inp = Ok raw -> pack g p st = Ok arr ->
    initialize_numpy_arrays_with_properties outp raw inp (Some (pk_dims p)) (tr_names g ++ map fst (pk_prepend p)) = Ok out ->
    exists z, dget "tracers" out = Some z /\ shape z = shape arr /\ z = full (shape arr) azero.
  Proof.
    intros g p qd st inp outp raw arr out Hg Hd Hos Hwf Hwi Nr tp Nn Hne HW Hsh Hraw Hpack H.
    destruct (main_pack g p qd st arr Hg Hd Hos Hwf Hpack) as (_ & Hwa & L & HL & Hs & _). fold tp in HL, Hs.
    destruct (extraction_spec st inp raw Hwf Hwi Nr Hraw) as (L' & HL' & Hk & Hx).
    unfold initialize_numpy_arrays_with_properties in H. apply bind_ok in H as (dl & Hdl & H). apply bind_ok in H as (dd & _ & H).
    apply bind_ok in H as (out0 & _ & H). apply bind_ok in H as (sh & Hsh' & H). injection H as <-.
    apply dim_lengths_spec in Hdl as (_ & Hback).
    assert (Eax : forall d, In d qd -> dget d dl = Some (axis_len (wildcard_dims st tp) L d) \/ dget d dl = None).
    { intros d Hdq. destruct (dget d dl) as [n|] eqn:E; auto. left. f_equal. apply Hback in E as (nm & pr & ds & i & Hin & Htr & Hds & Hi & Hax).
      destruct (Hx nm pr Hin) as (r & Hr & ds' & u' & a & q & E1 & _ & _ & _ & _ & E6 & _). rewrite Hds in E1. injection E1 as <-.
      unfold raw_axis, dgetE in Hax. rewrite Hr in Hax. cbn [bind] in Hax. rewrite E6, nth_error_map, Hi in Hax. cbn [option_map] in Hax. injection Hax as <-.
      rewrite HW. eapply shared_axis; eauto. }
    assert (Esh : sh = shape arr).
    { rewrite Hs. unfold tracer_shape. rewrite <- (order_length g p Nn) in Hsh'.
      assert (G : forall l, (forall d, In d l -> d = "tracer" \/ In d qd) ->
                forall sh, mapM (fun d => dgetE d (dset "tracer" (length (tracer_order g p)) dl)) l = Ok sh -> sh = map (tracer_axis (length (tracer_order g p)) (wildcard_dims st tp) L) l).
      { induction l as [|d l IH]; intros Hl s Hm. cbn in Hm. injection Hm as <-. auto.
        cbn [mapM] in Hm. apply bind_ok in Hm as (x & Hx' & Hm). apply bind_ok in Hm as (xs & Hxs & Hm). injection Hm as <-. cbn [map]. f_equal.
        - unfold tracer_axis. unfold dgetE in Hx'. destruct (String.eqb_spec d "tracer") as [->|Hn].
          + rewrite dget_dset_eq in Hx'. injection Hx' as <-. auto.
          + rewrite dget_dset_neq in Hx' by auto. destruct (Hl d (or_introl eq_refl)) as [K|K]; [contradiction|].
            destruct (Eax d K) as [E|E]; rewrite E in Hx'; [injection Hx' as <-; auto|discriminate Hx'].
        - apply IH; auto. intros y Hy. apply Hl. right; auto. }
      apply G in Hsh'. rewrite Hsh'. destruct (tracer_order g p) as [|m0 rest]. contradiction. auto.
      intros d Hdp. destruct Hd as (pre & post & Hd & -> & _). rewrite Hd in Hdp. rewrite in_app_iff in *. cbn [In] in Hdp. intuition. }
    exists (zeros sh). rewrite dget_dset_eq, Esh. auto.
  Qed.

  (** C65: columns of the packed tracers and of the other inputs. *)
  Theorem main_columns_align : forall g p qd (st : state T) inp raw arr, consistent g -> has_dims p qd -> one_star qd -> wf_state st ->
    wf_pdict inp -> NoDup (map (fun np => raw_name (fst np) (snd np)) inp) ->
    let tp := get_tracer_input_properties g (pk_prepend p) (pk_dims p) in
    wildcard_dims st inp = wildcard_dims st tp ->
    get_numpy_arrays_with_properties st inp = Ok raw -> pack g p st = Ok arr ->
    exists L Lt, common_lengths st inp L /\ common_lengths st tp Lt /\
      forall c, let W := wildcard_dims st inp in
        (forall name pr ds u a q r, dget name inp = Some pr -> p_dims pr = Some ds -> p_units pr = Some u -> grid_point W L c ds ->
           dget name st = Some (VDA a) -> to_units a u = Ok q -> dget (raw_name name pr) raw = Some r -> 
           at_ r (map (axis_pos W L c) ds) = da_at q c) /\
        (forall i name u a q, nth_error (tracer_order g p) i = Some name -> tracer_units g p name = Some u -> grid_point W Lt c qd ->
           dget name st = Some (VDA a) -> to_units a u = Ok q -> at_ arr (map (tracer_pos i W Lt c) (pk_dims p)) = da_at q c) /\
        (shared_dims st inp tp W -> axis_pos W L c "*" = tracer_pos 0 W Lt c "*").
  Proof.
    intros g p qd st inp raw arr Hg Hd Hos Hwf Hwi Nr tp HW Hraw Hpack.
    destruct (main_pack g p qd st arr Hg Hd Hos Hwf Hpack) as (_ & Hwa & Lt & HLt & Hs & Hv). fold tp in HLt, Hs, Hv.
    destruct (extraction_spec st inp raw Hwf Hwi Nr Hraw) as (L & HL & Hk & Hx).
    exists L, Lt. split; auto. split; auto. intros c W. split; [|split].
    - intros name pr ds u a q r Hp Hds Hu Hc Ha Hq Hr. destruct (Hx name pr (dget_In _ _ _ Hp)) as (r' & Hr' & ds' & u' & a' & q' & E1 & E2 & E3 & E4 & E5 & E6 & E7).
      rewrite Hr in Hr'. injection Hr' as <-. rewrite Hds in E1. injection E1 as <-. rewrite Hu in E2. injection E2 as <-. rewrite Ha in E3. injection E3 as <-.
      rewrite Hq in E4. injection E4 as <-. apply E7; auto.
    - intros i name u a q Hi Hu Hc Ha Hq. destruct (Hv i name Hi) as (u' & a' & q' & E1 & E2 & E3 & E4). rewrite Hu in E1. injection E1 as <-.
      rewrite Ha in E2. injection E2 as <-. rewrite Hq in E3. injection E3 as <-. unfold W in *. rewrite HW in *. apply E4; auto.
    - intros Hsd. change (ravel (map L W) (map c W) = ravel (map Lt W) (map c W)).
      f_equal. apply map_ext_in. intros x Hxx. destruct HL as (HL & _). destruct HLt as (HLt & _).
      destruct (Hsd x Hxx) as (n & (n1 & p1 & d1 & a1 & A1 & A2) & (n2 & p2 & d2 & a2 & B1 & B2)).
      rewrite (HL _ _ _ _ _ _ A1 A2), (HLt _ _ _ _ _ _ B1 B2). auto.
  Qed.
End Init.
