(** The tracer round trips (C45), histories of the registry (C46, C47), initialised
    arrays (C48). *)
From Coq Require Import String List Bool Arith ZArith Lia.
From Verif Require Import Prelude PreludeFacts ArithM NdArray NdFacts Units DataArrayM Wildcard WildcardFacts GetNp GetNpFacts Restore
  RestoreFacts SpecArrays ExtractFacts RoundTripFacts ArraysMain UnitsFacts InitNp InitFacts Tracers SpecTracers RestoreExtract TracersFacts.
Import ListNotations.
Open Scope string_scope.
Open Scope nat_scope.
Open Scope list_scope.

Section Trips.
  Context {T : Type} {A : Arith T} {R : Registry}.

  Lemma extraction_facts : forall (st : state T) pd raw, wf_state st -> get_numpy_arrays_with_properties st pd = Ok raw ->
    complete st pd /\ ~ length_conflict st pd /\ ~ unexpected_dim st pd.
  Proof.
    intros st pd raw Hwf H. unfold get_numpy_arrays_with_properties in H. apply bind_ok in H as ((wn & dl) & Hscan & _).
    pose proof Hscan as Hs. apply wildcard_matches_spec in Hs as ((Hc & Hu & _ & _) & _); auto.
    split; auto. split; auto. intros Hlc. destruct (wildcard_matches_iff st pd Hwf Hc) as [Hbad _]. rewrite Hbad in Hscan by auto. discriminate.
  Qed.

  (** Unpacking what was packed. *)
  Theorem main_pack_unpack : forall g p qd (st : state T) arr mult, consistent g -> has_dims p qd -> one_star qd -> wf_state st ->
    pack g p st = Ok arr ->
    let W := wildcard_dims st (get_tracer_input_properties g (pk_prepend p) (pk_dims p)) in
    exists out L, common_lengths st (get_tracer_input_properties g (pk_prepend p) (pk_dims p)) L /\
      unpack g p arr st mult = Ok out /\
      (forall m, In m (keys out) <-> In m (tracer_order g p)) /\
      forall m, In m (tracer_order g p) -> exists u a q q', tracer_units g p m = Some u /\ dget m st = Some (VDA a) /\ to_units a u = Ok q /\
        dget m out = Some q' /\ attrs q' = [("units", times_unit u mult)] /\ dims q' = expand_dims W qd /\
        shape (DataArrayM.arr q') = map L (dims q') /\ forall c, grid_point W L c qd -> da_at q' c = da_at q c.
  Proof.
    intros g p qd st arr mult Hg Hd Hos Hwf H W. set (tp := get_tracer_input_properties g (pk_prepend p) (pk_dims p)) in *.
    destruct (get_numpy_arrays_with_properties st tp) as [raw|e] eqn:Er.
    2: { rewrite (pack_raw_err g p qd st Hg Hd e) in H by auto. discriminate H. }
    destruct (pack_raw g p qd st Hg Hd Hos Hwf raw Er) as (arr' & L & Hp & Hw & HL & Hk & Hs & Hr & Hv). rewrite Hp in H. injection H as ->.
    destruct (extraction_facts st tp raw Hwf Er) as (Hc & Hnc & Hnu).
    destruct (unpack_fold arr (tracer_index p) (tracer_order g p) 0 []) as (raw' & Hraw & H1 & _).
    { intros i m Hi. destruct (Hr m (proj2 (nth_error_In' _ _ _ Hi))) as (u & r & _ & Hm & _). destruct (Hv i m r Hi Hm) as (Hsl & _). eauto. }
    assert (Heq : forall m, In m (tracer_order g p) -> dget m raw' = dget m raw).
    { intros m Hm. destruct (H1 m Hm) as (i & r & Hi & Hsl & E). destruct (Hr m Hm) as (u & r' & _ & Hm' & _).
      destruct (Hv i m r' Hi Hm') as (Hsl' & _). cbn [Nat.add] in Hsl. rewrite Hsl in Hsl'. injection Hsl' as <-. rewrite E, Hm'. auto. }
    destruct (unpack_restores g p qd st raw' mult L Hg Hd Hos Hwf) as (out & Ho & Hko & Hvo); auto. { apply HL. }
    { intros m Hm. rewrite (Heq m Hm). destruct (Hr m Hm) as (u & r & _ & Hm' & ds & u' & a & q & E1 & _ & _ & _ & _ & E6 & _).
      cbn in E1. injection E1 as <-. exists r. auto. }
    destruct (main_tracer_quantities g p qd Hg Hd) as (_ & E).
    exists out, L. split; auto. split.
    { unfold unpack. rewrite E, tracer_names_order. unfold enumerate. change (foldM _ (combine _ _) []) with (foldM (unpack_step arr (tracer_index p)) (combine (seq 0 (length (tracer_order g p))) (tracer_order g p)) []).
      rewrite Hraw. exact Ho. }
    split; auto. intros m Hm. destruct (Hr m Hm) as (u & r & Hu & Hm' & ds & u' & a & q & E1 & E2 & E3 & E4 & E5 & E6 & E7).
    cbn in E1, E2. injection E1 as <-. injection E2 as <-.
    destruct (Hvo m u r Hu Hm) as (q' & Q0 & Q1 & Q2 & Q3 & Q4). { rewrite Heq; auto. }
    exists u, a, q, q'. repeat (split; auto). intros c Hc'. rewrite Q4. apply E7; auto.
  Qed.

  (** Packing what was unpacked, into any state that holds the unpacked tracers. *)
  Theorem main_unpack_pack : forall g p qd (st st' : state T) (a : nd T) L, consistent g -> has_dims p qd -> one_star qd ->
    wf_state st -> wf_state st' -> NoDup (map fst (pk_prepend p)) ->
    let tp := get_tracer_input_properties g (pk_prepend p) (pk_dims p) in
    let W := wildcard_dims st tp in
    complete st tp -> ~ length_conflict st tp -> ~ unexpected_dim st tp -> NoDup (expand_dims W qd) ->
    (forall m u, tracer_units g p m = Some u -> exists x, parse u = Some x) ->
    (forall nm pr ds b d n, listed st tp nm pr ds b -> has_dim b d n -> L d = n) ->
    wf_nd a -> shape a = tracer_shape g p W L ->
    exists out, unpack g p a st "" = Ok out /\
      ((forall m, In m (tracer_order g p) -> exists q, dget m out = Some q /\ dget m st' = Some (VDA q)) ->
       pack g p st' = Ok a).
  Proof.
    intros g p qd st st' a L Hg Hd Hos Hwf Hwf' Np tp W Hc Hnc Hnu Hnr Hpu HL Hwa Hs. pose proof (main_tracer_order_once g p Np) as No.
    destruct (main_tracer_quantities g p qd Hg Hd) as ((Nt & Hkt & Hut) & E). fold tp in Nt, Hkt, Hut, E.
    assert (Hsl : forall i m, nth_error (tracer_order g p) i = Some m -> exists r, get_slice a (tracer_index p) i = Ok r /\ wf_nd r /\
              shape r = map (axis_len W L) qd /\ forall idx, in_range idx (map (axis_len W L) qd) -> at_ r idx = at_ a (insert_at (tracer_index p) i idx)).
    { intros i m Hi. destruct (slice_facts g p qd st L a Hd) as (_ & _ & Hsl); auto. { intros K. rewrite K in Hi. destruct i; discriminate Hi. }
      apply Hsl. apply (nth_error_In' _ _ _ Hi). }
    destruct (unpack_fold a (tracer_index p) (tracer_order g p) 0 []) as (raw & Hraw & H1 & _).
    { intros i m Hi. destruct (Hsl i m Hi) as (r & Hr & _). eauto. }
    assert (Hm : forall i m, nth_error (tracer_order g p) i = Some m -> exists r, dget m raw = Some r /\ wf_nd r /\
              shape r = map (axis_len W L) qd /\ forall idx, in_range idx (map (axis_len W L) qd) -> at_ r idx = at_ a (insert_at (tracer_index p) i idx)).
    { intros i m Hi. destruct (H1 m (proj2 (nth_error_In' _ _ _ Hi))) as (j & r & Hj & Hr & Hg'). assert (j = i) by exact (TracersFacts.NoDup_nth _ _ _ _ No Hj Hi). subst j.
      destruct (Hsl i m Hi) as (r' & Hr' & F). cbn [Nat.add] in Hr. rewrite Hr in Hr'. injection Hr' as <-. exists r. auto. }
    assert (Hm' : forall m, In m (tracer_order g p) -> exists i r, nth_error (tracer_order g p) i = Some m /\ dget m raw = Some r /\ wf_nd r /\
              shape r = map (axis_len W L) qd).
    { intros m Hin. apply In_nth_error in Hin as (i & Hi). destruct (Hm i m Hi) as (r & F1 & F2 & F3 & _). exists i, r. auto. }
    assert (Hrawn : map (fun np => raw_name (fst np) (snd np)) tp = keys tp) by apply (tp_raw g p qd Hg Hd).
    destruct (main_restore_extract st st' raw tp L Hwf Hwf') as (out & Ho & Hx); auto.
    { apply (tp_wf g p qd Hg Hd Hos). } { rewrite Hrawn; auto. }
    { intros nm pr ds Hin Hds. apply (tp_entry g p qd Hg Hd) in Hin as (u & _ & ->). cbn in Hds. injection Hds as <-. exact Hnr. }
    { intros nm pr u Hin Hu. apply (tp_entry g p qd Hg Hd) in Hin as (u' & Hu' & ->). cbn in Hu. injection Hu as <-. eauto. }
    { intros nm pr ds Hin Hds. pose proof Hin as Hin'. apply (tp_entry g p qd Hg Hd) in Hin as (u & Hu & ->). cbn in Hds. injection Hds as <-.
      destruct (Hm' nm) as (i & r & _ & F1 & F2 & F3). { apply Hkt. apply in_map_iff. exists (nm, qprops qd u). auto. } exists r. auto. }
    exists out. split.
    { unfold unpack. rewrite E, tracer_names_order. unfold enumerate. change (foldM _ (combine _ _) []) with (foldM (unpack_step a (tracer_index p)) (combine (seq 0 (length (tracer_order g p))) (tracer_order g p)) []).
      rewrite Hraw. cbn [bind]. replace (map (fun np => (fst np, multiply_units "" (snd np))) tp) with tp. exact Ho.
      clear. induction tp as [|[x y] l IH]; cbn [map fst snd]; auto. f_equal; auto. }
    intros Hst. destruct Hx as (raw' & Hr' & Hkr & Hvr). { intros m Hin. apply Hst. apply Hkt; auto. }
    destruct (pack_raw g p qd st' Hg Hd Hos Hwf' raw' Hr') as (arr & L' & Hp & Hw & HL' & Hk & Hs' & Hr & Hv).
    rewrite Hp. f_equal. destruct (tracer_order g p) as [|m0 rest] eqn:Eo.
    - assert (Es : shape arr = shape a). { rewrite Hs, Hs'. unfold tracer_shape. rewrite Eo. auto. }
      apply nd_ext; auto. intros idx Hi. exfalso. rewrite Hs' in Hi. unfold tracer_shape in Hi. rewrite Eo in Hi. destruct Hd as (pre & post & Hd & _).
      rewrite Hd, map_app in Hi. cbn [map] in Hi. apply in_range_mid in Hi as (_ & i & _ & _ & _ & Hi & _). lia.
    - assert (Hne : tracer_order g p <> []) by (rewrite Eo; discriminate).
      destruct (slice_facts g p qd st L a Hd Hne Hs) as (Ea & Hti & _).
      destruct (slice_facts g p qd st' L' arr Hd Hne Hs') as (Er & _ & _). rewrite Eo in *.
      assert (Hdg : forall i m, nth_error (m0 :: rest) i = Some m -> exists u r, dget m raw = Some r /\ dget m raw' = Some r /\ extracted st' tp L' m (qprops qd u) r).
      { intros i m Hi. destruct (Hr m (proj2 (nth_error_In' _ _ _ Hi))) as (u & r & Hu & Hg' & He). exists u, r. split; auto.
        assert (Hin : In (m, qprops qd u) tp) by (apply dget_In; rewrite Hut, Hu; auto). specialize (Hvr m _ Hin). cbn in Hvr. rewrite <- Hvr. auto. }
      assert (Eax : map (axis_len (wildcard_dims st' tp) L') qd = map (axis_len W L) qd).
      { destruct (Hdg 0 m0 eq_refl) as (u & r & G1 & G2 & ds & u' & a' & q & E1 & _ & _ & _ & _ & E6 & _). cbn in E1. injection E1 as <-.
        destruct (Hm 0 m0 eq_refl) as (r' & G1' & _ & S' & _). rewrite G1 in G1'. injection G1' as <-. rewrite <- E6. auto. }
      assert (Es : shape arr = shape a). { rewrite Er, Ea. fold tp. rewrite Eax. auto. }
      apply nd_ext; auto. intros idx Hi. rewrite Es, Ea in Hi. apply insert_surj in Hi as (i & idx' & -> & Hi & Hx'); auto.
      destruct (nth_error (m0 :: rest) i) as [m|] eqn:Hn. 2: { apply nth_error_None in Hn. lia. }
      destruct (Hdg i m Hn) as (u & r & G1 & G2 & _). destruct (Hv i m r Hn G2) as (_ & Ha). fold tp in Ha. rewrite Ha by (rewrite Eax; auto).
      destruct (Hm i m Hn) as (r' & G1' & _ & _ & Ha'). rewrite G1 in G1'. injection G1' as <-. auto.
  Qed.
End Trips.

(** ** Histories *)

Section Histories.
  Context {R : Registry}.

  Lemma registry_snoc : forall ops op, registry_after (ops ++ [op]) = fst (tracer_step (registry_after ops) op).
  Proof. intros ops op. unfold registry_after. rewrite fold_left_app. reflexivity. Qed.

  Lemma ensure_fold : forall {B} (f : B -> res unit) (l : list B),
    (foldM (fun _ p => f p) l tt = Ok tt <-> forall p, In p l -> f p = Ok tt).
  Proof.
    intros B f l. induction l as [|x l IH]; cbn [foldM].
    - split; auto. intros _ p [].
    - destruct (f x) as [[]|e] eqn:E; cbn [bind].
      + rewrite IH. split; [intros H p [<-|Hp]; auto|intros H p Hp; apply H; right; auto].
      + split; [discriminate|]. intros H. rewrite <- E. apply H. left; auto.
  Qed.

  Lemma ensure_fold_err : forall (l : list packer) name e, foldM (fun _ p => ensure_tracer_not_in_outputs p name) l tt = Err e ->
    e = EInvalidProps /\ exists p, In p l /\ In name (pk_outs p).
  Proof.
    induction l as [|x l IH]; intros name e H; cbn [foldM] in H. discriminate H.
    unfold ensure_tracer_not_in_outputs, raise_if in H. destruct (mem name (pk_outs x)) eqn:E; cbn [bind] in H.
    - injection H as <-. split; auto. exists x. split. left; auto. apply mem_In; auto.
    - apply IH in H as (-> & p & Hp & Hn). split; auto. exists p. split; auto. right; auto.
  Qed.

  Lemma register_cases : forall g name u, 
    (exists e, register_tracer g name u = (g, Err e) /\ 
       ((e = EValue /\ exists u0, dget name (tr_units g) = Some u0 /\ units_are_same u0 u = Ok false) \/
        (exists u0, dget name (tr_units g) = Some u0 /\ units_are_same u0 u = Err e))) \/
    ((forall u0, dget name (tr_units g) = Some u0 -> units_are_same u0 u = Ok true) /\
     exists r, register_tracer g name u = (mktreg (dset name u (tr_units g)) (tr_names g ++ [name]) (tr_packers g), r) /\
       ((r = Ok tt /\ forall p, In p (tr_packers g) -> ~ In name (pk_outs p)) \/
        (r = Err EInvalidProps /\ exists p, In p (tr_packers g) /\ In name (pk_outs p)))).
  Proof.
    intros g name u. unfold register_tracer. destruct (dget name (tr_units g)) as [u0|] eqn:E.
    - destruct (units_are_same u0 u) as [[]|e] eqn:Es; cbn [bind negb].
      + right. split. { intros u1 H. injection H as <-. auto. } eexists. split; [reflexivity|].
        destruct (foldM _ (tr_packers g) tt) as [[]|e] eqn:F.
        * left. split; auto. intros p Hp Hn. apply (proj1 (ensure_fold (fun p => ensure_tracer_not_in_outputs p name) _)) with (p := p) in F; auto.
          unfold ensure_tracer_not_in_outputs, raise_if in F. apply mem_In in Hn. rewrite Hn in F. discriminate F.
        * right. apply ensure_fold_err in F as (-> & F). auto.
      + left. exists EValue. split; auto. left. split; auto. exists u0. auto.
      + left. exists e. split; auto. right. exists u0. auto.
    - right. split. { intros u1 H. discriminate H. } eexists. split; [reflexivity|].
      destruct (foldM _ (tr_packers g) tt) as [[]|e] eqn:F.
      * left. split; auto. intros p Hp Hn. apply (proj1 (ensure_fold (fun p => ensure_tracer_not_in_outputs p name) _)) with (p := p) in F; auto.
        unfold ensure_tracer_not_in_outputs, raise_if in F. apply mem_In in Hn. rewrite Hn in F. discriminate F.
      * right. apply ensure_fold_err in F as (-> & F). auto.
  Qed.

  Lemma new_packer_cases : forall g pre td outs, let p := mkpacker pre td outs in
    (exists e, new_packer g pre td outs = (g, Err e)) \/
    (new_packer g pre td outs = (mktreg (tr_units g) (tr_names g) (tr_packers g ++ [p]), Ok p) /\ In "tracer" td /\
     (forall n, In n (map fst pre) -> ~ In n outs) /\ (forall n, In n (keys (tr_units g)) -> ~ In n outs)).
  Proof.
    intros g pre td outs p. unfold new_packer, get_quantity_dims. destruct (mem "tracer" td) eqn:E; [|left; eauto].
    destruct (foldM _ pre tt) as [[]|e] eqn:F1; [|left; eauto].
    destruct (foldM _ (tr_units g) tt) as [[]|e] eqn:F2; [|left; eauto].
    right. split; auto. split. apply mem_In; auto.
    pose proof (proj1 (ensure_fold (fun nu : string * string => if dmem (fst nu) (tr_units g) then Ok tt
                               else ensure_tracer_not_in_outputs (mkpacker pre td outs) (fst nu)) pre) F1) as G1.
    pose proof (proj1 (ensure_fold (fun nu : string * string => ensure_tracer_not_in_outputs (mkpacker pre td outs) (fst nu)) (tr_units g)) F2) as G2.
    assert (H2 : forall n, In n (keys (tr_units g)) -> ~ In n outs).
    { intros n Hn Ho. apply in_map_iff in Hn as ([n' u] & <- & Hn). specialize (G2 _ Hn). unfold ensure_tracer_not_in_outputs, raise_if in G2. cbn [fst pk_outs] in G2.
      apply mem_In in Ho. cbn [fst] in Ho. rewrite Ho in G2. discriminate G2. }
    split; auto. intros n Hn Ho. apply in_map_iff in Hn as ([n' u] & <- & Hn). specialize (G1 _ Hn). cbn [fst] in *.
    destruct (dmem n' (tr_units g)) eqn:Em. { apply dmem_In in Em. apply (H2 n'); auto. }
    unfold ensure_tracer_not_in_outputs, raise_if in G1. cbn [pk_outs] in G1. apply mem_In in Ho. rewrite Ho in G1. discriminate G1.
  Qed.

  (** C46: the two parts of the registry agree. *)
  Theorem main_registry_consistent : forall ops, consistent (registry_after ops).
  Proof.
    intros ops. induction ops as [|op ops IH] using rev_ind. { split. constructor. intros n; split; intros []. }
    rewrite registry_snoc. set (g := registry_after ops) in *. destruct op as [n u| | |pre td outs]; cbn [tracer_step].
    - destruct (register_cases g n u) as [(e & -> & _)|(_ & r & -> & _)]; auto. destruct IH as (N & Hc). split; cbn [fst tr_units tr_names].
      + apply NoDup_dset; auto.
      + intros x. rewrite in_app_iff, Hc. cbn [In]. destruct (string_dec x n) as [->|Hx].
        * split; auto. intros _. eapply dget_In_keys. apply dget_dset_eq.
        * split.
          -- intros [K|[K|[]]]; [|congruence]. apply In_keys_dget in K as (y & Hy). eapply dget_In_keys. rewrite dget_dset_neq by auto. eauto.
          -- intros K. left. apply In_keys_dget in K as (y & Hy). rewrite dget_dset_neq in Hy by auto. eapply dget_In_keys; eauto.
    - split. constructor. intros x; split; intros [].
    - exact IH.
    - destruct (new_packer_cases g pre td outs) as [(e & ->)|(-> & _)]; exact IH.
  Qed.

  (** C46: a name is never registered anew with different units. *)
  Theorem main_reregister : forall ops name u u', dget name (tr_units (registry_after ops)) = Some u ->
    units_are_same u u' = Ok false ->
    outcome ops (Register name u') = Err EValue /\ registry_after (ops ++ [Register name u']) = registry_after ops.
  Proof.
    intros ops name u u' Hu Hs. rewrite registry_snoc. unfold outcome. cbn [tracer_step]. unfold register_tracer. rewrite Hu, Hs. auto.
  Qed.

  Lemma same_trans : forall u1 u2 u3, units_are_same u1 u2 = Ok true -> units_are_same u2 u3 = Ok true -> units_are_same u1 u3 = Ok true.
  Proof.
    intros u1 u2 u3 H1 H2. unfold units_are_same, parseE in *. destruct (parse u1) as [a|]; [|discriminate H1]. destruct (parse u2) as [b|]; [|discriminate H1].
    destruct (parse u3) as [c|]; [|discriminate H2]. cbn [bind] in *. injection H1 as H1. injection H2 as H2. apply one_eqb_eq in H1 as (A1 & A2). apply one_eqb_eq in H2 as (B1 & B2).
    f_equal. apply one_eqb_eq. split; congruence.
  Qed.

  Lemma reregister_units : forall ops' ops name u, dget name (tr_units (registry_after ops)) = Some u -> ~ In ResetTracers ops' ->
    exists u', dget name (tr_units (registry_after (ops ++ ops'))) = Some u' /\ (u' = u \/ units_are_same u u' = Ok true).
  Proof.
    induction ops' as [|op ops' IH] using rev_ind; intros ops name u Hu Hn. { rewrite app_nil_r. eauto. }
    destruct (IH ops name u Hu) as (u' & Hu' & Hs). { intros K. apply Hn, in_or_app. auto. }
    rewrite app_assoc, registry_snoc. set (g := registry_after (ops ++ ops')) in *.
    destruct op as [n v| | |pre td outs]; cbn [tracer_step].
    - destruct (register_cases g n v) as [(e & -> & _)|(Hsame & r & -> & _)]. { exists u'. auto. }
      cbn [fst tr_units]. destruct (string_dec name n) as [<-|Hne]; [|rewrite dget_dset_neq by auto; eauto].
      rewrite dget_dset_eq. exists v. split; auto. right. specialize (Hsame u' Hu'). destruct Hs as [->|Hs]; auto. eapply same_trans; eauto.
    - exfalso. apply Hn, in_or_app. right. left. auto.
    - exists u'. auto.
    - destruct (new_packer_cases g pre td outs) as [(e & ->)|(-> & _)]; exists u'; auto.
  Qed.

  Theorem main_units_kept : forall ops ops' name u, dget name (tr_units (registry_after ops)) = Some u -> ~ In ResetTracers ops' ->
    exists u', dget name (tr_units (registry_after (ops ++ ops'))) = Some u' /\ (u' = u \/ units_are_same u u' = Ok true).
  Proof. intros ops ops' name u H1 H2. apply reregister_units; auto. Qed.

  (** C46: outputs of live packers. *)
  Theorem main_outputs : forall ops p name, In p (tr_packers (registry_after ops)) -> In name (pk_outs p) ->
    ~ In name (map fst (pk_prepend p)) /\
    (In name (keys (tr_units (registry_after ops))) ->
     exists ops1 u ops2, ops = ops1 ++ Register name u :: ops2 /\ outcome ops1 (Register name u) = Err EInvalidProps /\ In p (tr_packers (registry_after ops1))).
  Proof.
    intros ops. induction ops as [|op ops IH] using rev_ind; intros p name Hp Ho. { destruct Hp. }
    rewrite registry_snoc in *. set (g := registry_after ops) in *.
    assert (Hext : In p (tr_packers g) -> In name (keys (tr_units g)) -> 
       exists ops1 u ops2, ops ++ [op] = ops1 ++ Register name u :: ops2 /\ outcome ops1 (Register name u) = Err EInvalidProps /\ In p (tr_packers (registry_after ops1))).
    { intros Hp' Hk. destruct (IH p name Hp' Ho) as (_ & H). destruct (H Hk) as (ops1 & u & ops2 & -> & H1 & H2).
      exists ops1, u, (ops2 ++ [op]). rewrite <- app_assoc. auto. }
    destruct op as [n v| | |pre td outs]; cbn [tracer_step] in *.
    - destruct (register_cases g n v) as [(e & Er & _)|(_ & r & Er & Hr)]; rewrite Er in *; cbn [fst tr_packers tr_units] in *.
      + split. apply (IH p name); auto. auto.
      + split. apply (IH p name); auto. intros Hk. destruct (string_dec name n) as [<-|Hne].
        * exists ops, v, []. split; auto. split; auto. unfold outcome. cbn [tracer_step]. fold g. rewrite Er. cbn [snd].
          destruct Hr as [(_ & Hno)|(-> & _)]; auto. exfalso. apply (Hno p); auto.
        * apply Hext; auto. apply In_keys_dget in Hk as (y & Hy). rewrite dget_dset_neq in Hy by auto. eapply dget_In_keys; eauto.
    - split. apply (IH p name); auto. intros [].
    - destruct Hp.
    - destruct (new_packer_cases g pre td outs) as [(e & Er)|(Er & Htd & Hpre & Hreg)]; rewrite Er in *; cbn [fst tr_packers tr_units] in *.
      + split. apply (IH p name); auto. auto.
      + apply in_app_iff in Hp as [Hp|[<-|[]]].
        * split. apply (IH p name); auto. auto.
        * cbn [pk_outs pk_prepend] in *. split. { intros K. apply (Hpre name); auto. } intros Hk. exfalso. apply (Hreg name); auto.
  Qed.

  (** C46: every live packer lists 'tracer' among its dims. *)
  Theorem main_packer_dims : forall ops p, In p (tr_packers (registry_after ops)) -> In "tracer" (pk_dims p).
  Proof.
    intros ops. induction ops as [|op ops IH] using rev_ind; intros p Hp. { destruct Hp. }
    rewrite registry_snoc in *. set (g := registry_after ops) in *. destruct op as [n v| | |pre td outs]; cbn [tracer_step] in *.
    - destruct (register_cases g n v) as [(e & Er & _)|(_ & r & Er & Hr)]; rewrite Er in *; auto.
    - auto.
    - destruct Hp.
    - destruct (new_packer_cases g pre td outs) as [(e & Er)|(Er & Htd & _)]; rewrite Er in *; auto.
      cbn [fst tr_packers] in Hp. apply in_app_iff in Hp as [Hp|[<-|[]]]; auto.
  Qed.

  (** C47: refusals, other than for an output of a component, change nothing. *)
  Theorem main_refused_unchanged : forall ops op e, outcome ops op = Err e -> (forall n u, op = Register n u -> e <> EInvalidProps) ->
    registry_after (ops ++ [op]) = registry_after ops.
  Proof.
    intros ops op e H Hne. rewrite registry_snoc. unfold outcome in H. set (g := registry_after ops) in *. destruct op as [n v| | |pre td outs]; cbn [tracer_step] in *; try discriminate H.
    - destruct (register_cases g n v) as [(e' & Er & _)|(_ & r & Er & Hr)]; rewrite Er in *; auto. exfalso. cbn [snd] in H.
      destruct Hr as [(-> & _)|(-> & _)]. discriminate H. injection H as <-. apply (Hne n v); auto.
    - destruct (new_packer_cases g pre td outs) as [(e' & Er)|(Er & _)]; rewrite Er in *; auto. discriminate H.
  Qed.

  (** C47: when registrations are refused, and what accepted ones record. *)
  Theorem main_register_iff : forall ops name u,
    (outcome ops (Register name u) = Err EInvalidProps <->
       (forall u0, dget name (tr_units (registry_after ops)) = Some u0 -> units_are_same u0 u = Ok true) /\
       exists p, In p (tr_packers (registry_after ops)) /\ In name (pk_outs p)) /\
    (outcome ops (Register name u) = Err EValue <-> exists u0, dget name (tr_units (registry_after ops)) = Some u0 /\ units_are_same u0 u = Ok false) /\
    (outcome ops (Register name u) = Ok tt ->
       let g := registry_after ops in let g' := registry_after (ops ++ [Register name u]) in
       dget name (tr_units g') = Some u /\ (forall m, m <> name -> dget m (tr_units g') = dget m (tr_units g)) /\
       tr_names g' = tr_names g ++ [name] /\ tr_packers g' = tr_packers g).
  Proof.
    intros ops name u. rewrite registry_snoc. unfold outcome. set (g := registry_after ops). cbn [tracer_step].
    destruct (register_cases g name u) as [(e & Er & Hc)|(Hs & r & Er & Hr)]; rewrite Er; cbn [fst snd].
    - assert (Hex : exists u0, dget name (tr_units g) = Some u0 /\ units_are_same u0 u <> Ok true).
      { destruct Hc as [(-> & u0 & H1 & H2)|(u0 & H1 & H2)]; exists u0; split; auto; rewrite H2; discriminate. }
      assert (Hpe : forall u0, units_are_same u0 u = Err e -> e = EUndefinedUnit).
      { intros u0 K. unfold units_are_same, parseE in K. destruct (parse u0), (parse u); cbn [bind] in K; congruence. }
      split; [|split].
      + split.
        * intros K. injection K as ->. exfalso. destruct Hc as [(K & _)|(u0 & _ & K)]. discriminate K. apply Hpe in K. discriminate K.
        * intros (K & _). destruct Hex as (u0 & H1 & H2). exfalso. apply H2. auto.
      + split.
        * intros K. injection K as ->. destruct Hc as [(_ & Hc)|(u0 & _ & K)]; auto. apply Hpe in K. discriminate K.
        * intros (u0 & H1 & H2). destruct Hc as [(-> & _)|(u1 & H3 & H4)]; auto. rewrite H1 in H3. injection H3 as <-. rewrite H2 in H4. discriminate H4.
      + discriminate.
    - split; [|split].
      + split.
        * intros ->. split; auto. destruct Hr as [(K & _)|(_ & Hr)]; auto. discriminate K.
        * intros (_ & p & H1 & H2). destruct Hr as [(_ & K)|(-> & _)]; auto. exfalso. apply (K p); auto.
      + split.
        * intros ->. destruct Hr as [(K & _)|(K & _)]; discriminate K.
        * intros (u0 & H1 & H2). rewrite (Hs u0 H1) in H2. discriminate H2.
      + intros _. cbn [tr_units tr_names tr_packers]. split. apply dget_dset_eq. split; auto. intros m Hm. apply dget_dset_neq; auto.
  Qed.

  (** The order of the arrays never changes when tracers are registered: new ones come last. *)
  Theorem main_order_stable : forall g p name u, let g' := fst (register_tracer g name u) in
    exists more, tracer_order g' p = tracer_order g p ++ more /\ (more = [] \/ more = [name]).
  Proof.
    intros g p name u g'. subst g'. destruct (register_cases g name u) as [(e & Er & _)|(_ & r & Er & _)]; rewrite Er; cbn [fst].
    - exists []. rewrite app_nil_r. auto.
    - unfold tracer_order. cbn [tr_names]. unfold dedup. rewrite dedup_acc_app, filter_app, app_assoc. eexists. split; [reflexivity|].
      cbn [dedup_acc]. destruct (mem name _); cbn [filter]; auto. destruct (negb _); auto.
  Qed.
End Histories.
