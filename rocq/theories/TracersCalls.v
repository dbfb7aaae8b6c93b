(** Calls of components that use tracers (C11). *)
From Coq Require Import String List Bool Arith ZArith Lia.
From Verif Require Import Prelude PreludeFacts ArithM NdArray NdFacts Units DataArrayM Wildcard WildcardFacts GetNp GetNpFacts Restore
  RestoreFacts SpecArrays ExtractFacts RoundTripFacts ArraysMain UnitsFacts InitNp InitFacts Tracers SpecTracers RestoreExtract TracersFacts TracersMain
  Components SpecComponents SpecCalls CallFacts ComponentsMain.
Import ListNotations.
Open Scope string_scope.
Open Scope nat_scope.
Open Scope list_scope.

Section Calls.
  Context {T : Type} {A : Arith T} {R : Registry}.

  Lemma raw_state_tracers : forall g inp p (st : state T) raw, raw_state g inp (Some p) st = Ok raw ->
    exists arr, pack g p st = Ok arr /\ dget "tracers" raw = Some (RArr arr).
  Proof.
    intros g inp p st raw H. unfold raw_state in H. apply bind_ok in H as ([] & _ & H). apply bind_ok in H as (r & _ & H).
    apply bind_ok in H as (r2 & H2 & H). apply bind_ok in H2 as (arr & Hp & H2). injection H2 as <-.
    apply bind_ok in H as (t & Ht & H). injection H as <-. exists arr. split; auto.
    rewrite dget_dset_neq by discriminate. apply dget_dset_eq.
  Qed.

  Lemma multiplied_star : forall g p qd mult, consistent g -> has_dims p qd -> one_star qd ->
    let tp := get_tracer_input_properties g (pk_prepend p) (pk_dims p) in
    stars_ok (map (fun np => (fst np, multiply_units mult (snd np))) tp) tp.
  Proof.
    intros g p qd mult Hg Hd Hos tp name ds (pr & Hpr & Hor).
    assert (E : dget name (map (fun np => (fst np, multiply_units mult (snd np))) tp) = option_map (multiply_units mult) (dget name tp)).
    { clear. induction tp as [|[x y] l IH]; auto. cbn [map fst snd dget]. destruct (String.eqb name x); auto. }
    rewrite E in Hpr. destruct (dget name tp) as [pr0|] eqn:E0; [|discriminate Hpr]. cbn [option_map] in Hpr. injection Hpr as <-.
    pose proof (dget_In _ _ _ E0) as Hin. apply (tp_entry g p qd Hg Hd) in Hin as (u & _ & ->). rewrite multiply_qprops in Hor. cbn in Hor.
    destruct Hor as [K|(K & _)]; [injection K as <-; auto|discriminate K].
  Qed.

  Lemma unpack_keys : forall g p qd (a : nd T) (st : state T) mult out, consistent g -> has_dims p qd -> one_star qd -> wf_state st ->
    unpack g p a st mult = Ok out -> (forall m, In m (keys out) <-> In m (tracer_order g p)) /\ NoDup (keys out).
  Proof.
    intros g p qd a st mult out Hg Hd Hos Hwf H. unfold unpack in H. destruct (main_tracer_quantities g p qd Hg Hd) as ((N & Hk & _) & E). rewrite E in H.
    set (tp := get_tracer_input_properties g (pk_prepend p) (pk_dims p)) in *. apply bind_ok in H as (raw & _ & H).
    split; [|eapply restore_NoDup; eauto].
    assert (Ek : keys (map (fun np => (fst np, multiply_units mult (snd np))) tp) = keys tp) by (unfold keys; rewrite map_map; auto).
    assert (Nm : NoDup (keys (map (fun np => (fst np, multiply_units mult (snd np))) tp))) by (rewrite Ek; auto).
    destruct (restore_declared _ _ _ _ _ _ Hwf Nm (multiplied_star g p qd mult Hg Hd Hos) H) as (Ho & _).
    intros m. rewrite Ho, Ek, Hk. cbn [In]. tauto.
  Qed.

  Lemma carries_ddel : forall (st : state T) outp inp rt X q, carries st outp inp (ddel "tracers" rt) X q -> carries st outp inp rt X q.
  Proof.
    intros st outp inp rt X q (ds & ra & H1 & H2 & H3). exists ds, ra. split; auto. split; auto.
    rewrite dget_ddel in H2. destruct (String.eqb _ _); auto. discriminate H2.
  Qed.

  (** Values of the unpacked tracers in the final dictionary. *)
  Lemma unpacked_update : forall g p qd W L mult (a : nd T) (out new : dict (da T)), NoDup (keys new) -> unpacked g p qd W L mult a out ->
    (forall m, In m (tracer_order g p) -> ~ In m (keys new)) -> unpacked g p qd W L mult a (dupdate out new).
  Proof.
    intros g p qd W L mult a out new N Hu Hno i m Hi. destruct (Hu i m Hi) as (u & q & E1 & E2 & E3). exists u, q. split; auto. split; auto.
    rewrite dget_dupdate by auto. assert (K : dget m new = None) by (apply dget_none, Hno; apply (nth_error_In' _ _ _ Hi)). rewrite K. auto.
  Qed.

  Theorem main_tendency_tracers : forall {U} g c p qd (ac : U -> dict (rval T) -> U * res (dict (nd T) * dict (nd T))) u u' (st : state T) tout dout,
    consistent g -> t_packer c = Some p -> has_dims p qd -> one_star qd -> NoDup (map fst (pk_prepend p)) -> wf_state st ->
    NoDup (keys (t_tend c)) -> stars_ok (t_tend c) (t_inp c) -> (forall m, In m (tracer_order g p) -> ~ In m (keys (t_tend c))) ->
    tendency_call g c ac u st = (u', Ok (tout, dout)) ->
    let tp := get_tracer_input_properties g (pk_prepend p) (pk_dims p) in
    exists raw arr rt rd a L, pack g p st = Ok arr /\ dget "tracers" raw = Some (RArr arr) /\
      ac u raw = (u', Ok (rt, rd)) /\ dget "tracers" rt = Some a /\ common_lengths st tp L /\
      (forall k, In k (keys tout) <-> In k (keys (t_tend c)) \/ In k (tracer_order g p)) /\
      (forall X q, In X (keys (t_tend c)) -> dget X tout = Some q -> conforms st (t_tend c) (t_inp c) X q /\ carries st (t_tend c) (t_inp c) rt X q) /\
      (shape a = shape arr -> unpacked g p qd (wildcard_dims st tp) L (t_tunit c) a tout) /\
      (t_tid c = true -> forall X q, dget X tout = Some q -> dget (tendency_name (t_name c) X) dout = Some q).
  Proof.
    intros U g c p qd ac u u' st tout dout Hg Hpk Hd Hos Np Hwf Nt Hst Hno H tp. unfold tendency_call in H.
    destruct (let* _ := raise_if _ _ in _) as [raw|e] eqn:Eraw; [|congruence]. apply bind_ok in Eraw as ([] & _ & Eraw). rewrite Hpk in Eraw.
    destruct (raw_state_tracers _ _ _ _ _ Eraw) as (arr & Hp & Hraw).
    destruct (ac u raw) as [u1 r] eqn:Hac. injection H as <- H.
    apply bind_ok in H as ([rt rd] & -> & H). unfold tendency_finish in H. rewrite Hpk in H. cbn [unpack_tracers fst snd] in H.
    apply bind_ok in H as ((tr & rt') & Hun & H). apply bind_ok in Hun as (a & Ha & Hun). apply bind_ok in Hun as (out & Ho & Hun). injection Hun as <- <-.
    apply bind_ok in H as ([] & _ & H). apply bind_ok in H as ([] & _ & H).
    apply bind_ok in H as (t0 & Ht0 & H). apply bind_ok in H as (dg & Hdg & H). injection H as <- <-.
    pose proof (restore_NoDup _ _ _ _ _ _ _ Ht0) as Nt0. destruct (restore_declared _ _ _ _ _ _ Hwf Nt Hst Ht0) as (Hk0 & Hc0).
    destruct (main_pack g p qd st arr Hg Hd Hos Hwf Hp) as (_ & Hwa & L & HL & Hs & _). fold tp in HL, Hs.
    exists raw, arr, rt, rd, a, L. split; auto. split; auto. split; auto. split. { unfold dgetE in Ha. destruct (dget "tracers" rt); congruence. } split; auto.
    destruct (unpack_keys g p qd a st _ _ Hg Hd Hos Hwf Ho) as (Hko & Nko). split; [|split; [|split]].
    - intros k. rewrite In_keys_dupdate, Hko, Hk0 by auto. cbn [In]. tauto.
    - intros X q HX Hq. rewrite dget_dupdate in Hq by auto. destruct (dget X t0) as [q0|] eqn:E0.
      + injection Hq as <-. split; auto. apply carries_ddel. eapply restore_carries; eauto.
      + exfalso. apply dget_none in E0. apply E0, Hk0. auto.
    - intros Hsh. apply unpacked_update; auto; [|intros m Hm K; apply (Hno m Hm), Hk0; auto].
      unfold pack in Hp. destruct (main_tracer_quantities g p qd Hg Hd) as (_ & E). rewrite E in Hp. fold tp in Hp. apply bind_ok in Hp as (rr & Hrr & _).
      destruct (extraction_facts st tp rr Hwf Hrr) as (Hc & Hnc & Hnu).
      destruct (main_unpack g p qd st a (t_tunit c) L Hg Hd Hos Hwf Np Hc Hnc Hnu) as (out' & Ho' & _ & Hu). { apply HL. } { rewrite Hsh. auto. }
      rewrite Ho in Ho'. injection Ho' as <-. exact Hu.
    - intros Htid. rewrite Htid. apply insert_tendencies_get. apply NoDup_dupdate; auto.
  Qed.

  Theorem main_stepper_tracers : forall {U} g c p qd (ac : U -> dict (rval T) -> Z -> U * res (dict (nd T) * dict (nd T))) u u' (st : state T) dt dout nout,
    consistent g -> s_packer c = Some p -> has_dims p qd -> one_star qd -> NoDup (map fst (pk_prepend p)) -> wf_state st ->
    NoDup (keys (s_out c)) -> stars_ok (s_out c) (s_inp c) -> (forall m, In m (tracer_order g p) -> ~ In m (keys (s_out c))) ->
    stepper_call g c ac u st dt = (u', Ok (dout, nout)) ->
    let tp := get_tracer_input_properties g (pk_prepend p) (pk_dims p) in
    exists raw arr rd rn a L, pack g p st = Ok arr /\ dget "tracers" raw = Some (RArr arr) /\
      ac u raw dt = (u', Ok (rd, rn)) /\ dget "tracers" rn = Some a /\ common_lengths st tp L /\
      (forall k, In k (keys nout) <-> In k (keys (s_out c)) \/ In k (tracer_order g p)) /\
      (forall X q, In X (keys (s_out c)) -> dget X nout = Some q -> conforms st (s_out c) (s_inp c) X q /\ carries st (s_out c) (s_inp c) rn X q) /\
      (shape a = shape arr -> unpacked g p qd (wildcard_dims st tp) L "" a nout).
  Proof.
    intros U g c p qd ac u u' st dt dout nout Hg Hpk Hd Hos Np Hwf Nt Hst Hno H tp. unfold stepper_call in H.
    destruct (let* _ := raise_if _ _ in _) as [raw|e] eqn:Eraw; [|congruence]. apply bind_ok in Eraw as ([] & _ & Eraw). rewrite Hpk in Eraw.
    destruct (raw_state_tracers _ _ _ _ _ Eraw) as (arr & Hp & Hraw).
    destruct (ac u raw dt) as [u1 r] eqn:Hac. injection H as <- H.
    apply bind_ok in H as ([rd rn] & -> & H). unfold stepper_finish in H. rewrite Hpk in H. cbn [unpack_tracers fst snd] in H.
    apply bind_ok in H as ((tr & rt') & Hun & H). apply bind_ok in Hun as (a & Ha & Hun). apply bind_ok in Hun as (out & Ho & Hun). injection Hun as <- <-.
    apply bind_ok in H as ([] & _ & H). apply bind_ok in H as ([] & _ & H). apply bind_ok in H as (rd' & _ & H).
    apply bind_ok in H as (dg & Hdg & H). apply bind_ok in H as (t0 & Ht0 & H). injection H as _ <-.
    pose proof (restore_NoDup _ _ _ _ _ _ _ Ht0) as Nt0. destruct (restore_declared _ _ _ _ _ _ Hwf Nt Hst Ht0) as (Hk0 & Hc0).
    destruct (main_pack g p qd st arr Hg Hd Hos Hwf Hp) as (_ & Hwa & L & HL & Hs & _). fold tp in HL, Hs.
    exists raw, arr, rd, rn, a, L. split; auto. split; auto. split; auto. split. { unfold dgetE in Ha. destruct (dget "tracers" rn); congruence. } split; auto.
    destruct (unpack_keys g p qd a st _ _ Hg Hd Hos Hwf Ho) as (Hko & Nko). split; [|split].
    - intros k. rewrite In_keys_dupdate, Hko, Hk0 by auto. cbn [In]. tauto.
    - intros X q HX Hq. rewrite dget_dupdate in Hq by auto. destruct (dget X t0) as [q0|] eqn:E0.
      + injection Hq as <-. split; auto. apply carries_ddel. eapply restore_carries; eauto.
      + exfalso. apply dget_none in E0. apply E0, Hk0. auto.
    - intros Hsh. apply unpacked_update; auto; [|intros m Hm K; apply (Hno m Hm), Hk0; auto].
      unfold pack in Hp. destruct (main_tracer_quantities g p qd Hg Hd) as (_ & E). rewrite E in Hp. fold tp in Hp. apply bind_ok in Hp as (rr & Hrr & _).
      destruct (extraction_facts st tp rr Hwf Hrr) as (Hc & Hnc & Hnu).
      destruct (main_unpack g p qd st a "" L Hg Hd Hos Hwf Np Hc Hnc Hnu) as (out' & Ho' & _ & Hu). { apply HL. } { rewrite Hsh. auto. }
      rewrite Ho in Ho'. injection Ho' as <-. exact Hu.
  Qed.
End Calls.
