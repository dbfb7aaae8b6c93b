(** The component lemmas in the form used by the property theorems. *)
From Coq Require Import String List Bool Arith ZArith QArith Lia.
From Verif Require Import Prelude PreludeFacts ArithM NdArray NdFacts Units DataArrayM Wildcard GetNp Restore
  SpecArrays RestoreFacts Tracers SpecComponents Components SpecCalls CheckerFacts ComponentFacts CallFacts
  StepperFacts TidFacts ArraysMain.
Import ListNotations.
Open Scope string_scope.
Open Scope nat_scope.
Open Scope list_scope.

Section Main.
  Context {T : Type} {A : Arith T} {R : Registry}.

  Definition well_answered (outp inp : pdict) (ign : list string) (raw : dict (nd T)) : Prop :=
    ~ output_missing outp inp ign raw /\ ~ output_extra outp inp raw.

  (** C09 for calls *)
  Lemma tendency_answers : forall {U} g c (ac : U -> dict (rval T) -> U * res (dict (nd T) * dict (nd T))) u u' st r,
    t_packer c = None -> NoDup (keys (t_tend c)) -> NoDup (keys (t_diag c)) ->
    tendency_call g c ac u st = (u', Ok r) ->
    exists raw rt rd, ac u raw = (u', Ok (rt, rd)) /\
      well_answered (t_tend c) (t_inp c) [] rt /\ well_answered (t_diag c) (t_inp c) (t_added c) rd.
  Proof.
    intros U g c ac u u' st r Hp N1 N2 H. unfold tendency_call in H.
    destruct (let* _ := raise_if _ _ in _) as [raw|e]; [|congruence]. exists raw.
    destruct (ac u raw) as [u1 o]. injection H as <- H. apply bind_ok in H as ((rt & rd) & -> & H).
    exists rt, rd. split; auto. unfold tendency_finish in H. rewrite Hp in H. cbn [unpack_tracers bind fst snd] in H.
    apply bind_ok in H as ([] & C1 & H). apply bind_ok in H as ([] & C2 & H).
    apply check_outputs_iff in C1; auto. apply check_outputs_iff in C2; auto.
  Qed.

  Lemma diagnostic_answers : forall {U} c (ac : U -> dict (rval T) -> U * res (dict (nd T))) u u' st r,
    NoDup (keys (d_diag c)) ->
    diagnostic_call c ac u st = (u', Ok r) ->
    exists raw rd, ac u raw = (u', Ok rd) /\ well_answered (d_diag c) (d_inp c) [] rd.
  Proof.
    intros U c ac u u' st r N1 H. unfold diagnostic_call in H.
    destruct (let* _ := raise_if _ _ in _) as [raw|e]; [|congruence]. exists raw.
    destruct (ac u raw) as [u1 o]. injection H as <- H. apply bind_ok in H as (rd & -> & H).
    exists rd. split; auto. unfold diagnostic_finish in H.
    apply bind_ok in H as ([] & C1 & H). apply check_outputs_iff in C1; auto.
  Qed.

  Lemma stepper_answers : forall {U} g c (ac : U -> dict (rval T) -> Z -> U * res (dict (nd T) * dict (nd T))) u u' st dt r,
    s_packer c = None -> NoDup (keys (s_diag c)) -> NoDup (keys (s_out c)) ->
    stepper_call g c ac u st dt = (u', Ok r) ->
    exists raw rd rn, ac u raw dt = (u', Ok (rd, rn)) /\
      well_answered (s_diag c) (s_inp c) (s_ign c) rd /\ well_answered (s_out c) (s_inp c) [] rn.
  Proof.
    intros U g c ac u u' st dt r Hp N1 N2 H. unfold stepper_call in H.
    destruct (let* _ := raise_if _ _ in _) as [raw|e]; [|congruence]. exists raw.
    destruct (ac u raw dt) as [u1 o]. injection H as <- H. apply bind_ok in H as ((rd & rn) & -> & H).
    exists rd, rn. split; auto. unfold stepper_finish in H. rewrite Hp in H. cbn [unpack_tracers bind] in H.
    apply bind_ok in H as ([] & C1 & H). apply bind_ok in H as ([] & C2 & H).
    apply check_outputs_iff in C1; auto. apply check_outputs_iff in C2; auto.
  Qed.

  Lemma calls_answered :
    (forall {U} g c (ac : U -> dict (rval T) -> U * res (dict (nd T) * dict (nd T))) u u' st r,
      t_packer c = None -> NoDup (keys (t_tend c)) -> NoDup (keys (t_diag c)) ->
      tendency_call g c ac u st = (u', Ok r) ->
      exists raw rt rd, ac u raw = (u', Ok (rt, rd)) /\
        (~ output_missing (t_tend c) (t_inp c) [] rt /\ ~ output_extra (t_tend c) (t_inp c) rt) /\
        (~ output_missing (t_diag c) (t_inp c) (t_added c) rd /\ ~ output_extra (t_diag c) (t_inp c) rd)) /\
    (forall {U} c (ac : U -> dict (rval T) -> U * res (dict (nd T))) u u' st r,
      NoDup (keys (d_diag c)) ->
      diagnostic_call c ac u st = (u', Ok r) ->
      exists raw rd, ac u raw = (u', Ok rd) /\
        ~ output_missing (d_diag c) (d_inp c) [] rd /\ ~ output_extra (d_diag c) (d_inp c) rd) /\
    (forall {U} g c (ac : U -> dict (rval T) -> Z -> U * res (dict (nd T) * dict (nd T))) u u' st dt r,
      s_packer c = None -> NoDup (keys (s_diag c)) -> NoDup (keys (s_out c)) ->
      stepper_call g c ac u st dt = (u', Ok r) ->
      exists raw rd rn, ac u raw dt = (u', Ok (rd, rn)) /\
        (~ output_missing (s_diag c) (s_inp c) (s_ign c) rd /\ ~ output_extra (s_diag c) (s_inp c) rd) /\
        (~ output_missing (s_out c) (s_inp c) [] rn /\ ~ output_extra (s_out c) (s_inp c) rn)).
  Proof.
    split; [|split]; intros.
    - eapply tendency_answers; eauto.
    - eapply diagnostic_answers; eauto.
    - eapply stepper_answers; eauto.
  Qed.

  (** C13 *)
  Lemma unusable_not_called :
    (forall {U} g c (ac : U -> dict (rval T) -> U * res (dict (nd T) * dict (nd T))) u (st : state T),
      wf_state st -> unusable st (t_inp c) -> exists e, tendency_call g c ac u st = (u, Err e)) /\
    (forall {U} c (ac : U -> dict (rval T) -> U * res (dict (nd T))) u (st : state T),
      wf_state st -> unusable st (d_inp c) -> exists e, diagnostic_call c ac u st = (u, Err e)) /\
    (forall {U} g c (ac : U -> dict (rval T) -> Z -> U * res (dict (nd T) * dict (nd T))) u (st : state T) dt,
      wf_state st -> unusable st (s_inp c) -> exists e, stepper_call g c ac u st dt = (u, Err e)).
  Proof.
    split; [|split]; intros.
    - unfold tendency_call. destruct (t_init c); cbn [negb raise_if bind]; [|eauto].
      destruct (raw_state_unusable g (t_inp c) (t_packer c) st H H0) as (e & ->). eauto.
    - unfold diagnostic_call. destruct (d_init c); cbn [negb raise_if bind]; [|eauto].
      destruct (raw_state_unusable empty_treg (d_inp c) None st H H0) as (e & ->). eauto.
    - unfold stepper_call. destruct (s_init c); cbn [negb raise_if bind]; [|eauto].
      destruct (raw_state_unusable g (s_inp c) (s_packer c) st H H0) as (e & ->). eauto.
  Qed.

  (** array_call as seen by a recorder: what it is called with. *)
  Lemma called_on_validated :
    (forall g c (st : state T) raws, wf_state st -> proper_inputs (t_inp c) ->
      forall (ac : dict (rval T) -> res (dict (nd T) * dict (nd T))),
      fst (tendency_call g c (fun seen raw => (seen ++ [raw], ac raw)) raws st) = raws \/
      exists raw, fst (tendency_call g c (fun seen raw => (seen ++ [raw], ac raw)) raws st) = raws ++ [raw] /\
        validated g (t_inp c) (t_packer c) st raw) /\
    (forall c (st : state T) raws, wf_state st -> proper_inputs (d_inp c) ->
      forall (ac : dict (rval T) -> res (dict (nd T))),
      fst (diagnostic_call c (fun seen raw => (seen ++ [raw], ac raw)) raws st) = raws \/
      exists raw, fst (diagnostic_call c (fun seen raw => (seen ++ [raw], ac raw)) raws st) = raws ++ [raw] /\
        validated empty_treg (d_inp c) None st raw) /\
    (forall g c (st : state T) raws dt, wf_state st -> proper_inputs (s_inp c) ->
      forall (ac : dict (rval T) -> Z -> res (dict (nd T) * dict (nd T))),
      fst (stepper_call g c (fun seen raw t => (seen ++ [(raw, t)], ac raw t)) raws st dt) = raws \/
      exists raw, fst (stepper_call g c (fun seen raw t => (seen ++ [(raw, t)], ac raw t)) raws st dt) = raws ++ [(raw, dt)] /\
        validated g (s_inp c) (s_packer c) st raw).
  Proof.
    split; [|split]; intros.
    - unfold tendency_call. destruct (let* _ := raise_if _ _ in _) as [raw|e] eqn:E; [|left; auto].
      right. exists raw. split; auto. apply bind_ok in E as ([] & _ & E). eapply raw_state_ok; eauto.
    - unfold diagnostic_call. destruct (let* _ := raise_if _ _ in _) as [raw|e] eqn:E; [|left; auto].
      right. exists raw. split; auto. apply bind_ok in E as ([] & _ & E). eapply raw_state_ok; eauto.
    - unfold stepper_call. destruct (let* _ := raise_if _ _ in _) as [raw|e] eqn:E; [|left; auto].
      right. exists raw. split; auto. apply bind_ok in E as ([] & _ & E). eapply raw_state_ok; eauto.
  Qed.

  (** C12 *)
  Lemma calls_ext :
    (forall {U} g c (ac : U -> dict (rval T) -> U * res (dict (nd T) * dict (nd T))) u (st st' : state T),
      agree_on (keys (t_inp c)) st st' -> agree_on ["time"] st st' -> agree_on (read_tracers g (t_packer c)) st st' ->
      tendency_call g c ac u st = tendency_call g c ac u st') /\
    (forall {U} c (ac : U -> dict (rval T) -> U * res (dict (nd T))) u (st st' : state T),
      agree_on (keys (d_inp c)) st st' -> agree_on ["time"] st st' ->
      diagnostic_call c ac u st = diagnostic_call c ac u st') /\
    (forall {U} g c (ac : U -> dict (rval T) -> Z -> U * res (dict (nd T) * dict (nd T))) u (st st' : state T) dt,
      agree_on (keys (s_inp c)) st st' -> agree_on ["time"] st st' -> agree_on (read_tracers g (s_packer c)) st st' ->
      stepper_call g c ac u st dt = stepper_call g c ac u st' dt).
  Proof.
    split; [|split]; intros.
    - apply tendency_call_ext; auto.
    - apply diagnostic_call_ext; auto.
    - apply stepper_call_ext; auto.
  Qed.

  (** C14 *)
  Lemma tid_main : forall {U} impl g g0 (inp tend diag : pdict) name tro tu c0
      (ac : U -> dict (rval T) -> U * res (dict (nd T) * dict (nd T))),
    NoDup (keys inp) -> NoDup (keys tend) -> NoDup (keys diag) ->
    (forall X, In X (keys tend) -> ~ In (tendency_name name X) (keys diag)) ->
    make_tendency_component impl g inp tend diag name false tro tu = (g0, Ok c0) ->
    exists c1, make_tendency_component impl g inp tend diag name true tro tu = (g0, Ok c1) /\
    forall h u u' (st : state T) tout d0,
      tendency_call h c0 ac u st = (u', Ok (tout, d0)) ->
      exists d1, tendency_call h c1 ac u st = (u', Ok (tout, d1)) /\
        (forall X q, dget X tout = Some q -> dget (tendency_name name X) d1 = Some q) /\
        (forall k, (forall X, In X (keys tout) -> k <> tendency_name name X) -> dget k d1 = dget k d0) /\
        (forall k, In k (keys d1) <-> In k (keys d0) \/ exists X, In X (keys tout) /\ k = tendency_name name X).
  Proof.
    intros U impl g g0 inp tend diag name tro tu c0 ac Hni Hnt Hnd Hdis H0.
    destruct (tid_constructible _ _ _ _ _ _ _ _ _ _ Hni Hnt Hnd H0) as (c1 & H1).
    exists c1. split; auto. intros h u u0 st tout d0 Hc.
    exact (tendencies_in_diagnostics impl g g0 g0 inp tend diag name tro tu c0 c1 ac h u u0 st tout d0 Hnt Hnd Hdis H0 H1 Hc).
  Qed.

  (** C11: values *)
  Lemma restore_carries : forall (st : state T) raw (outp inp : pdict) ign out,
    wf_state st -> NoDup (keys outp) -> stars_ok outp inp ->
    restore_data_arrays_with_properties raw outp st inp ign false = Ok out ->
    forall name q, dget name out = Some q -> carries st outp inp raw name q.
  Proof.
    intros st raw outp inp ign out Hwf Hnd Hs H name q Hq.
    destruct (main_restore st raw outp inp ign false out Hwf Hnd Hs H) as [Hk Hv].
    assert (Hin : In name (keys out)) by (eapply dget_In_keys; eauto).
    apply Hk in Hin as [Hin Hni]. apply In_keys_dget in Hin as (p & Hp).
    destruct (Hv name p Hp Hni) as (ds & un & ra & q' & H1 & _ & H2 & H3 & _ & _ & H4 & H5).
    rewrite Hq in H3. injection H3 as <-. exists ds, ra. auto.
  Qed.

  Lemma stepper_insert_other : forall c dt raw (rn rd rd' : dict (nd T)),
    stepper_insert c dt raw rn rd = Ok rd' ->
    forall k, (forall X, In X (keys (s_out c)) -> k <> tendency_name (s_name c) X) -> dget k rd' = dget k rd.
  Proof.
    intros c dt raw rn. unfold stepper_insert. generalize (s_out c) as outs. intros outs.
    induction outs as [|[Y py] outs IH]; intros rd rd' H k Hk; [injection H as <-; auto|].
    cbn [foldM] in H. apply bind_ok in H as (rd1 & Hs & H). cbn [fst] in Hs.
    apply bind_ok in Hs as (new & _ & Hs). apply bind_ok in Hs as (old & _ & Hs).
    apply bind_ok in Hs as (diff & _ & Hs). injection Hs as <-.
    rewrite (IH _ _ H k); [|intros X HX; apply Hk; right; auto].
    apply dget_dset_neq. apply Hk. left. reflexivity.
  Qed.

  Lemma calls_carry :
    (forall {U} g c (ac : U -> dict (rval T) -> U * res (dict (nd T) * dict (nd T))) u u' (st : state T) tout dout,
      wf_state st -> t_packer c = None -> NoDup (keys (t_tend c)) -> NoDup (keys (t_diag c)) ->
      stars_ok (t_tend c) (t_inp c) -> stars_ok (t_diag c) (t_inp c) ->
      tendency_call g c ac u st = (u', Ok (tout, dout)) ->
      exists raw rt rd, ac u raw = (u', Ok (rt, rd)) /\
        (forall X q, dget X tout = Some q -> carries st (t_tend c) (t_inp c) rt X q) /\
        (forall k q, (forall X, In X (keys tout) -> k <> tendency_name (t_name c) X) ->
           dget k dout = Some q -> carries st (t_diag c) (t_inp c) rd k q)) /\
    (forall {U} c (ac : U -> dict (rval T) -> U * res (dict (nd T))) u u' (st : state T) dout,
      wf_state st -> NoDup (keys (d_diag c)) -> stars_ok (d_diag c) (d_inp c) ->
      diagnostic_call c ac u st = (u', Ok dout) ->
      exists raw rd, ac u raw = (u', Ok rd) /\
        forall k q, dget k dout = Some q -> carries st (d_diag c) (d_inp c) rd k q) /\
    (forall {U} g c (ac : U -> dict (rval T) -> Z -> U * res (dict (nd T) * dict (nd T))) u u' (st : state T) dt dout nout,
      wf_state st -> s_packer c = None -> NoDup (keys (s_diag c)) -> NoDup (keys (s_out c)) ->
      stars_ok (s_out c) (s_inp c) -> stars_ok (s_diag c) (s_inp c) ->
      stepper_call g c ac u st dt = (u', Ok (dout, nout)) ->
      exists raw rd rn, ac u raw dt = (u', Ok (rd, rn)) /\
        (forall X q, dget X nout = Some q -> carries st (s_out c) (s_inp c) rn X q) /\
        (forall k q, (forall X, In X (keys (s_out c)) ->
             out_key (s_diag c) (s_inp c) k <> tendency_name (s_name c) X) ->
           dget k dout = Some q -> carries st (s_diag c) (s_inp c) rd k q)).
  Proof.
    split; [|split].
    - intros U g c ac u u' st tout dout Hwf Hpk Hnt Hnd Hst Hsd H. unfold tendency_call in H.
      destruct (let* _ := raise_if _ _ in _) as [raw|e]; [|congruence].
      destruct (ac u raw) as [u1 r] eqn:Hac. injection H as <- H.
      apply bind_ok in H as ([rt rd] & -> & H). unfold tendency_finish in H. rewrite Hpk in H.
      cbn [unpack_tracers bind fst snd] in H.
      apply bind_ok in H as ([] & _ & H). apply bind_ok in H as ([] & _ & H).
      apply bind_ok in H as (tr & Htr & H). apply bind_ok in H as (dg & Hdg & H).
      pose proof (restore_NoDup _ _ _ _ _ _ _ Htr) as Hn.
      rewrite dupdate_nil in H by auto. injection H as <- <-.
      exists raw, rt, rd. split; auto. split.
      + intros X q. eapply restore_carries; eauto.
      + intros k q Hk Hq. destruct (t_tid c).
        * destruct (insert_tendencies_get (t_name c) tr dg Hn) as (_ & G2 & _). rewrite G2 in Hq by auto.
          eapply restore_carries; eauto.
        * eapply restore_carries; eauto.
    - intros U c ac u u' st dout Hwf Hnd Hsd H. unfold diagnostic_call in H.
      destruct (let* _ := raise_if _ _ in _) as [raw|e]; [|congruence].
      destruct (ac u raw) as [u1 r] eqn:Hac. injection H as <- H.
      apply bind_ok in H as (rd & -> & H). unfold diagnostic_finish in H.
      apply bind_ok in H as ([] & _ & H). exists raw, rd. split; auto.
      intros k q. eapply restore_carries; eauto.
    - intros U g c ac u u' st dt dout nout Hwf Hpk Hnd Hno Hso Hsd H. unfold stepper_call in H.
      destruct (let* _ := raise_if _ _ in _) as [raw|e]; [|congruence].
      destruct (ac u raw dt) as [u1 r] eqn:Hac. injection H as <- H.
      apply bind_ok in H as ([rd rn] & -> & H). unfold stepper_finish in H. rewrite Hpk in H.
      cbn [unpack_tracers bind fst snd] in H.
      apply bind_ok in H as ([] & _ & H). apply bind_ok in H as ([] & _ & H).
      apply bind_ok in H as (rd' & Hrd & H).
      apply bind_ok in H as (dg & Hdg & H). apply bind_ok in H as (nw & Hnw & H).
      pose proof (restore_NoDup _ _ _ _ _ _ _ Hnw) as Hn.
      rewrite dupdate_nil in H by auto. injection H as <- <-.
      exists raw, rd, rn. split; auto. split.
      + intros X q. eapply restore_carries; eauto.
      + intros k q Hk Hq.
        destruct (restore_carries _ _ _ _ _ _ Hwf Hnd Hsd Hdg k q Hq) as (ds & ra & C1 & C2 & C3).
        exists ds, ra. split; auto. split; auto.
        destruct (s_tid c); [|injection Hrd as ->; auto].
        rewrite <- C2. symmetry. eapply stepper_insert_other; eauto.
  Qed.
End Main.
