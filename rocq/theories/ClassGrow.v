(** What constructions do to the dictionaries classes share, whether they return or
    raise (C17). *)
From Coq Require Import String List Bool Arith ZArith.
From Verif Require Import Prelude PreludeFacts ArithM NdArray Units DataArrayM Wildcard GetNp Restore Tracers Components
  ComponentFacts ClassState ClassFacts.
Import ListNotations.
Open Scope string_scope.
Open Scope nat_scope.
Open Scope list_scope.

Lemma insert_shared_grows : forall comp inp tend diag d r, insert_shared comp inp tend diag = (d, r) ->
  forall X, dget X d = dget X diag \/
    exists np p, In np tend /\ X = tendency_name comp (fst np) /\ dget X d = Some p /\ p_units p = p_units (snd np) /\ p_units p <> None /\ p_dims p <> None.
Proof.
  intros comp inp. induction tend as [|np tend IH]; intros diag d r H X; cbn [insert_shared] in H.
  - injection H as <- _. left; reflexivity.
  - rewrite insert_step_entry in H. destruct (entry_of inp np) as [e|e] eqn:Ee; cbn [bind] in H; [|injection H as <- _; left; reflexivity].
    destruct (insert_shared comp inp tend (dset (tendency_name comp (fst np)) e diag)) as [d1 r1] eqn:Er. injection H as <- _.
    destruct (IH _ _ _ Er X) as [H1|(np' & p & H1 & H2 & H3 & H4)]; [|right; exists np', p; split; [right; exact H1|auto]].
    destruct (String.eqb_spec X (tendency_name comp (fst np))) as [->|Hne]; [|left; rewrite H1; apply dget_dset_neq; auto].
    right. exists np, e. rewrite dget_dset_eq in H1. unfold entry_of in Ee. apply bind_ok in Ee as (ds & _ & Ee). apply bind_ok in Ee as (u & Eu & Ee).
    destruct (p_units (snd np)) as [u0|]; [|discriminate]. injection Eu as ->. injection Ee as <-. cbn [p_units p_dims].
    split; [left; reflexivity|]. split; [reflexivity|]. split; [exact H1|]. split; [reflexivity|]. split; discriminate.
Qed.

(** One step of the loop, whether it raises or not. *)
Lemma stepper_step_grows : forall comp inp diag np,
  let w := match stepper_insert_step comp (inp, diag, []) np with
           | Ok (i, d, _) => (i, d)
           | Err _ => (fst (fst (stepper_insert_shared comp [np] inp diag)), snd (fst (stepper_insert_shared comp [np] inp diag)))
           end in
  (forall X, dget X (snd w) = dget X diag \/
     exists p u, X = tendency_name comp (fst np) /\ dget X (snd w) = Some p /\ p_units (snd np) = Some u /\ p_units p = Some (per_second u)) /\
  (forall X, dget X (fst w) = dget X inp \/
     exists p, dget X inp = None /\ X = fst np /\ dget X (fst w) = Some p /\ p_units p = p_units (snd np)).
Proof.
  intros comp inp diag [n q]. cbn [stepper_insert_shared fst snd].
  assert (D : forall v u Y, p_units q = Some u -> p_units v = Some (per_second u) ->
    dget Y (dset (tendency_name comp n) v diag) = dget Y diag \/
    exists p u0, Y = tendency_name comp n /\ dget Y (dset (tendency_name comp n) v diag) = Some p /\ p_units q = Some u0 /\ p_units p = Some (per_second u0)).
  { intros v u Y Hu Hv. destruct (String.eqb_spec Y (tendency_name comp n)) as [->|Hne]; [|left; apply dget_dset_neq; auto].
    right. exists v, u. rewrite dget_dset_eq. auto. }
  unfold stepper_insert_step. cbn [fst snd]. destruct (p_units q) as [u|] eqn:Eu; cbn [bind]; [|cbn [fst snd]; split; intros X; left; reflexivity].
  destruct (p_dims q) as [ds|] eqn:Ed; cbn [bind].
  - destruct (dget n inp) as [qi|] eqn:Ei.
    + destruct (p_dims qi) as [ids|]; [|cbn [fst snd]; split; intros X; [eapply D; eauto|left; reflexivity]].
      destruct (p_units qi) as [iu|]; [|cbn [fst snd]; split; intros X; [eapply D; eauto|left; reflexivity]].
      destruct (negb (dims_eq (ids, p_tuple qi) (ds, p_tuple q))); [cbn [fst snd]; split; intros X; [eapply D; eauto|left; reflexivity]|].
      destruct (negb (String.eqb iu u)); cbn [fst snd]; split; intros X; try (eapply D; eauto); left; reflexivity.
    + cbn [fst snd]. split; intros X; [eapply D; eauto|].
      destruct (String.eqb_spec X n) as [->|Hne]; [|left; apply dget_dset_neq; auto]. right. eexists. rewrite dget_dset_eq. auto.
  - unfold dgetE. destruct (dget n inp) as [qi|] eqn:Ei; cbn [bind]; [|cbn [fst snd]; split; intros X; left; reflexivity].
    destruct (p_dims qi) as [ids|] eqn:Edi; cbn [bind]; [|cbn [fst snd]; split; intros X; left; reflexivity].
    destruct (p_units qi) as [iu|]; [|cbn [fst snd]; split; intros X; [eapply D; eauto|left; reflexivity]].
    cbn [fst snd]. destruct (negb (dims_eq (ids, p_tuple qi) (ids, p_tuple qi))); [cbn [fst snd]; split; intros X; [eapply D; eauto|left; reflexivity]|].
    destruct (negb (String.eqb iu u)); cbn [fst snd]; split; intros X; try (eapply D; eauto); left; reflexivity.
Qed.

Lemma stepper_shared_grows : forall comp outp inp diag i d r, stepper_insert_shared comp outp inp diag = (i, d, r) ->
  (forall X, dget X d = dget X diag \/
     exists np p u, In np outp /\ X = tendency_name comp (fst np) /\ dget X d = Some p /\ p_units (snd np) = Some u /\ p_units p = Some (per_second u)) /\
  (forall X, dget X i = dget X inp \/
     exists np p, dget X inp = None /\ In np outp /\ X = fst np /\ dget X i = Some p /\ p_units p = p_units (snd np)).
Proof.
  intros comp. induction outp as [|np outp IH]; intros inp diag i d r H.
  - cbn [stepper_insert_shared] in H. injection H as <- <- _. split; intros X; left; reflexivity.
  - pose proof (stepper_step_grows comp inp diag np) as G. cbn zeta in G. cbn [stepper_insert_shared] in H, G.
    destruct (stepper_insert_step comp (inp, diag, []) np) as [[[i1 d1] l1]|e]; cbn [fst snd] in G, H.
    + destruct (stepper_insert_shared comp outp i1 d1) as [[i2 d2] r2] eqn:Er. injection H as <- <- _. destruct G as [G1 G2].
      destruct (IH _ _ _ _ _ Er) as [I1 I2]. split; intros X.
      * destruct (I1 X) as [E|(np' & p & u & K1 & K)]; [|right; exists np', p, u; split; [right; exact K1|exact K]]. rewrite E.
        destruct (G1 X) as [E1|(p & u & K)]; [left; exact E1|right; exists np, p, u; split; [left; reflexivity|exact K]].
      * destruct (I2 X) as [E|(np' & p & K0 & K1 & K)].
        -- rewrite E. destruct (G2 X) as [E1|(p & K0 & K)]; [left; exact E1|right; exists np, p; split; [exact K0|]; split; [left; reflexivity|exact K]].
        -- destruct (G2 X) as [E1|(q & _ & _ & K2 & _)]; [|congruence]. right. exists np', p. rewrite <- E1. split; [exact K0|]. split; [right; exact K1|exact K].
    + injection H as <- <- _. destruct G as [G1 G2]. split; intros X.
      * destruct (G1 X) as [E1|(p & u & K)]; [left; exact E1|right; exists np, p, u; split; [left; reflexivity|exact K]].
      * left; reflexivity.
Qed.

(** The loop a second time changes nothing. *)
Definition stepper_settles (comp : string) (inp diag : pdict) (np : string * props) : Prop :=
  stepper_insert_step comp (inp, diag, []) np = Ok (inp, diag, [tendency_name comp (fst np)]).

Lemma stepper_again : forall comp outp inp diag, (forall np, In np outp -> stepper_settles comp inp diag np) ->
  exists l, stepper_insert_shared comp outp inp diag = (inp, diag, Ok l).
Proof.
  intros comp. induction outp as [|np outp IH]; intros inp diag H; cbn [stepper_insert_shared]; [eexists; reflexivity|].
  rewrite (H np (or_introl eq_refl)). destruct (IH inp diag (fun np' Hn => H np' (or_intror Hn))) as (l & ->). eexists; reflexivity.
Qed.

Lemma dims_eq_refl : forall d, dims_eq d d = true.
Proof. intros [ds t]. unfold dims_eq. cbn [fst snd]. rewrite (proj2 (list_eqb_eq ds ds) eq_refl). destruct t; reflexivity. Qed.

Lemma step_settles : forall comp inp diag np i d l, stepper_insert_step comp (inp, diag, []) np = Ok (i, d, l) ->
  stepper_settles comp i d np /\ (forall X, X <> fst np -> dget X i = dget X inp) /\ (forall X, X <> tendency_name comp (fst np) -> dget X d = dget X diag).
Proof.
  intros comp inp diag [n q] i d l H. unfold stepper_settles. unfold stepper_insert_step in *. cbn [fst snd] in *.
  destruct (p_units q) as [u|] eqn:Eu; cbn [bind] in *; [|discriminate].
  destruct (p_dims q) as [ds|] eqn:Ed; cbn [bind] in *.
  - destruct (dget n inp) as [qi|] eqn:Ei.
    + destruct (p_dims qi) as [ids|] eqn:E1; [|discriminate]. destruct (p_units qi) as [iu|] eqn:E2; [|discriminate].
      destruct (negb (dims_eq (ids, p_tuple qi) (ds, p_tuple q))) eqn:E3; [discriminate|]. destruct (negb (String.eqb iu u)) eqn:E4; [discriminate|].
      injection H as <- <- _. split; [|split; [reflexivity|intros X HX; apply dget_dset_neq; auto]]. rewrite Ei, E1, E2, E3, E4.
      rewrite dset_same by apply dget_dset_eq. reflexivity.
    + injection H as <- <- _. split; [|split; intros X HX; apply dget_dset_neq; auto]. rewrite dget_dset_eq. cbn [p_dims p_units p_tuple fst snd].
      rewrite dims_eq_refl, String.eqb_refl. cbn [negb]. rewrite (dset_same (tendency_name comp n)) by apply dget_dset_eq. reflexivity.
  - unfold dgetE in *. destruct (dget n inp) as [qi|] eqn:Ei; cbn [bind] in *; [|discriminate].
    destruct (p_dims qi) as [ids|] eqn:E1; cbn [bind] in *; [|discriminate]. destruct (p_units qi) as [iu|] eqn:E2; [|discriminate].
    destruct (negb (dims_eq (ids, p_tuple qi) (ids, p_tuple qi))) eqn:E3; [discriminate|]. destruct (negb (String.eqb iu u)) eqn:E4; [discriminate|].
    injection H as <- <- _. split; [|split; [reflexivity|intros X HX; apply dget_dset_neq; auto]]. rewrite Ei. cbn [bind]. rewrite E1. cbn [bind fst snd].
    rewrite E2, E3, E4. rewrite dset_same by apply dget_dset_eq. reflexivity.
Qed.

Lemma settles_same : forall comp inp diag inp' diag' np, stepper_settles comp inp diag np ->
  dget (fst np) inp' = dget (fst np) inp -> dget (tendency_name comp (fst np)) diag' = dget (tendency_name comp (fst np)) diag ->
  (dget (fst np) inp <> None) -> stepper_settles comp inp' diag' np.
Proof.
  intros comp inp diag inp' diag' [n q] H Hi Hd Hn. unfold stepper_settles, stepper_insert_step in *. cbn [fst snd] in *.
  destruct (p_units q) as [u|]; cbn [bind] in *; [|discriminate]. unfold dgetE in *. rewrite Hi.
  destruct (dget n inp) as [qi|]; [|contradiction Hn; reflexivity]. cbn [bind] in *.
  match type of H with (let* ds := ?x in _) = _ => destruct x as [ds|e] end; cbn [bind] in *; [|discriminate].
  destruct (p_dims qi) as [ids|]; [|discriminate]. destruct (p_units qi) as [iu|]; [|discriminate].
  destruct (negb (dims_eq (ids, p_tuple qi) ds)); [discriminate|]. destruct (negb (String.eqb iu u)); [discriminate|].
  injection H as H. assert (G : dget (tendency_name comp n) diag = Some (mkprops (Some (fst ds)) (snd ds) (Some (per_second u)) None false)) by (rewrite <- H; apply dget_dset_eq).
  rewrite dset_same; [reflexivity|]. rewrite Hd. exact G.
Qed.

Lemma settles_input : forall comp inp diag np, stepper_settles comp inp diag np -> dget (fst np) inp <> None.
Proof.
  intros comp inp diag [n q] H E. unfold stepper_settles, stepper_insert_step in H. cbn [fst snd] in *. unfold dgetE in H. rewrite E in H.
  destruct (p_units q) as [u|]; cbn [bind] in H; [|discriminate]. destruct (p_dims q) as [ds|]; cbn [bind] in H; [|discriminate].
  injection H as H _. assert (K : dget n inp <> None) by (rewrite <- H, dget_dset_eq; discriminate). apply K. exact E.
Qed.

Lemma stepper_present : forall comp outp inp diag i d l, NoDup (keys outp) -> stepper_insert_shared comp outp inp diag = (i, d, Ok l) ->
  (forall np, In np outp -> stepper_settles comp i d np) /\
  (forall X, ~ In X (keys outp) -> dget X i = dget X inp) /\ (forall X, (forall Y, In Y (keys outp) -> X <> tendency_name comp Y) -> dget X d = dget X diag).
Proof.
  intros comp. induction outp as [|np outp IH]; intros inp diag i d l Hn H; cbn [stepper_insert_shared] in H.
  - injection H as <- <- _. split; [intros ? []|]. split; reflexivity.
  - simpl in Hn. inversion Hn as [|? ? Hni Hnd]; subst.
    destruct (stepper_insert_step comp (inp, diag, []) np) as [[[i1 d1] l1]|e] eqn:Es; [|discriminate].
    destruct (stepper_insert_shared comp outp i1 d1) as [[i2 d2] r2] eqn:Er. injection H as <- <- Hr. apply bind_ok in Hr as (l2 & -> & _).
    destruct (step_settles _ _ _ _ _ _ _ Es) as (S1 & S2 & S3). destruct (IH _ _ _ _ _ Hnd Er) as (I1 & I2 & I3). split; [|split].
    + intros np' [<-|Hin]; [|auto]. apply (settles_same comp i1 d1); [exact S1|apply I2; exact Hni| |eapply settles_input; exact S1].
      apply I3. intros Y HY E. apply tendency_name_inj in E. subst; auto.
    + intros X HX. rewrite I2 by (intros K; apply HX; right; exact K). apply S2. intros ->. apply HX. left; reflexivity.
    + intros X HX. rewrite I3 by (intros Y HY; apply HX; right; exact HY). apply S3. apply HX. left; reflexivity.
Qed.

Section World.
  Context {R : Registry}.

  (** ** Any constructions *)

  Lemma create_tendency_class : forall w o cls,
    match dget cls (w_t w), dget cls (w_t (fst (create w o))) with
    | None, None => True
    | Some k, Some k' =>
        k_impl k' = k_impl k /\ k_inp k' = k_inp k /\ k_tend k' = k_tend k /\ k_tro k' = k_tro k /\ k_tunit k' = k_tunit k /\
        forall X, dget X (k_diag k') = dget X (k_diag k) \/
          exists name np p, o = NewTendency cls name true /\ In np (k_tend k) /\ X = tendency_name name (fst np) /\
            dget X (k_diag k') = Some p /\ p_units p = p_units (snd np) /\ p_units p <> None /\ p_dims p <> None
    | _, _ => False
    end.
  Proof.
    intros w [c name tid|c name tid] cls; cbn [create].
    - unfold new_tendency. destruct (dget c (w_t w)) as [k|] eqn:Ek; [|cbn [fst]; destruct (dget cls (w_t w)); auto 10].
      match goal with |- context [match ?x with Ok _ => _ | Err _ => (w, _) end] => destruct x as [x0|e] end; [|cbn [fst]; destruct (dget cls (w_t w)); auto 10].
      destruct (if tid then insert_shared name (k_inp k) (k_tend k) (k_diag k) else (k_diag k, Ok [])) as [diag' r] eqn:Ei.
      set (w' := mkworld (dset c (mktclass (k_impl k) (k_inp k) (k_tend k) diag' (k_tro k) (k_tunit k)) (w_t w)) (w_s w) (w_reg w)).
      assert (E : w_t (fst (match r with Ok added => let (g', rp) := make_packer (w_reg w) (k_tro k) (keys (k_tend k)) in
                   (mkworld (w_t w') (w_s w') g', let* pk := rp in Ok (mkinst c name tid added pk)) | Err e => (w', Err e) end)) = w_t w').
      { destruct r; [destruct (make_packer (w_reg w) (k_tro k) (keys (k_tend k))) as [g' rp]|]; reflexivity. }
      rewrite E. subst w'. cbn [w_t]. destruct (String.eqb_spec cls c) as [->|Hne].
      + rewrite Ek, dget_dset_eq. cbn [k_impl k_inp k_tend k_diag k_tro k_tunit]. do 5 (split; [reflexivity|]). intros X.
        destruct tid; [|injection Ei as <- _; left; reflexivity].
        destruct (insert_shared_grows _ _ _ _ _ _ Ei X) as [H|(np & p & H)]; [left; exact H|right; exists name, np, p; split; [reflexivity|exact H]].
      + rewrite dget_dset_neq by auto. destruct (dget cls (w_t w)); auto 10.
    - unfold new_stepper. destruct (dget c (w_s w)) as [k|]; [|cbn [fst]; destruct (dget cls (w_t w)); auto 10].
      match goal with |- context [match ?x with Ok _ => _ | Err _ => (w, _) end] => destruct x as [x0|e] end; [|cbn [fst]; destruct (dget cls (w_t w)); auto 10].
      destruct (if tid then stepper_insert_shared name (m_out k) (m_inp k) (m_diag k) else (m_inp k, m_diag k, Ok [])) as [[i d] r].
      destruct r; [destruct (make_packer (w_reg w) (m_tro k) (keys (m_out k))) as [g' rp]|]; cbn [fst w_t]; destruct (dget cls (w_t w)); auto 10.
  Qed.

  Lemma create_stepper_class : forall w o cls,
    match dget cls (w_s w), dget cls (w_s (fst (create w o))) with
    | None, None => True
    | Some k, Some k' =>
        m_out k' = m_out k /\ m_tro k' = m_tro k /\ m_tu k' = m_tu k /\
        (forall X, dget X (m_diag k') = dget X (m_diag k) \/
          exists name np p u, o = NewStepper cls name true /\ In np (m_out k) /\ X = tendency_name name (fst np) /\
            dget X (m_diag k') = Some p /\ p_units (snd np) = Some u /\ p_units p = Some (per_second u)) /\
        (forall X, dget X (m_inp k') = dget X (m_inp k) \/
          exists name np p, o = NewStepper cls name true /\ dget X (m_inp k) = None /\ In np (m_out k) /\ X = fst np /\
            dget X (m_inp k') = Some p /\ p_units p = p_units (snd np))
    | _, _ => False
    end.
  Proof.
    intros w [c name tid|c name tid] cls; cbn [create].
    - unfold new_tendency. destruct (dget c (w_t w)) as [k|]; [|cbn [fst]; destruct (dget cls (w_s w)); auto 10].
      match goal with |- context [match ?x with Ok _ => _ | Err _ => (w, _) end] => destruct x as [x0|e] end; [|cbn [fst]; destruct (dget cls (w_s w)); auto 10].
      destruct (if tid then insert_shared name (k_inp k) (k_tend k) (k_diag k) else (k_diag k, Ok [])) as [d r].
      destruct r; [destruct (make_packer (w_reg w) (k_tro k) (keys (k_tend k))) as [g' rp]|]; cbn [fst w_s]; destruct (dget cls (w_s w)); auto 10.
    - unfold new_stepper. destruct (dget c (w_s w)) as [k|] eqn:Ek; [|cbn [fst]; destruct (dget cls (w_s w)); auto 10].
      match goal with |- context [match ?x with Ok _ => _ | Err _ => (w, _) end] => destruct x as [x0|e] end; [|cbn [fst]; destruct (dget cls (w_s w)); auto 10].
      destruct (if tid then stepper_insert_shared name (m_out k) (m_inp k) (m_diag k) else (m_inp k, m_diag k, Ok [])) as [[i d] r] eqn:Ei.
      set (w' := mkworld (w_t w) (dset c (mksclass i d (m_out k) (m_tro k) (m_tu k)) (w_s w)) (w_reg w)).
      assert (E : w_s (fst (match r with Ok added => let (g', rp) := make_packer (w_reg w) (m_tro k) (keys (m_out k)) in
                   (mkworld (w_t w') (w_s w') g', let* pk := rp in Ok (mkinst c name tid added pk)) | Err e => (w', Err e) end)) = w_s w').
      { destruct r; [destruct (make_packer (w_reg w) (m_tro k) (keys (m_out k))) as [g' rp]|]; reflexivity. }
      rewrite E. subst w'. cbn [w_s]. destruct (String.eqb_spec cls c) as [->|Hne].
      + rewrite Ek, dget_dset_eq. cbn [m_inp m_out m_diag m_tro m_tu]. do 3 (split; [reflexivity|]).
        destruct tid; [|injection Ei as <- <- _; split; intros X; left; reflexivity].
        destruct (stepper_shared_grows _ _ _ _ _ _ _ Ei) as [G1 G2]. split; intros X.
        * destruct (G1 X) as [H|(np & p & u & H)]; [left; exact H|right; exists name, np, p, u; split; [reflexivity|exact H]].
        * destruct (G2 X) as [H|(np & p & H)]; [left; exact H|right; exists name, np, p; split; [reflexivity|exact H]].
      + rewrite dget_dset_neq by auto. destruct (dget cls (w_s w)); auto 10.
  Qed.

  Theorem main_tendency_class : forall l w cls,
    match dget cls (w_t w), dget cls (w_t (create_all w l)) with
    | None, None => True
    | Some k, Some k' =>
        k_impl k' = k_impl k /\ k_inp k' = k_inp k /\ k_tend k' = k_tend k /\ k_tro k' = k_tro k /\ k_tunit k' = k_tunit k /\
        forall X, dget X (k_diag k') = dget X (k_diag k) \/
          exists name np p, In (NewTendency cls name true) l /\ In np (k_tend k) /\ X = tendency_name name (fst np) /\
            dget X (k_diag k') = Some p /\ p_units p = p_units (snd np) /\ p_units p <> None /\ p_dims p <> None
    | _, _ => False
    end.
  Proof.
    unfold create_all. induction l as [|o l IH]; intros w cls; cbn [fold_left].
    - destruct (dget cls (w_t w)); auto 10.
    - pose proof (create_tendency_class w o cls) as H. specialize (IH (fst (create w o)) cls).
      destruct (dget cls (w_t w)) as [k|]; destruct (dget cls (w_t (fst (create w o)))) as [k1|]; try contradiction.
      + destruct (dget cls (w_t (fold_left (fun w o => fst (create w o)) l (fst (create w o))))) as [k'|]; [|contradiction].
        destruct H as (H1 & H2 & H3 & H4 & H5 & H6). destruct IH as (I1 & I2 & I3 & I4 & I5 & I6). rewrite H1, H2, H3, H4, H5 in *.
        do 5 (split; [assumption|]). intros X. destruct (I6 X) as [E|(name & np & p & K1 & K)]; [|right; exists name, np, p; split; [right; exact K1|exact K]].
        rewrite E. destruct (H6 X) as [E1|(name & np & p & K1 & K)]; [left; exact E1|right; exists name, np, p; split; [left; exact K1|exact K]].
      + exact IH.
  Qed.

  Theorem main_stepper_class : forall l w cls,
    match dget cls (w_s w), dget cls (w_s (create_all w l)) with
    | None, None => True
    | Some k, Some k' =>
        m_out k' = m_out k /\ m_tro k' = m_tro k /\ m_tu k' = m_tu k /\
        (forall X, dget X (m_diag k') = dget X (m_diag k) \/
          exists name np p u, In (NewStepper cls name true) l /\ In np (m_out k) /\ X = tendency_name name (fst np) /\
            dget X (m_diag k') = Some p /\ p_units (snd np) = Some u /\ p_units p = Some (per_second u)) /\
        (forall X, dget X (m_inp k') = dget X (m_inp k) \/
          exists name np p, In (NewStepper cls name true) l /\ dget X (m_inp k) = None /\ In np (m_out k) /\ X = fst np /\
            dget X (m_inp k') = Some p /\ p_units p = p_units (snd np))
    | _, _ => False
    end.
  Proof.
    unfold create_all. induction l as [|o l IH]; intros w cls; cbn [fold_left].
    - destruct (dget cls (w_s w)); auto 10.
    - pose proof (create_stepper_class w o cls) as H. specialize (IH (fst (create w o)) cls).
      destruct (dget cls (w_s w)) as [k|]; destruct (dget cls (w_s (fst (create w o)))) as [k1|]; try contradiction.
      + destruct (dget cls (w_s (fold_left (fun w o => fst (create w o)) l (fst (create w o))))) as [k'|]; [|contradiction].
        destruct H as (H1 & H2 & H3 & H4 & H5). destruct IH as (I1 & I2 & I3 & I4 & I5). rewrite H1, H2, H3 in *.
        do 3 (split; [assumption|]). split; intros X.
        * destruct (I4 X) as [E|(name & np & p & u & K1 & K)]; [|right; exists name, np, p, u; split; [right; exact K1|exact K]].
          rewrite E. destruct (H4 X) as [E1|(name & np & p & u & K1 & K)]; [left; exact E1|right; exists name, np, p, u; split; [left; exact K1|exact K]].
        * destruct (I5 X) as [E|(name & np & p & K1 & K0 & K)].
          -- rewrite E. destruct (H5 X) as [E1|(name & np & p & K1 & K)]; [left; exact E1|right; exists name, np, p; split; [left; exact K1|exact K]].
          -- destruct (H5 X) as [E1|(n2 & np2 & p2 & _ & _ & _ & _ & K2 & _)]; [|congruence].
             right. exists name, np, p. rewrite <- E1. split; [right; exact K1|]. split; [exact K0|exact K].
      + exact IH.
  Qed.

  (** ** A twin of a Stepper *)
  Definition stepper_settled (i : inst) (w : world) : Prop :=
    i_tid i = true -> forall k, dget (i_class i) (w_s w) = Some k -> forall np, In np (m_out k) -> stepper_settles (i_name i) (m_inp k) (m_diag k) np.

  Lemma twin_keeps : forall w i o, stepper_settled i w ->
    match o with NewTendency _ _ _ => True | NewStepper cls name tid => tid = false \/ cls <> i_class i \/ (i_tid i = true /\ name = i_name i) end ->
    dget (i_class i) (w_s (fst (create w o))) = dget (i_class i) (w_s w) /\ same_tracers (w_reg w) (w_reg (fst (create w o))).
  Proof.
    intros w i [c name tid|c name tid] Hs Hh.
    - destruct (create w (NewTendency c name tid)) as [w' r] eqn:E. apply (create_keeps_stepper w i (NewTendency c name tid) w' r); [exact I|exact E].
    - destruct Hh as [->|[Hn|(Ht & ->)]].
      + destruct (create w (NewStepper c name false)) as [w' r] eqn:E. eapply create_keeps_stepper; [|exact E]; cbn; auto.
      + destruct (create w (NewStepper c name tid)) as [w' r] eqn:E. eapply create_keeps_stepper; [|exact E]; cbn; auto.
      + destruct (String.eqb_spec c (i_class i)) as [->|Hne].
        2:{ destruct (create w (NewStepper c (i_name i) tid)) as [w' r] eqn:E. eapply create_keeps_stepper; [|exact E]; cbn; auto. }
        destruct tid.
        2:{ destruct (create w (NewStepper (i_class i) (i_name i) false)) as [w' r] eqn:E. eapply create_keeps_stepper; [|exact E]; cbn; auto. }
        cbn [create]. unfold new_stepper. destruct (dget (i_class i) (w_s w)) as [k|] eqn:Ek; [|cbn [fst]; split; [exact Ek|split; reflexivity]].
        match goal with |- context [match ?x with Ok _ => _ | Err _ => (w, _) end] => destruct x as [x0|e] end; [|cbn [fst]; split; [exact Ek|split; reflexivity]].
        destruct (stepper_again (i_name i) (m_out k) (m_inp k) (m_diag k) (Hs Ht k Ek)) as (l & ->).
        destruct (make_packer (w_reg w) (m_tro k) (keys (m_out k))) as [g' rp] eqn:Ep. cbn [fst w_s w_reg]. rewrite dget_dset_eq.
        split; [destruct k; reflexivity|eapply make_packer_tracers; exact Ep].
  Qed.

  Lemma new_stepper_settled : forall w0 cls name tid w i, (forall k, dget cls (w_s w0) = Some k -> NoDup (keys (m_out k))) ->
    new_stepper w0 cls name tid = (w, Ok i) -> stepper_settled i w.
  Proof.
    intros w0 cls name tid w i Hnd H Ht k Hk. unfold new_stepper in H. destruct (dget cls (w_s w0)) as [k0|] eqn:Ek; [|discriminate].
    match type of H with match ?x with Ok _ => _ | Err _ => _ end = _ => destruct x as [x0|e] end; [|discriminate].
    destruct (if tid then stepper_insert_shared name (m_out k0) (m_inp k0) (m_diag k0) else (m_inp k0, m_diag k0, Ok [])) as [[i1 d1] r] eqn:Ei.
    destruct r as [added|e]; [|discriminate]. destruct (make_packer (w_reg w0) (m_tro k0) (keys (m_out k0))) as [g' rp]. injection H as <- H.
    apply bind_ok in H as (pk & _ & H). injection H as <-. cbn [i_tid i_class i_name w_s] in *. subst tid. rewrite dget_dset_eq in Hk. injection Hk as <-. cbn [m_out m_inp m_diag].
    apply (stepper_present name (m_out k0) _ _ _ _ _ (Hnd k0 eq_refl) Ei).
  Qed.

  Lemma all_keep_stepper : forall i l w, stepper_settled i w ->
    Forall (fun o => match o with NewTendency _ _ _ => True | NewStepper cls name tid => tid = false \/ cls <> i_class i \/ (i_tid i = true /\ name = i_name i) end) l ->
    dget (i_class i) (w_s (create_all w l)) = dget (i_class i) (w_s w) /\ same_tracers (w_reg w) (w_reg (create_all w l)).
  Proof.
    intros i l. unfold create_all. induction l as [|o l IH]; intros w Hs Hf; cbn [fold_left]; [split; [reflexivity|split; reflexivity]|].
    inversion Hf as [|? ? Ho Hl]; subst. destruct (twin_keeps w i o Hs Ho) as [H1 [H2 H3]].
    destruct (IH (fst (create w o))) as [I1 [I2 I3]]; [|exact Hl|].
    - intros Ht k Hk. rewrite H1 in Hk. apply Hs; auto.
    - split; [congruence|]. split; congruence.
  Qed.

  Theorem main_stepper_twin : forall {T : Type} {A : Arith T} {U} w0 cls name tid w i l
      (ac : U -> dict (rval T) -> Z -> U * res (dict (nd T) * dict (nd T))) u st dt,
    (forall k, dget cls (w_s w0) = Some k -> NoDup (keys (m_out k))) -> new_stepper w0 cls name tid = (w, Ok i) ->
    Forall (fun o => match o with NewTendency _ _ _ => True | NewStepper c n t => t = false \/ c <> cls \/ (tid = true /\ n = name) end) l ->
    call_stepper (create_all w l) i ac u st dt = call_stepper w i ac u st dt.
  Proof.
    intros T A U w0 cls name tid w i l ac u st dt Hnd H Hl. pose proof (new_stepper_settled _ _ _ _ _ _ Hnd H) as Hs.
    assert (E : i_class i = cls /\ i_name i = name /\ i_tid i = tid).
    { unfold new_stepper in H. destruct (dget cls (w_s w0)) as [k0|]; [|discriminate].
      match type of H with match ?x with Ok _ => _ | Err _ => _ end = _ => destruct x as [x0|e] end; [|discriminate].
      destruct (if tid then stepper_insert_shared name (m_out k0) (m_inp k0) (m_diag k0) else (m_inp k0, m_diag k0, Ok [])) as [[i1 d1] r].
      destruct r as [added|e]; [|discriminate]. destruct (make_packer (w_reg w0) (m_tro k0) (keys (m_out k0))) as [g' rp]. injection H as <- H.
      apply bind_ok in H as (pk & _ & H). injection H as <-. auto. }
    destruct E as (E1 & E2 & E3). subst cls name tid. destruct (all_keep_stepper i l w Hs Hl) as [K1 K2].
    unfold call_stepper, stepper_of. rewrite K1. destruct (dget (i_class i) (w_s w)) as [k|]; auto. symmetry. apply stepper_call_tracers; auto.
  Qed.
End World.
