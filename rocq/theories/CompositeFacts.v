(** Lemmas about the calls of composites (Composite.v). *)
From Coq Require Import String List Bool Arith ZArith QArith Qcanon Lia Permutation.
From Verif Require Import Prelude PreludeFacts ArithM NdArray NdFacts Units DataArrayM SpecUnits UnitsFacts SpecDa DaFacts
  Tracers Components Composite SpecComposite.
Import ListNotations.
Open Scope string_scope.
Open Scope nat_scope.
Open Scope list_scope.

Section Facts.
  Context {T : Type} {A : Arith T} {R : Registry}.

  (** Adding the contributions to one quantity. *)
  Definition add_next (o : option (da T)) (b : da T) : res (option (da T)) :=
    match o with
    | None => Ok (Some b)
    | Some a => let* s := add_quantities a b in Ok (Some s)
    end.

  Definition add_up (o : option (da T)) (l : list (da T)) : res (option (da T)) := foldM add_next l o.

  Lemma add_up_app : forall o l1 l2, add_up o (l1 ++ l2) = let* x := add_up o l1 in add_up x l2.
  Proof. intros. apply foldM_app. Qed.

  Definition entry (X : string) (d : dict (da T)) : list (da T) :=
    match dget X d with Some a => [a] | None => [] end.

  Lemma update_get : forall d2 d1 d, NoDup (keys d2) -> update_dict_by_adding_another d1 d2 = Ok d ->
    forall X, add_up (dget X d1) (entry X d2) = Ok (dget X d).
  Proof.
    induction d2 as [|[k b] d2 IH]; intros d1 d Hnd H X; unfold update_dict_by_adding_another in *.
    - cbn [foldM] in H. injection H as <-. reflexivity.
    - cbn [foldM] in H. apply bind_ok in H as (d' & Hs & H). simpl in Hnd. inversion Hnd as [|? ? Hk Hnd']; subst.
      specialize (IH _ _ Hnd' H X). unfold add_entry in Hs. unfold entry in *. cbn [dget].
      destruct (String.eqb X k) eqn:E.
      + apply String.eqb_eq in E; subst k.
        assert (E2 : dget X d2 = None) by (apply dget_none; auto). rewrite E2 in IH. cbn [add_up foldM] in IH.
        injection IH as IH. unfold add_up. cbn [foldM]. rewrite <- IH.
        destruct (dget X d1) as [a|].
        * apply bind_ok in Hs as (s & Hs & Hd). injection Hd as <-. unfold add_next. rewrite Hs. cbn [bind].
          rewrite dget_dset_eq. reflexivity.
        * injection Hs as <-. cbn [add_next bind]. rewrite dget_dset_eq. reflexivity.
      + apply String.eqb_neq in E.
        assert (E2 : dget X d' = dget X d1).
        { destruct (dget k d1) as [a|].
          - apply bind_ok in Hs as (s & Hs & Hd). injection Hd as <-. apply dget_dset_neq; auto.
          - injection Hs as <-. apply dget_dset_neq; auto. }
        rewrite <- E2. exact IH.
  Qed.

  Lemma update_succeeds : forall d2 d1, NoDup (keys d2) ->
    (forall X, exists o, add_up (dget X d1) (entry X d2) = Ok o) ->
    exists d, update_dict_by_adding_another d1 d2 = Ok d.
  Proof.
    induction d2 as [|[k b] d2 IH]; intros d1 Hnd H; unfold update_dict_by_adding_another in *.
    - cbn [foldM]. eauto.
    - simpl in Hnd. inversion Hnd as [|? ? Hk Hnd']; subst. cbn [foldM].
      assert (Hs : exists d', add_entry d1 (k, b) = Ok d' /\ forall X, X <> k -> dget X d' = dget X d1).
      { destruct (H k) as (o & Ho). unfold entry in Ho. cbn [dget] in Ho. rewrite String.eqb_refl in Ho.
        unfold add_up in Ho. cbn [foldM] in Ho. unfold add_entry, add_next in *. destruct (dget k d1) as [a|].
        - apply bind_ok in Ho as (s & Hs & _). apply bind_ok in Hs as (s' & Hs & _). rewrite Hs. cbn [bind].
          eexists. split; [reflexivity|]. intros X HX. apply dget_dset_neq; auto.
        - eexists. split; [reflexivity|]. intros X HX. apply dget_dset_neq; auto. }
      destruct Hs as (d' & -> & Hoth). cbn [bind]. apply IH; auto.
      intros X. destruct (In_dec_str X [k]) as [[<-|[]]|HX].
      + assert (E2 : dget k d2 = None) by (apply dget_none; auto). unfold entry. rewrite E2. cbn. eauto.
      + assert (X <> k) by (simpl in HX; intuition). rewrite Hoth by auto.
        specialize (H X). unfold entry in *. cbn [dget] in H.
        rewrite (proj2 (String.eqb_neq X k)) in H by auto. exact H.
  Qed.

  Lemma update_order : forall d2 d1 d, update_dict_by_adding_another d1 d2 = Ok d -> NoDup (keys d1) ->
    NoDup (keys d) /\ forall k, In k (keys d) <-> In k (keys d1) \/ In k (keys d2).
  Proof.
    induction d2 as [|[k b] d2 IH]; intros d1 d H Hnd; unfold update_dict_by_adding_another in *.
    - cbn [foldM] in H. injection H as <-. split; auto. simpl; tauto.
    - cbn [foldM] in H. apply bind_ok in H as (d' & Hs & H).
      assert (Hd' : exists v, d' = dset k v d1).
      { unfold add_entry in Hs. destruct (dget k d1); [|injection Hs as <-; eauto].
        apply bind_ok in Hs as (s & _ & Hs). injection Hs as <-; eauto. }
      destruct Hd' as (v & ->). destruct (IH _ _ H) as [G1 G2]; [apply NoDup_dset; auto|].
      split; auto. intros x. rewrite G2, In_keys_dset. simpl. intuition.
  Qed.

  Lemma entry_contributions : forall X (l : list (dict (da T))), contributions X l = flat_map (entry X) l.
  Proof. reflexivity. Qed.

  Lemma loop_get : forall {U} (st : state T) (cs : list (caller U)) u u' tend diag tend' diag',
    composite_loop cs u st tend diag = (u', Ok (tend', diag')) ->
    exists outs, runs st cs u u' outs /\
      diag' = fold_left dupdate (map snd outs) diag /\
      (Forall (fun o => NoDup (keys (fst o))) outs ->
       forall X, add_up (dget X tend) (contributions X (map fst outs)) = Ok (dget X tend')) /\
      (NoDup (keys tend) -> NoDup (keys tend') /\
       forall k, In k (keys tend') <-> In k (keys tend) \/ exists o, In o outs /\ In k (keys (fst o))).
  Proof.
    intros U st cs; induction cs as [|c cs IH]; intros u u' tend diag tend' diag' H; cbn [composite_loop] in H.
    - injection H as <- <- <-. exists []. split; [constructor|]. split; [reflexivity|].
      split; [reflexivity|]. intros Hn; split; auto. intros k. split; auto. intros [|(? & [] & _)]; auto.
    - destruct (c u st) as [u1 r] eqn:Hc.
      destruct (let* td := r in _) as [[t1 d1]|e] eqn:Hr; [|congruence].
      apply bind_ok in Hr as ([t d] & -> & Hr). apply bind_ok in Hr as (t1' & Hup & Hr). injection Hr as -> <-.
      destruct (IH _ _ _ _ _ _ H) as (outs & Hruns & Hd & Hadd & Hkeys).
      exists ((t, d) :: outs). split; [econstructor; eauto|]. split; [exact Hd|]. split.
      + intros Hnd X. inversion Hnd as [|? ? Hn1 Hn2]; subst. cbn [map fst]. unfold contributions. cbn [flat_map].
        change (match dget X t with Some a => [a] | None => [] end) with (entry X t).
        rewrite add_up_app. cbn [fst] in Hup, Hn1. rewrite (update_get t tend t1 Hn1 Hup X). cbn [bind].
        apply Hadd; auto.
      + intros Hn. cbn [fst] in Hup. destruct (update_order t tend t1 Hup Hn) as [G1 G2].
        destruct (Hkeys G1) as [K1 K2]. split; auto. intros k. rewrite K2, G2. split.
        * intros [[|]|(o & Ho & Hk)]; auto; right; [exists (t, d)|exists o]; simpl; auto.
        * intros [|(o & [<-|Ho] & Hk)]; auto. right; eauto.
  Qed.

  Lemma loop_succeeds : forall {U} (st : state T) (cs : list (caller U)) u u' outs tend diag,
    runs st cs u u' outs -> Forall (fun o => NoDup (keys (fst o))) outs ->
    (forall X, exists o, add_up (dget X tend) (contributions X (map fst outs)) = Ok o) ->
    exists tend' diag', composite_loop cs u st tend diag = (u', Ok (tend', diag')).
  Proof.
    intros U st cs u u' outs tend diag Hr. revert tend diag.
    induction Hr as [u|c cs u u1 u2 [t d] outs Hc Hr IH]; intros tend diag Hnd Hadd; cbn [composite_loop]; eauto.
    rewrite Hc. cbn [bind]. inversion Hnd as [|? ? Hn1 Hn2]; subst. cbn [fst] in *.
    assert (Hup : exists d', update_dict_by_adding_another tend t = Ok d').
    { apply update_succeeds; auto. intros X. destruct (Hadd X) as (o & Ho).
      cbn [map fst] in Ho. unfold contributions in Ho. cbn [flat_map] in Ho.
      change (match dget X t with Some a => [a] | None => [] end) with (entry X t) in Ho.
      rewrite add_up_app in Ho. apply bind_ok in Ho as (x & Hx & _). eauto. }
    destruct Hup as (d' & Hup). rewrite Hup. cbn [bind]. apply IH; auto.
    intros X. destruct (Hadd X) as (o & Ho). exists o.
    cbn [map fst] in Ho. unfold contributions in Ho. cbn [flat_map] in Ho.
    change (match dget X t with Some a => [a] | None => [] end) with (entry X t) in Ho.
    rewrite add_up_app, (update_get t tend d' Hn1 Hup X) in Ho. exact Ho.
  Qed.

  (** ** The sum *)

  Lemma add_quantities_ok : forall (a b s : da T), add_quantities a b = Ok s -> wf_da a -> wf_da b ->
    exists ua ub, units_of a = Some ua /\ units_of b = Some ub /\
      wf_da s /\ attrs s = attrs a /\ (exists extra, dims s = dims a ++ extra) /\ sizes_match a b /\
      (exists x y, parse ub = Some x /\ parse ua = Some y /\ u_dim x = u_dim y) /\
      (forall d, dim_len s d = match dim_len a d with Some n => Some n | None => dim_len b d end) /\
      (forall c, in_grid s c -> in_grid a c /\ in_grid b c /\
         exists y, converted ub ua (da_at b c) y /\ da_at s c = aadd (da_at a c) y).
  Proof.
    intros a b s H Ha Hb. unfold add_quantities in H. unfold units_of.
    destruct (dget "units" (attrs a)) as [ua|] eqn:Ea; [|discriminate].
    destruct (dget "units" (attrs b)) as [ub|] eqn:Eb; [|discriminate].
    apply bind_ok in H as (b' & Hb' & H). exists ua, ub. split; auto. split; auto.
    pose proof (to_units_wf _ _ _ Hb' Hb) as Hwb'.
    destruct (da_binop_ok _ _ _ _ _ H Ha Hwb') as (Hws & Hat & Hds & Hm & Hlen & Hv).
    split; auto. split; auto. split. { rewrite Hds. unfold bin_dims. eauto. }
    split. { intros d n m H1 H2. eapply Hm; eauto. rewrite (to_units_len _ _ _ d Hb'). auto. }
    split.
    { apply to_units_ok in Hb' as (own & u1 & u2 & Ho & P1 & P2 & Hc). unfold units_of in Ho.
      assert (own = ub) by congruence; subst. exists u1, u2. split; auto. split; auto.
      destruct Hc as [(E & _)|(_ & E & _)]; auto. apply one_eqb_eq in E. tauto. }
    split. { intros d. rewrite Hlen, (to_units_len _ _ _ d Hb'). auto. }
    intros c Hc. destruct (Hv c Hc) as (G1 & G2 & G3).
    assert (G2' : in_grid b c). { intros d n Hd. apply G2. rewrite (to_units_len _ _ _ d Hb'). auto. }
    split; auto. split; auto. exists (da_at b' c). split; auto. eapply to_units_at; eauto.
  Qed.

  Lemma add_quantities_succeeds : forall (a b : da T) ua ub x y, wf_da a ->
    units_of a = Some ua -> units_of b = Some ub -> parse ub = Some x -> parse ua = Some y -> u_dim x = u_dim y ->
    sizes_match a b -> exists s, add_quantities a b = Ok s.
  Proof.
    intros a b ua ub x y Ha Hua Hub Px Py Hd Hm. unfold add_quantities. unfold units_of in *. rewrite Hua, Hub.
    destruct (to_units_succeeds b ua ub x y Hub Px Py Hd) as (b' & Hb'). rewrite Hb'. cbn [bind].
    apply da_binop_succeeds; auto. intros d n m H1 H2. eapply Hm; eauto. rewrite <- (to_units_len _ _ _ d Hb'). auto.
  Qed.

  Lemma add_up_some : forall l (a : da T) o, add_up (Some a) l = Ok o -> exists r, o = Some r.
  Proof.
    induction l as [|b l IH]; intros a o H; unfold add_up in *; cbn [foldM] in H; [injection H as <-; eauto|].
    apply bind_ok in H as (x & Hx & H). unfold add_next in Hx. apply bind_ok in Hx as (s & _ & Hx).
    injection Hx as <-. eauto.
  Qed.

  Lemma add_up_step : forall (a b : da T) l, add_up (Some a) (b :: l) = let* s := add_quantities a b in add_up (Some s) l.
  Proof. intros a b l. unfold add_up. cbn [foldM]. unfold add_next. destruct (add_quantities a b); reflexivity. Qed.

  Lemma add_up_sum : forall l (a r : da T), add_up (Some a) l = Ok (Some r) -> wf_da a -> Forall wf_da l -> sum_of a l r.
  Proof.
    induction l as [|b l IH] using rev_ind; intros a r H Ha Hl.
    - cbn in H. injection H as <-. split; auto. split; auto. split. { exists []. rewrite app_nil_r; auto. }
      split. { intros d. simpl. destruct (dim_len a d); auto. }
      intros c Hc. exists []. split; constructor.
    - rewrite add_up_app in H. apply bind_ok in H as (o & Ho & H).
      destruct (add_up_some _ _ _ Ho) as (s & ->). rewrite add_up_step in H.
      apply bind_ok in H as (r' & Hr & H). cbn in H. injection H as ->.
      apply Forall_app in Hl as [Hl Hb]. inversion Hb as [|? ? Hwb _]; subst.
      destruct (IH a s Ho Ha Hl) as (Hws & Hat & (ex1 & Hd1) & Hlen & Hv).
      destruct (add_quantities_ok s b r Hr Hws Hwb) as (ua & ub & Hua & Hub & Hwr & Hat2 & (ex2 & Hd2) & _ & _ & Hlen2 & Hv2).
      split; auto. split; [congruence|]. split. { exists (ex1 ++ ex2). rewrite Hd2, Hd1, app_assoc; auto. }
      split.
      { intros d. rewrite Hlen2, Hlen. clear. simpl. destruct (dim_len a d); auto.
        induction l as [|x l IHl]; simpl; [destruct (dim_len b d); auto|]. destruct (dim_len x d); auto. }
      intros c Hc. destruct (Hv2 c Hc) as (G1 & G2 & y & Hy & Ey). destruct (Hv c G1) as (ys & Hys & Es).
      exists (ys ++ [y]). split.
      + apply Forall2_app; auto. constructor; [|constructor]. exists ub, ua. split; auto. split; auto.
        unfold units_of in *. congruence.
      + rewrite fold_left_app. simpl. congruence.
  Qed.

  Lemma add_up_addable : forall l (a : da T) o, add_up (Some a) l = Ok o -> wf_da a -> Forall wf_da l -> addable (a :: l).
  Proof.
    intros l a o H Ha Hl. destruct l as [|b l]; [left; simpl; lia|]. right.
    assert (G : forall l (s : da T) o, add_up (Some s) l = Ok o -> wf_da s -> Forall wf_da l -> l <> [] ->
      exists us y, units_of s = Some us /\ parse us = Some y /\
        (forall b, In b l -> exists ub x, units_of b = Some ub /\ parse ub = Some x /\ u_dim x = u_dim y) /\
        (forall b, In b l -> sizes_match s b) /\ (forall b b', In b l -> In b' l -> sizes_match b b')).
    { clear. induction l as [|b l IH]; intros s o H Hs Hl Hne; [congruence|].
      rewrite add_up_step in H. apply bind_ok in H as (s1 & Hs1 & H). inversion Hl as [|? ? Hb Hl']; subst.
      destruct (add_quantities_ok s b s1 Hs1 Hs Hb)
        as (ua & ub & Hua & Hub & Hw1 & Hat & _ & Hm & (x & y & Px & Py & Hd) & Hlen & _).
      exists ua, y. split; auto. split; auto.
      destruct l as [|b2 l].
      { split; [intros b0 [<-|[]]; eauto|]. split; [intros b0 [<-|[]]; auto|].
        intros b0 b1 [<-|[]] [<-|[]] d n m H1 H2; congruence. }
      destruct (IH s1 o H Hw1 Hl') as (us & y' & Hus & Py' & K1 & K2 & K3); [discriminate|].
      assert (us = ua) by (unfold units_of in *; congruence). subst us. assert (y' = y) by congruence. subst y'.
      split; [intros b0 [<-|Hb0]; eauto|].
      assert (S1 : forall b0, In b0 (b2 :: l) -> sizes_match s b0 /\ sizes_match b b0).
      { intros b0 Hb0. specialize (K2 b0 Hb0). split; intros d n m H1 H2.
        - apply (K2 d n m); auto. rewrite Hlen, H1; auto.
        - destruct (dim_len s d) as [k|] eqn:Ek.
          + assert (k = n) by (eapply Hm; eauto). subst k. apply (K2 d n m); auto. rewrite Hlen, Ek; auto.
          + apply (K2 d n m); auto. rewrite Hlen, Ek; auto. }
      split.
      - intros b0 [<-|Hb0]; auto. apply S1; auto.
      - intros b0 b1 [<-|Hb0] [<-|Hb1].
        + intros d n m H1 H2; congruence.
        + apply S1; auto.
        + intros d n m H1 H2. symmetry. destruct (S1 b0 Hb0) as [_ S]. eapply S; eauto.
        + apply K3; auto. }
    destruct (G (b :: l) a o H Ha Hl) as (us & y & Hus & Py & K1 & K2 & K3); [discriminate|].
    split.
    - exists (u_dim y). intros a0 [<-|Ha0]; eauto.
    - intros b0 b1 [<-|Hb0] [<-|Hb1].
      + intros d n m H1 H2; congruence.
      + auto.
      + intros d n m H1 H2. symmetry. eapply K2; eauto.
      + auto.
  Qed.

  Lemma addable_add_up : forall l (a : da T), wf_da a -> Forall wf_da l -> addable (a :: l) ->
    exists r, add_up (Some a) l = Ok (Some r).
  Proof.
    intros l a Ha Hl [Hle|[[dim Hu] Hm]].
    { destruct l; [|simpl in Hle; lia]. cbn. eauto. }
    assert (G : forall l (s : da T) dim, wf_da s -> Forall wf_da l ->
      (exists us y, units_of s = Some us /\ parse us = Some y /\ u_dim y = dim) ->
      (forall b, In b l -> exists ub x, units_of b = Some ub /\ parse ub = Some x /\ u_dim x = dim) ->
      (forall b, In b l -> sizes_match s b) -> (forall b b', In b l -> In b' l -> sizes_match b b') ->
      exists r, add_up (Some s) l = Ok (Some r)).
    { clear. induction l as [|b l IH]; intros s dim Hs Hl (us & y & Hus & Py & Ey) K1 K2 K3; [cbn; eauto|].
      rewrite add_up_step. inversion Hl as [|? ? Hb Hl']; subst.
      destruct (K1 b (or_introl eq_refl)) as (ub & x & Hub & Px & Ex).
      destruct (add_quantities_succeeds s b us ub x y) as (s1 & Hs1); auto.
      { apply K2; left; auto. }
      rewrite Hs1. cbn [bind].
      destruct (add_quantities_ok s b s1 Hs1 Hs Hb) as (ua & ub' & Hua & _ & Hw1 & Hat & _ & _ & _ & Hlen & _).
      apply (IH s1 (u_dim y)); auto.
      - exists us, y. unfold units_of in *. rewrite Hat. auto.
      - intros b0 Hb0. apply K1; right; auto.
      - intros b0 Hb0 d n m H1 H2. rewrite Hlen in H1. destruct (dim_len s d) as [k|] eqn:Ek.
        + injection H1 as <-. eapply (K2 b0); eauto. right; auto.
        + eapply (K3 b b0); eauto; [left|right]; auto.
      - intros b0 b1 H0 H1. apply K3; right; auto. }
    apply (G l a dim); auto.
    - apply Hu; left; auto.
    - intros b Hb. apply Hu; right; auto.
    - intros b Hb. apply Hm; [left|right]; auto.
    - intros b b' Hb Hb'. apply Hm; right; auto.
  Qed.

  (** ** C18 *)

  Lemma Forall_proper : forall (outs : list (dict (da T))) X, Forall proper outs -> Forall wf_da (contributions X outs).
  Proof.
    intros outs X H. apply Forall_forall. intros a Ha. unfold contributions in Ha.
    apply in_flat_map in Ha as (d & Hd & Ha). rewrite Forall_forall in H. specialize (H d Hd).
    destruct (dget X d) as [x|] eqn:E; [|destruct Ha]. destruct Ha as [<-|[]]. eapply (proj2 H); eauto.
  Qed.

  Lemma composite_sum : forall {U} (cs : list (caller U)) u u' (st : state T) tout dout,
    tendency_composite_call cs u st = (u', Ok (tout, dout)) ->
    exists outs, runs st cs u u' outs /\ 
      (Forall proper (map fst outs) -> forall X,
       match contributions X (map fst outs) with
       | [] => dget X tout = None
       | a :: rest => exists r, dget X tout = Some r /\ sum_of a rest r
       end).
  Proof.
    intros U cs u u' st tout dout H. unfold tendency_composite_call in H.
    destruct (loop_get st cs u u' [] [] tout dout H) as (outs & Hr & _ & Hadd & _).
    exists outs. split; auto. intros Hp X.
    assert (Hnd : Forall (fun o => NoDup (keys (fst o))) outs).
    { apply Forall_forall. intros o Ho. rewrite Forall_forall in Hp. apply (Hp (fst o)). apply in_map; auto. }
    specialize (Hadd Hnd X). pose proof (Forall_proper _ X Hp) as Hw.
    destruct (contributions X (map fst outs)) as [|a rest]; [cbn in Hadd; congruence|].
    unfold add_up in Hadd. cbn [foldM] in Hadd. cbn [dget add_next bind] in Hadd.
    change (foldM add_next rest (Some a)) with (add_up (Some a) rest) in Hadd.
    destruct (add_up_some _ _ _ Hadd) as (r & Er). exists r. split; auto. rewrite Er in Hadd.
    inversion Hw; subst. apply add_up_sum; auto.
  Qed.

  (** The composite returns iff the quantities can be added. *)
  Lemma composite_returns : forall {U} (cs : list (caller U)) u u' (st : state T) outs,
    runs st cs u u' outs -> Forall proper (map fst outs) ->
    ((exists td, tendency_composite_call cs u st = (u', Ok td)) <->
     forall X, addable (contributions X (map fst outs))).
  Proof.
    intros U cs u u' st outs Hr Hp.
    assert (Hnd : Forall (fun o => NoDup (keys (fst o))) outs).
    { apply Forall_forall. intros o Ho. rewrite Forall_forall in Hp. apply (Hp (fst o)). apply in_map; auto. }
    split.
    - intros ([tout dout] & H) X. unfold tendency_composite_call in H.
      destruct (loop_get st cs u u' [] [] tout dout H) as (outs' & Hr' & _ & Hadd & _).
      assert (outs' = outs).
      { clear - Hr Hr'. revert outs' Hr'. induction Hr as [u|c cs u u1 u2 td outs Hc Hr IH]; intros outs' Hr'.
        - inversion Hr'; auto.
        - inversion Hr' as [|? ? ? u1' ? td' outs2 Hc' Hr2]; subst. rewrite Hc in Hc'. injection Hc' as <- <-.
          f_equal. apply IH; auto. }
      subst outs'. specialize (Hadd Hnd X). pose proof (Forall_proper _ X Hp) as Hw.
      destruct (contributions X (map fst outs)) as [|a rest]; [left; simpl; lia|].
      unfold add_up in Hadd. cbn [foldM] in Hadd. cbn [dget add_next bind] in Hadd.
      inversion Hw; subst. eapply add_up_addable; eauto.
    - intros Had. unfold tendency_composite_call.
      destruct (loop_succeeds st cs u u' outs [] [] Hr Hnd) as (t & d & E).
      { intros X. specialize (Had X). pose proof (Forall_proper _ X Hp) as Hw.
        destruct (contributions X (map fst outs)) as [|a rest]; [cbn; eauto|].
        inversion Hw; subst. destruct (addable_add_up rest a) as (r & E); auto.
        exists (Some r). unfold add_up. cbn [foldM dget add_next bind]. exact E. }
      eauto.
  Qed.
End Facts.
