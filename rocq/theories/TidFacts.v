(** Tendencies in diagnostics (C14, C15) and the Stepper contract (C11). *)
From Coq Require Import String List Bool Arith ZArith QArith Lia.
From Verif Require Import Prelude PreludeFacts ArithM NdArray NdFacts Units DataArrayM Wildcard GetNp GetNpFacts Restore
  SpecArrays WildcardFacts ExtractFacts RestoreFacts RoundTripFacts UnitsFacts Tracers SpecComponents Components
  SpecCalls CheckerFacts ComponentFacts CallFacts StepperFacts ArraysMain.
Import ListNotations.
Open Scope string_scope.
Open Scope nat_scope.
Open Scope list_scope.

Lemma dupdate_nil : forall {V} (l : dict V), NoDup (keys l) -> dupdate [] l = l.
Proof.
  intros V l Hn. unfold dupdate.
  assert (G : forall (l acc : dict V), NoDup (keys (acc ++ l)) ->
    fold_left (fun a kv => dset (fst kv) (snd kv) a) l acc = acc ++ l).
  { clear. induction l as [|[k v] l IH]; intros acc Hn'; simpl; [rewrite app_nil_r; auto|].
    rewrite dset_absent.
    - rewrite IH; rewrite <- app_assoc; auto.
    - unfold keys in *. rewrite map_app in Hn'. simpl in Hn'. intros Hc.
      apply NoDup_remove_2 in Hn'. apply Hn', in_app_iff; auto. }
  apply G; auto.
Qed.

(** ** The insertion appends entries when no declared diagnostic has an inserted name *)

Lemma insert_append : forall comp (inp tend diag : pdict) added diag' added',
  NoDup (keys tend) ->
  (forall X, In X (keys tend) -> ~ In (tendency_name comp X) (keys diag)) ->
  foldM (insert_tendency_step comp inp) tend (diag, added) = Ok (diag', added') ->
  exists ext, diag' = diag ++ ext /\ keys ext = map (tendency_name comp) (keys tend) /\
    added' = added ++ map (tendency_name comp) (keys tend).
Proof.
  intros comp inp. induction tend as [|[X p] tend IH]; intros diag added diag' added' Hnd Hno H.
  - simpl in H. injection H as <- <-. exists []. rewrite !app_nil_r. auto.
  - cbn [foldM] in H. apply bind_ok in H as ((d1 & a1) & Hs & H).
    unfold insert_tendency_step in Hs. cbn [fst snd] in Hs.
    apply bind_ok in Hs as (ds & _ & Hs). apply bind_ok in Hs as (u & _ & Hs). injection Hs as <- <-.
    simpl in Hnd. inversion Hnd as [|? ? Hni Hnd']; subst.
    rewrite dset_absent in H by (apply Hno; left; auto).
    apply IH in H as (ext & -> & Hk & ->); auto.
    + eexists. rewrite <- app_assoc. split; [reflexivity|]. simpl. rewrite Hk. rewrite <- app_assoc. auto.
    + intros Y HY Hc. unfold keys in Hc. rewrite map_app in Hc. apply in_app_iff in Hc as [Hc|[Hc|[]]].
      * eapply (Hno Y); [right; auto|exact Hc].
      * apply tendency_name_inj in Hc. subst; auto.
Qed.

Section Tid.
  Context {T : Type} {A : Arith T} {R : Registry}.

  Lemma extract_dims_app : forall (inp : pdict) (diag ext : pdict) acc,
    (forall k, In k (keys diag) -> ~ In k (keys ext)) ->
    foldM (extract_dims_step inp (keys ext)) (diag ++ ext) acc = foldM (extract_dims_step inp []) diag acc.
  Proof.
    intros inp diag ext acc Hd. rewrite foldM_app.
    assert (E1 : foldM (extract_dims_step inp (keys ext)) diag acc = foldM (extract_dims_step inp []) diag acc).
    { apply foldM_ext. intros s [n p] Hin. unfold extract_dims_step. cbn [fst snd].
      assert (Hn : In n (keys diag)) by (apply in_map_iff; exists (n, p); auto).
      rewrite (proj2 (mem_false n (keys ext)) (Hd n Hn)). reflexivity. }
    rewrite E1. destruct (foldM (extract_dims_step inp []) diag acc) as [s|e]; simpl; auto.
    assert (E2 : forall l (s : dict (list string)), incl (keys l) (keys ext) ->
      foldM (extract_dims_step inp (keys ext)) l s = Ok s).
    { clear. induction l as [|[n p] l IH]; intros s Hi; simpl; auto. unfold extract_dims_step at 1. cbn [fst snd].
      rewrite (proj2 (mem_In n (keys ext))) by (apply Hi; left; auto). simpl. apply IH.
      intros k Hk; apply Hi; right; auto. }
    apply E2. apply incl_refl.
  Qed.

  Lemma dget_app_l : forall {V} k (a b : dict V), In k (keys a) -> dget k (a ++ b) = dget k a.
  Proof. intros V k a b H. rewrite dget_app. apply In_keys_dget in H as (v & ->). reflexivity. Qed.

  (** Restoring ignores appended, ignored entries. *)
  Lemma restore_app : forall (st : state T) raw (diag ext inp : pdict),
    NoDup (keys diag) -> (forall k, In k (keys diag) -> ~ In k (keys ext)) ->
    restore_data_arrays_with_properties raw (diag ++ ext) st inp (keys ext) false =
    restore_data_arrays_with_properties raw diag st inp [] false.
  Proof.
    intros st raw diag ext inp Hn Hd. unfold restore_data_arrays_with_properties, extract_output_dims_properties.
    destruct (get_wildcard_matches_and_dim_lengths st inp) as [[wn dl]|e]; simpl; auto.
    pose proof (extract_dims_app inp diag ext [] Hd) as E. rew_fold E.
    destruct (foldM (extract_dims_step inp []) diag []) as [dd|e] eqn:Edd; simpl; auto.
    apply extract_dims_ok in Edd as (Hk & _ & _); [|simpl; apply NoDup_filter; auto]. simpl in Hk.
    assert (E2 : foldM (restore_step raw (diag ++ ext) inp wn (keys ext)) dd (dl, []) =
                 foldM (restore_step raw diag inp wn []) dd (dl, [])).
    { apply foldM_ext. intros [dl1 o1] [n ds] Hin.
      assert (Hn' : In n (keys diag)).
      { assert (In n (keys dd)) by (apply in_map_iff; exists (n, ds); auto).
        rewrite Hk in H. apply filter_In in H as [? _]; auto. }
      unfold restore_step. rewrite (proj2 (mem_false n (keys ext)) (Hd n Hn')). simpl (mem n []). cbv iota.
      assert (Eg : dgetE n (diag ++ ext) = dgetE n diag) by (unfold dgetE; rewrite dget_app_l; auto).
      unfold get_alias_or_name. rewrite Eg. reflexivity. }
    rew_fold E2. reflexivity.
  Qed.

  (** The checker accepts the same raw diagnostics. *)
  Lemma check_app : forall {V} (diag ext inp : pdict) (raw : dict V),
    NoDup (keys diag) -> NoDup (keys (diag ++ ext)) ->
    check_outputs diag inp [] raw = Ok tt -> check_outputs (diag ++ ext) inp (keys ext) raw = Ok tt.
  Proof.
    intros V diag ext inp raw Hn Hn' H.
    apply check_outputs_iff in H as [Hm Hx]; auto. apply check_outputs_iff; auto.
    assert (Hal : forall name al, alias_of diag inp name al -> alias_of (diag ++ ext) inp name al).
    { intros name al (Hin & Hor). split; [unfold keys; rewrite map_app; apply in_app_iff; auto|].
      destruct Hor as [(p & Hp & Ha)|]; auto. left. exists p. split; auto. apply in_app_iff; auto. }
    split.
    - intros (name & Hin & Hni & Hna). apply Hm. exists name.
      unfold keys in Hin. rewrite map_app in Hin. apply in_app_iff in Hin as [Hin|Hin]; [|contradiction].
      split; auto. split; auto. intros [Ha|(al & Ha & Hb)]; apply Hna; [left; auto|right; eauto].
    - intros (k & Hin & Hni & Hna). apply Hx. exists k. split; auto. split.
      + intros Hc. apply Hni. unfold keys; rewrite map_app; apply in_app_iff; auto.
      + intros name Hc. eapply Hna; eauto.
  Qed.

  Lemma make_tendency_form : forall impl g g' (inp tend diag : pdict) name tid tro tu c,
    make_tendency_component impl g inp tend diag name tid tro tu = (g', Ok c) ->
    exists diag' added pk,
      (if tid then insert_tendency_properties name inp tend diag else Ok (diag, [])) = Ok (diag', added) /\
      make_packer g tro (keys tend) = (g', Ok pk) /\
      c = mktcomp true inp tend diag' name tid added pk tu.
  Proof.
    intros impl g g' inp tend diag name tid tro tu c H. unfold make_tendency_component in H.
    match type of H with context [let* _ := ?X in _] => destruct X as [[]|e] end; [|discriminate].
    cbn [bind] in H.
    destruct (if tid then insert_tendency_properties name inp tend diag else Ok (diag, []))
      as [[diag' added]|e] eqn:Ef; [|discriminate].
    destruct (make_packer g tro (keys tend)) as [g1 r]. injection H as <- H.
    apply bind_ok in H as (pk & -> & H). injection H as <-. exists diag', added, pk. auto.
  Qed.

  (** C14 *)
  Lemma tendencies_in_diagnostics : forall {U} impl g g0 g1 (inp tend diag : pdict) name tro tu c0 c1
      (ac : U -> dict (rval T) -> U * res (dict (nd T) * dict (nd T))) h u u' (st : state T) tout d0,
    NoDup (keys tend) -> NoDup (keys diag) ->
    (forall X, In X (keys tend) -> ~ In (tendency_name name X) (keys diag)) ->
    make_tendency_component impl g inp tend diag name false tro tu = (g0, Ok c0) ->
    make_tendency_component impl g inp tend diag name true tro tu = (g1, Ok c1) ->
    tendency_call h c0 ac u st = (u', Ok (tout, d0)) ->
    exists d1, tendency_call h c1 ac u st = (u', Ok (tout, d1)) /\
      (forall X q, dget X tout = Some q -> dget (tendency_name name X) d1 = Some q) /\
      (forall k, (forall X, In X (keys tout) -> k <> tendency_name name X) -> dget k d1 = dget k d0) /\
      (forall k, In k (keys d1) <-> In k (keys d0) \/ exists X, In X (keys tout) /\ k = tendency_name name X).
  Proof.
    intros U impl g g0 g1 inp tend diag name tro tu c0 c1 ac h u u' st tout d0 Hnt Hnd Hdis H0 H1 Hcall.
    apply make_tendency_form in H0 as (diag0 & add0 & pk0 & E0 & P0 & ->). injection E0 as <- <-.
    apply make_tendency_form in H1 as (diag1 & add1 & pk1 & E1 & P1 & ->).
    assert (pk1 = pk0) by congruence. subst pk1.
    unfold insert_tendency_properties in E1.
    apply insert_append in E1 as (ext & -> & Hke & ->); auto. simpl app.
    assert (Hd : forall k, In k (keys diag) -> ~ In k (keys ext)).
    { intros k Hk Hc. rewrite Hke in Hc. apply in_map_iff in Hc as (X & <- & HX). apply (Hdis X HX Hk). }
    assert (Hne : NoDup (keys ext)).
    { rewrite Hke. clear - Hnt. induction (keys tend) as [|x l IH]; simpl; [constructor|].
      inversion Hnt; subst. constructor; auto. intros Hc. apply in_map_iff in Hc as (y & E & Hy).
      apply tendency_name_inj in E; subst; auto. }
    assert (Hnn : NoDup (keys (diag ++ ext))).
    { unfold keys. rewrite map_app. clear - Hnd Hne Hd. fold (keys diag). fold (keys ext).
      revert Hnd Hd. generalize (keys diag) as l. induction l as [|x l IH]; intros Hn Hd; simpl; auto.
      inversion Hn; subst. constructor; [|apply IH; auto; intros; apply Hd; right; auto].
      intros Hc. apply in_app_iff in Hc as [|Hc]; auto. apply (Hd x); simpl; auto. }
    unfold tendency_call in Hcall |- *. cbn [t_init t_inp t_packer] in Hcall |- *.
    destruct (let* _ := raise_if (negb true) ERuntime in raw_state h inp pk0 st) as [raw|e]; [|congruence].
    destruct (ac u raw) as [u1 r]. injection Hcall as <- Hr.
    apply bind_ok in Hr as (out & -> & Hr). cbn [bind]. unfold tendency_finish in Hr |- *.
    cbn [t_init t_inp t_packer t_tunit t_tend t_diag t_added t_tid t_name] in Hr |- *.
    apply bind_ok in Hr as ((tr & rt) & Hut & Hr). rewrite Hut. cbn [bind].
    apply bind_ok in Hr as ([] & C1 & Hr). rewrite C1. cbn [bind].
    apply bind_ok in Hr as ([] & C2 & Hr). rewrite <- Hke. rewrite (check_app diag ext inp (snd out) Hnd Hnn C2). cbn [bind].
    apply bind_ok in Hr as (tnd & R1 & Hr). rewrite R1. cbn [bind].
    apply bind_ok in Hr as (dg & R2 & Hr). rewrite (restore_app st (snd out) diag ext inp Hnd Hd), R2. cbn [bind].
    injection Hr as <- <-.
    assert (Hntd : NoDup (keys (dupdate tr tnd))).
    { apply NoDup_dupdate. destruct pk0 as [p|]; simpl in Hut.
      - apply bind_ok in Hut as (t & _ & Hut). apply bind_ok in Hut as (o & Ho & Hut). injection Hut as <- <-.
        unfold unpack in Ho. apply bind_ok in Ho as (r & _ & Ho). eapply restore_NoDup; eauto.
      - injection Hut as <- <-. constructor. }
    destruct (insert_tendencies_get name _ dg Hntd) as (G1 & G2 & G3).
    eexists. split; [reflexivity|]. auto.
  Qed.

  (** The component with tendencies in diagnostics can be built whenever the one without can. *)
  Lemma tid_constructible : forall impl g g' (inp tend diag : pdict) name tro tu c,
    NoDup (keys inp) -> NoDup (keys tend) -> NoDup (keys diag) ->
    make_tendency_component impl g inp tend diag name false tro tu = (g', Ok c) ->
    exists c', make_tendency_component impl g inp tend diag name true tro tu = (g', Ok c').
  Proof.
    intros impl g g' inp tend diag name tro tu c Hni Hnt Hnd H.
    unfold make_tendency_component in *.
    match type of H with context [let* _ := ?X in _] => remember X as chk eqn:Hchk end.
    destruct chk as [[]|e]; [|simpl in H; congruence]. cbn [bind] in H |- *. symmetry in Hchk.
    apply bind_ok in Hchk as ([] & Hci & Hrest).
    destruct (check_input_iff inp Hni) as [(_ & Hii & _)|(Hx & _)]; [|congruence].
    assert (Hio : ~ incomplete_output tend inp).
    { assert (check_output_entries tend inp = Ok tt).
      { destruct impl; apply bind_ok in Hrest as ([] & H1 & H2).
        - unfold check_tendency_properties in H2. apply bind_ok in H2 as ([] & ? & _); auto.
        - unfold check_tendency_properties in H1. apply bind_ok in H1 as ([] & ? & _); auto. }
      destruct (output_entries_iff tend inp) as [[_ ?]|[? _]]; [auto|congruence]. }
    unfold insert_tendency_properties.
    destruct (insert_spec name inp tend diag []) as (diag' & Hf & _); [apply entries_complete; auto|auto|auto|].
    rew_fold Hf. destruct (make_packer g tro (keys tend)) as [g1 r]. injection H as <- H.
    apply bind_ok in H as (pk & -> & H). eexists. reflexivity.
  Qed.

  (** ** Steppers *)

  Lemma stepper_contract : forall {U} g g' h (inp diag outp : pdict) name tid tu c
      (ac : U -> dict (rval T) -> Z -> U * res (dict (nd T) * dict (nd T))) u u' (st : state T) dt dout nout,
    NoDup (keys inp) -> NoDup (keys diag) -> NoDup (keys outp) ->
    stars_ok outp (s_inp c) -> stars_ok (s_diag c) (s_inp c) ->
    make_stepper g inp diag outp name tid None tu = (g', Ok c) -> wf_state st ->
    stepper_call h c ac u st dt = (u', Ok (dout, nout)) ->
    as_declared st outp (s_inp c) nout /\ as_declared st (s_diag c) (s_inp c) dout /\
    (forall k, In k (keys (s_diag c)) <->
       In k (keys diag) \/ tid = true /\ exists X, In X (keys outp) /\ k = tendency_name name X).
  Proof.
    intros U g g' h inp diag outp name tid tu c ac u u' st dt dout nout Hni Hnd Hno Hso Hsd Hmk Hwf Hcall.
    destruct (make_stepper_ok _ _ _ _ _ _ _ _ _ _ Hni Hnd Hno Hmk)
      as (_ & Eo & _ & Etid & _ & Hpk & _ & HndD & Hoff & Hon).
    destruct (Hpk eq_refl) as [Epk _].
    unfold stepper_call in Hcall.
    destruct (let* _ := raise_if (negb (s_init c)) ERuntime in raw_state h (s_inp c) (s_packer c) st) as [raw|e];
      [|congruence].
    destruct (ac u raw dt) as [u1 r]. injection Hcall as <- Hr.
    apply bind_ok in Hr as ((rd & rn) & _ & Hr). unfold stepper_finish in Hr.
    rewrite Epk in Hr. cbn [unpack_tracers bind] in Hr.
    apply bind_ok in Hr as ([] & _ & Hr). apply bind_ok in Hr as ([] & _ & Hr).
    apply bind_ok in Hr as (rd' & _ & Hr). apply bind_ok in Hr as (dg & Hdg & Hr).
    apply bind_ok in Hr as (nw & Hnw & Hr). injection Hr as <- <-.
    rewrite dupdate_nil by (eapply restore_NoDup; eauto). rewrite Eo in Hnw.
    destruct (restore_declared st rn outp (s_inp c) [] nw Hwf Hno Hso Hnw) as [Hk1 Hv1].
    destruct (restore_declared st rd' (s_diag c) (s_inp c) [] dg Hwf HndD Hsd Hdg) as [Hk2 Hv2].
    split; [split; auto; intros n; rewrite Hk1; simpl; tauto|].
    split; [split; auto; intros n; rewrite Hk2; simpl; tauto|].
    destruct tid.
    - destruct (Hon eq_refl) as (Ei & _ & _ & _ & _ & Hk & _). intros k. rewrite Hk, Ei, in_map_iff. split.
      + intros [H|(X & <- & HX)]; eauto.
      + intros [H|(_ & X & HX & ->)]; eauto.
    - destruct (Hoff eq_refl) as (_ & -> & _). intros k. split; auto. intros [|[? _]]; auto. discriminate.
  Qed.

  (** ** Finite differences *)

  Lemma bshape_same : forall s, bshape_rev s s = Some s.
  Proof. induction s as [|n s IH]; simpl; auto. rewrite IH, Nat.eqb_refl. reflexivity. Qed.

  Lemma bcast_idx_id : forall idx s, in_range idx s -> bcast_idx s idx = idx.
  Proof.
    intros idx s H. induction H as [|i n idx s Hlt _ IH]; simpl; auto. rewrite IH.
    destruct (Nat.eqb n 1) eqn:E; auto. apply Nat.eqb_eq in E. subst. f_equal. lia.
  Qed.

  Lemma np_binop_same : forall op (a b : nd T), shape a = shape b ->
    exists r, np_binop op a b = Ok r /\ wf_nd r /\ shape r = shape a /\
      forall idx, in_range idx (shape a) -> at_ r idx = op (at_ a idx) (at_ b idx).
  Proof.
    intros op a b Hs. unfold np_binop. rewrite <- Hs, bshape_same, rev_involutive, Nat.sub_diag.
    eexists. split; [reflexivity|]. split; [apply wf_build|]. split; [apply shape_build|].
    intros idx Hi. rewrite at_build by auto. simpl skipn. rewrite bcast_idx_id; auto.
  Qed.

  (** The raw value of a tendency diagnostic. *)
  Lemma stepper_insert_get : forall c dt raw (rn rd rd' : dict (nd T)), NoDup (keys (s_out c)) ->
    stepper_insert c dt raw rn rd = Ok rd' ->
    forall X p, In (X, p) (s_out c) ->
    exists new old diff, dget X rn = Some new /\ dget X raw = Some (RArr old) /\ np_binop asub new old = Ok diff /\
      dget (tendency_name (s_name c) X) rd' =
        Some (nd_map (fun x => amul (adiv x (total_seconds dt)) (total_seconds (s_tu c))) diff).
  Proof.
    intros c dt raw rn. unfold stepper_insert. generalize (s_out c) as outs. intros outs. 
    induction outs as [|[Y py] outs IH]; intros rd rd' Hnd H X p Hin; [destruct Hin|].
    simpl in Hnd. inversion Hnd as [|? ? Hni Hnd']; subst.
    cbn [foldM] in H. apply bind_ok in H as (rd1 & Hs & H). cbn [fst] in Hs.
    destruct Hin as [E|Hin]; [|eapply IH; eauto]. injection E as -> ->.
    apply bind_ok in Hs as (new & Hn & Hs). apply bind_ok in Hs as (old & Ho & Hs).
    apply bind_ok in Hs as (diff & Hd & Hs). injection Hs as <-.
    exists new, old, diff. apply dgetE_ok in Hn. unfold get_raw_array in Ho.
    apply bind_ok in Ho as (v & Hv & Ho). apply dgetE_ok in Hv. destruct v as [a|t]; [|discriminate].
    injection Ho as ->. repeat split; auto.
    match type of H with foldM ?f ?l ?x0 = Ok ?y =>
      apply (foldM_inv (fun d => dget (tendency_name (s_name c) X) d =
        Some (nd_map (fun x => amul (adiv x (total_seconds dt)) (total_seconds (s_tu c))) diff)) f l x0 y); auto end;
      [|apply dget_dset_eq].
    intros s [Z pz] s' Hz Hg Hs. cbn [fst] in Hs.
    apply bind_ok in Hs as (? & _ & Hs). apply bind_ok in Hs as (? & _ & Hs). apply bind_ok in Hs as (? & _ & Hs).
    injection Hs as <-. rewrite dget_dset_neq; auto. intros E. apply tendency_name_inj in E. subst.
    apply Hni. apply in_map_iff. exists (Z, pz); auto.
  Qed.

  Lemma restored_values_L : forall raw (st : state T) outp inp name p ds q L,
    restored raw st outp inp name p ds q -> one_star ds ->
    forall ra, dget (out_key outp inp name) raw = Some ra ->
    let W := wildcard_dims st inp in
    shape (arr q) = map L (dims q) ->
    shape ra = map (axis_len W L) ds ->
    forall c, da_at q c = at_ ra (map (axis_pos W L c) ds).
  Proof.
    intros raw st outp inp name p ds q L (ra' & u & Hra & _ & _ & Hdims & Hlq & Hdata & Hprod & _ & _) Hos
      ra Hra' W Hshq Hsh c.
    rewrite Hra in Hra'; injection Hra' as ->.
    unfold da_at, at_. rewrite Hdata. f_equal.
    pose proof (one_star_index ds Hos) as Hi.
    destruct (index_of "*" ds) as [i|].
    - destruct Hi as (pre & post & -> & _ & Hpre & Hpost).
      rewrite Hshq, Hdims, Hsh. fold W. rewrite expand_dims_one by auto.
      rewrite !map_app. simpl map. rewrite !map_axis_id, !map_pos_id by auto.
      unfold axis_len, axis_pos; simpl. symmetry.
      apply (ravel_flatten (map L pre) (map c pre) (map L W) (map c W) (map L post) (map c post));
        rewrite !map_length; reflexivity.
    - rewrite Hshq, Hdims, Hsh. rewrite expand_dims_none by auto.
      rewrite map_axis_id, map_pos_id by auto. reflexivity.
  Qed.

  Lemma wildcard_dims_listed : forall (st : state T) inp d, In d (wildcard_dims st inp) ->
    exists nm p ds a, listed st inp nm p ds a /\ In d (dims a).
  Proof.
    intros st inp d H. unfold wildcard_dims in H. apply dedup_In, in_flat_map in H as ([nm p] & Hin & H). unfold undeclared in H. simpl in H.
    destruct (p_dims p) as [ds|] eqn:Ed; [|destruct H].
    destruct (dget nm st) as [[a|t]|] eqn:Ea; try destruct H.
    apply filter_In in H as [H _]. exists nm, p, ds, a. repeat split; auto.
  Qed.

  Lemma in_dims_has : forall (a : da T) d, length (dims a) = length (shape (arr a)) -> In d (dims a) ->
    exists n, has_dim a d n.
  Proof.
    intros a d. unfold has_dim. generalize (shape (arr a)). induction (dims a) as [|x l IH]; intros s Hl Hin; [destruct Hin|destruct Hin as [<-|Hin]].
    - destruct s as [|n s]; [discriminate|]. exists n. left. reflexivity.
    - destruct s as [|m s]; [discriminate|]. destruct (IH s) as (n & Hn); auto. exists n. right; auto.
  Qed.

  Lemma restored_shape : forall raw (st : state T) outp inp name p ds q L, wf_state st ->
    restored raw st outp inp name p ds q -> dims_known st inp ds -> common_lengths st inp L ->
    shape (arr q) = map L (dims q).
  Proof.
    intros raw st outp inp name p ds q L Hwf (ra & u & _ & _ & _ & Hd & Hl & _ & _ & _ & Hax) Hkn (HL & _).
    assert (Hall : forall d n, In (d, n) (combine (dims q) (shape (arr q))) -> n = L d).
    { intros d n Hin. assert (Hdd : In d (dims q)) by (eapply in_combine_l; eauto).
      assert (Hex : exists nm p ds a, listed st inp nm p ds a /\ In d (dims a)).
      { rewrite Hd in Hdd. unfold expand_dims in Hdd. apply in_flat_map in Hdd as (e & He & Hde).
        destruct (String.eqb e "*") eqn:E; [apply wildcard_dims_listed; auto|].
        destruct Hde as [<-|[]]. apply Hkn; auto. apply String.eqb_neq; auto. }
      destruct Hex as (nm & p' & ds' & a & Hli & Hia).
      destruct (in_dims_has a d) as (m & Hm); auto.
      { destruct (Hwf nm a) as [[? _] _]; auto. apply Hli. }
      rewrite (Hax d n Hin _ _ _ _ _ Hli Hm). symmetry. eapply HL; eauto. }
    clear - Hl Hall. revert Hl Hall. generalize (shape (arr q)). induction (dims q) as [|d l IH]; intros [|n s] Hl Hall; try discriminate; auto.
    simpl. rewrite (Hall d n (or_introl eq_refl)). f_equal. apply IH; auto. intros; apply Hall; right; auto.
  Qed.

  Lemma grid_in_range : forall W L c ds, grid_point W L c ds ->
    in_range (map (axis_pos W L c) ds) (map (axis_len W L) ds).
  Proof.
    intros W L c ds H. unfold in_range. induction ds as [|d ds IH]; simpl; [constructor|].
    constructor; [|apply IH; intros e He; apply H; right; auto].
    specialize (H d (or_introl eq_refl)). unfold axis_pos, axis_len. destruct (String.eqb d "*"); auto.
    apply ravel_lt. clear - H. induction W as [|w W IH]; simpl; constructor; auto.
    - apply H; left; auto.
    - apply IH. intros; apply H; right; auto.
  Qed.

  Lemma unaliased_key : forall outp inp X, unaliased outp X -> unaliased inp X -> out_key outp inp X = X.
  Proof.
    intros outp inp X H1 H2. unfold out_key. destruct (dget X outp) as [p|] eqn:E; auto.
    rewrite (H1 p E). destruct (dget X inp) as [q|] eqn:E2; auto. unfold raw_name. rewrite (H2 q E2). auto.
  Qed.

  (** C15 *)
  Lemma stepper_difference : forall {U} g g' h (inp diag outp : pdict) name tu c
      (ac : U -> dict (rval T) -> Z -> U * res (dict (nd T) * dict (nd T))) u u' (st : state T) dt dout nout X p ds,
    NoDup (keys inp) -> NoDup (keys diag) -> NoDup (keys outp) ->
    proper_inputs (s_inp c) -> stars_ok outp (s_inp c) -> stars_ok (s_diag c) (s_inp c) ->
    make_stepper g inp diag outp name true None tu = (g', Ok c) -> wf_state st ->
    stepper_call h c ac u st dt = (u', Ok (dout, nout)) ->
    dget X outp = Some p -> declared_dims outp (s_inp c) X ds ->
    unaliased outp X -> unaliased (s_inp c) X -> unaliased (s_inp c) (tendency_name name X) ->
    dims_known st (s_inp c) ds -> (In "*" ds -> keeps_shape ac X) ->
    exists un a old new d, p_units p = Some un /\ dget X st = Some (VDA a) /\ to_units a un = Ok old /\
      dget X nout = Some new /\ dget (tendency_name name X) dout = Some d /\
      attrs d = [("units", tendency_units un)] /\ dims d = dims new /\ shape (arr d) = shape (arr new) /\
      forall L pt, common_lengths st (s_inp c) L -> grid_point (wildcard_dims st (s_inp c)) L pt ds ->
        da_at d pt = amul (adiv (asub (da_at new pt) (da_at old pt)) (total_seconds dt)) (total_seconds tu).
  Proof.
    intros U g g' h inp diag outp name tu c ac u u' st dt dout nout X p ds Hni Hnd Hno Hpi Hso Hsd Hmk Hwf Hcall
      HX Hdd U1 U2 U3 Hkn Hks.
    destruct (make_stepper_ok _ _ _ _ _ _ _ _ _ _ Hni Hnd Hno Hmk)
      as (_ & Eo & En & Etid & Etu & Hpk & _ & HndD & _ & Hon).
    destruct (Hpk eq_refl) as [Epk _].
    destruct (Hon eq_refl) as (_ & _ & _ & _ & Hdf & _ & _ & Hins).
    pose proof (dget_In _ _ _ HX) as HXin.
    destruct (Hdf X p HXin) as (q & dsq & un & Hq & Hqd & Hqu & Hpu & Hpd).
    assert (Hdq : declared_dims outp (s_inp c) X dsq).
    { exists p. split; auto. destruct Hpd as [|Hpd]; auto. right; split; auto. exists q; auto. }
    assert (dsq = ds) by (eapply declared_dims_fun; eauto). subst dsq.
    destruct (Hins X p HXin) as (p' & ds' & un' & Hp' & (I1 & I2 & I3) & Hu' & q' & Hq' & Hqd').
    assert (un' = un) by congruence. assert (q' = q) by congruence. subst un' q'.
    assert (ds' = ds) by congruence. subst ds'.
    unfold stepper_call in Hcall.
    destruct (let* _ := raise_if (negb (s_init c)) ERuntime in raw_state h (s_inp c) (s_packer c) st) as [raw|e] eqn:Eraw;
      [|congruence].
    apply bind_ok in Eraw as ([] & _ & Eraw).
    destruct (raw_state_ok _ _ _ _ _ Hwf Hpi Eraw) as (_ & (L & HL & Hex) & _ & _ & _).
    destruct (ac u raw dt) as [u1 r] eqn:Eac. injection Hcall as <- Hr.
    apply bind_ok in Hr as ((rd & rn) & -> & Hr). unfold stepper_finish in Hr.
    rewrite Epk, Etid in Hr. cbn [unpack_tracers bind] in Hr.
    apply bind_ok in Hr as ([] & _ & Hr). apply bind_ok in Hr as ([] & _ & Hr).
    apply bind_ok in Hr as (rd' & Hrd & Hr). apply bind_ok in Hr as (dg & Hdg & Hr).
    apply bind_ok in Hr as (nw & Hnw & Hr). injection Hr as <- <-.
    rewrite dupdate_nil by (eapply restore_NoDup; eauto).
    pose proof (stepper_insert_get c dt raw rn rd rd') as Hsg. rewrite Eo, En, Etu in Hsg.
    destruct (Hsg Hno Hrd X p HXin) as (rnew & rold & diff & Hrn & Hro & Hbin & Hrd'). clear Hsg.
    destruct (Hex X q (dget_In _ _ _ Hq)) as (r & Hr & (dsx & ux & a & old & E1 & E2 & Ha & Hold & Hwr & Hshr & Hval)).
    unfold raw_name in Hr. rewrite (U2 q Hq) in Hr. rewrite Hro in Hr. injection Hr as <-.
    assert (dsx = ds) by congruence. assert (ux = un) by congruence. subst dsx ux.
    rewrite Eo in Hnw.
    assert (Hniga : forall raw (o : pdict) n, ~ ignored (T:=T) raw o [] false n) by (intros ? ? ? [[]|[? _]]; discriminate).
    destruct (restoration_spec st rn outp (s_inp c) [] false nw Hwf Hno Hso Hnw) as [_ Hv1].
    destruct (restoration_spec st rd' (s_diag c) (s_inp c) [] false dg Hwf HndD Hsd Hdg) as [_ Hv2].
    destruct (Hv1 X p HX (Hniga _ _ _)) as (ds1 & new & Hd1 & Hnew & Hres1).
    assert (ds1 = ds) by (eapply declared_dims_fun; eauto). subst ds1.
    destruct (Hv2 (tendency_name name X) p' Hp' (Hniga _ _ _)) as (ds2 & d & Hd2 & Hdg2 & Hres2).
    assert (ds2 = ds).
    { eapply declared_dims_fun; [exact Hd2|]. exists p'; auto. }
    subst ds2.
    pose proof (Hso X ds Hdd) as Hos.
    pose proof (restored_shape _ _ _ _ _ _ _ _ L Hwf Hres1 Hkn HL) as Hs1.
    pose proof (restored_shape _ _ _ _ _ _ _ _ L Hwf Hres2 Hkn HL) as Hs2.
    assert (Hk1 : out_key outp (s_inp c) X = X) by (apply unaliased_key; auto).
    assert (Hk2 : out_key (s_diag c) (s_inp c) (tendency_name name X) = tendency_name name X).
    { apply unaliased_key; auto. intros z Hz. congruence. }
    assert (Hdims : dims d = dims new).
    { destruct Hres1 as (? & ? & _ & _ & _ & -> & _). destruct Hres2 as (? & ? & _ & _ & _ & -> & _). auto. }
    assert (Hshn : shape rnew = shape rold).
    { destruct (In_dec_str "*" ds) as [Hst|Hst]; [eapply Hks; eauto|].
      destruct Hres1 as (ra & ? & Hra & _ & _ & Hdm & _ & _ & _ & Hns & _).
      rewrite Hk1, Hrn in Hra. injection Hra as <-. rewrite <- (Hns Hst), Hs1, Hdm, Hshr.
      rewrite expand_dims_none by auto. rewrite map_axis_id; auto. }
    destruct (np_binop_same asub rnew rold Hshn) as (diff' & Hb' & Hwd & Hsd' & Hat).
    rewrite Hbin in Hb'. injection Hb' as <-.
    set (f := fun x => amul (adiv x (total_seconds dt)) (total_seconds tu)) in *.
    assert (Hmap : shape (nd_map f diff) = map (axis_len (wildcard_dims st (s_inp c)) L) ds).
    { simpl. congruence. }
    exists un, a, old, new, d.
    split; [auto|]. split; [auto|]. split; [auto|]. split; [auto|]. split; [auto|].
    split. { destruct Hres2 as (? & uu & _ & Hu2 & Hat2 & _). rewrite Hat2. rewrite I2 in Hu2.
             injection Hu2 as <-. reflexivity. }
    split; [auto|]. split; [congruence|].
    intros L' pt HL' Hgp.
    assert (HLe : forall e, L' e = L e) by (eapply common_lengths_unique; eauto).
    assert (Hgp' : grid_point (wildcard_dims st (s_inp c)) L pt ds).
    { intros e He. specialize (Hgp e He). destruct (String.eqb e "*"); [intros; rewrite <- HLe; auto|rewrite <- HLe; auto]. }
    rewrite (restored_values_L rd' st (s_diag c) (s_inp c) _ _ _ d L Hres2 Hos (nd_map f diff)); auto;
      [|rewrite Hk2; auto].
    rewrite (restored_values_L rn st outp (s_inp c) _ _ _ new L Hres1 Hos rnew); auto;
      [|rewrite Hk1; auto|congruence].
    rewrite <- (Hval pt Hgp').
    pose proof (grid_in_range _ _ _ _ Hgp') as Hir.
    rewrite at_nd_map; auto; [|rewrite Hsd', Hshn, Hshr; auto].
    rewrite Hat by (rewrite Hshn, Hshr; auto). reflexivity.
  Qed.
End Tid.
