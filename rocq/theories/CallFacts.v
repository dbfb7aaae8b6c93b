(** Lemmas about calls of components: declared results, non-interference, input
    validation, tendencies in diagnostics. *)
From Coq Require Import String List Bool Arith ZArith QArith Lia.
From Verif Require Import Prelude PreludeFacts ArithM NdArray NdFacts Units DataArrayM Wildcard GetNp Restore
  SpecArrays WildcardFacts ExtractFacts RestoreFacts RoundTripFacts UnitsFacts Tracers SpecComponents Components
  SpecCalls CheckerFacts ComponentFacts.
Import ListNotations.
Open Scope string_scope.
Open Scope nat_scope.
Open Scope list_scope.

Lemma foldM_ext : forall {B S} (f g : S -> B -> res S) l s,
  (forall s x, In x l -> f s x = g s x) -> foldM f l s = foldM g l s.
Proof.
  induction l as [|x l IH]; intros s H; simpl; auto.
  rewrite (H s x (or_introl eq_refl)). destruct (g s x); simpl; auto. apply IH. intros; apply H; right; auto.
Qed.

Section Calls.
  Context {T : Type} {A : Arith T} {R : Registry}.

  (** ** Declared results *)

  Lemma restore_declared : forall (st : state T) raw (outp inp : pdict) ign out,
    wf_state st -> NoDup (keys outp) -> stars_ok outp inp ->
    restore_data_arrays_with_properties raw outp st inp ign false = Ok out ->
    (forall name, In name (keys out) <-> In name (keys outp) /\ ~ In name ign) /\
    forall name q, dget name out = Some q -> conforms st outp inp name q.
  Proof.
    intros st raw outp inp ign out Hwf Hnd Hos H.
    destruct (restoration_spec st raw outp inp ign false out Hwf Hnd Hos H) as [Hk Hv].
    assert (Hig : forall name, ignored raw outp ign false name <-> In name ign).
    { intros name; unfold ignored; split; [intros [|[? _]]; [auto|discriminate]|auto]. }
    split.
    - intros name. rewrite Hk, Hig. tauto.
    - intros name q Hq. assert (Hin : In name (keys out)) by (eapply dget_In_keys; eauto).
      apply Hk in Hin as [Hin Hni]. apply In_keys_dget in Hin as (p & Hp).
      destruct (Hv name p Hp Hni) as (ds & q' & Hds & Hq' & (ra & u & Hra & Hu & Hat & Hdi & Hlen & _ & _ & _ & Hax)).
      assert (q' = q) by congruence. subst q'.
      exists p, ds, u. repeat split; auto. intros. eapply Hax; eauto.
  Qed.

  Lemma conforms_inserted : forall (st : state T) (tend diag inp : pdict) name k q p' ds u,
    conforms st tend inp name q ->
    (forall p, dget name tend = Some p -> p_units p = Some u /\
       (p_dims p = Some ds \/ p_dims p = None /\ exists q, dget name inp = Some q /\ p_dims q = Some ds)) ->
    dget k diag = Some p' -> inserted p' ds u -> conforms st diag inp k q.
  Proof.
    intros st tend diag inp name k q p' ds u (p & ds1 & u1 & Hp & Hd & Hu & Hat & Hdi & Hlen & Hax) Hall Hk (I1 & I2 & _).
    destruct (Hall p Hp) as [Hu' Hd'].
    assert (u1 = u) by congruence. subst u1.
    assert (declared_dims tend inp name ds) by (exists p; auto).
    assert (ds1 = ds) by (eapply declared_dims_fun; eauto). subst ds1.
    exists p', ds, u. repeat split; auto. exists p'; auto.
  Qed.

  Lemma insert_tendencies_get : forall comp (tend diag : dict (da T)), NoDup (keys tend) ->
    (forall X q, dget X tend = Some q -> dget (tendency_name comp X) (insert_tendencies comp tend diag) = Some q) /\
    (forall k, (forall X, In X (keys tend) -> k <> tendency_name comp X) ->
       dget k (insert_tendencies comp tend diag) = dget k diag) /\
    (forall k, In k (keys (insert_tendencies comp tend diag)) <->
       In k (keys diag) \/ exists X, In X (keys tend) /\ k = tendency_name comp X).
  Proof.
    intros comp. unfold insert_tendencies.
    induction tend as [|[X q] tend IH]; intros diag Hnd; simpl.
    - repeat split; auto; try discriminate. intros [|(X & [] & _)]; auto.
    - simpl in Hnd. inversion Hnd as [|? ? Hni Hnd']; subst.
      destruct (IH (dset (tendency_name comp X) q diag) Hnd') as (H1 & H2 & H3). repeat split.
      + intros Y r HY. destruct (String.eqb Y X) eqn:E.
        * apply String.eqb_eq in E; subst. injection HY as <-.
          rewrite H2; [apply dget_dset_eq|]. intros Z HZ Heq. apply tendency_name_inj in Heq; subst; auto.
        * apply H1; auto.
      + intros k Hk. rewrite H2 by (intros; apply Hk; auto). apply dget_dset_neq. apply Hk; auto.
      + intros Hin. apply H3 in Hin as [Hin|(Y & HY & ->)]; [|right; exists Y; auto].
        apply In_keys_dset in Hin as [-> |Hin]; auto. right; exists X; auto.
      + intros Hin. apply H3. destruct Hin as [Hin|(Y & [<-|HY] & ->)].
        * left. apply In_keys_dset; auto.
        * left. apply In_keys_dset; auto.
        * right. exists Y; auto.
  Qed.

  Lemma restore_NoDup : forall (st : state T) raw (outp inp : pdict) ign b out,
    restore_data_arrays_with_properties raw outp st inp ign b = Ok out -> NoDup (keys out).
  Proof.
    intros st raw outp inp ign b out H. unfold restore_data_arrays_with_properties in H.
    apply bind_ok in H as ((wn & dl) & _ & H). apply bind_ok in H as (dd & _ & H).
    apply bind_ok in H as ((dl' & out') & Hf & H). injection H as <-.
    match type of Hf with foldM ?f ?l ?x = _ =>
      apply (foldM_inv (fun s => NoDup (keys (snd s))) f l x (dl', out')); auto end; [|constructor].
    intros [dl1 o1] [n ds] [dl2 o2] _ Hn Hs. simpl in Hs |- *.
    destruct (mem n _); [injection Hs as <- <-; auto|].
    apply bind_ok in Hs as (rn & _ & Hs). apply bind_ok in Hs as (((dl3 & ds3) & oa) & _ & Hs).
    apply bind_ok in Hs as (p & _ & Hs). apply bind_ok in Hs as (u & _ & Hs).
    apply bind_ok in Hs as (q & _ & Hs). injection Hs as <- <-. apply NoDup_dset; auto.
  Qed.

  Lemma tendency_contract : forall {U} impl g g' (inp tend diag : pdict) name tid tu c
      (ac : U -> dict (rval T) -> U * res (dict (nd T) * dict (nd T))) u u' (st : state T) tout dout,
    NoDup (keys inp) -> NoDup (keys tend) -> NoDup (keys diag) ->
    stars_ok tend inp -> stars_ok diag inp ->
    make_tendency_component impl g inp tend diag name tid None tu = (g', Ok c) ->
    wf_state st ->
    tendency_call g c ac u st = (u', Ok (tout, dout)) ->
    as_declared st tend inp tout /\ as_declared st (t_diag c) inp dout /\
    (forall k, In k (keys (t_diag c)) <->
       In k (keys diag) \/ tid = true /\ exists X, In X (keys tend) /\ k = tendency_name name X).
  Proof.
    intros U impl g g' inp tend diag name tid tu c ac u u' st tout dout Hni Hnt Hnd Hst Hsd Hmk Hwf Hcall.
    destruct (make_tendency_ok _ _ _ _ _ _ _ _ _ _ _ Hni Hnt Hnd Hmk)
      as (_ & Ei & Et & En & Etid & _ & Hpk & HndD & Hoff & Hon).
    destruct (Hpk eq_refl) as [Epk _].
    unfold tendency_call in Hcall.
    destruct (let* _ := raise_if (negb (t_init c)) ERuntime in raw_state g (t_inp c) (t_packer c) st) as [raw|e];
      [|congruence].
    destruct (ac u raw) as [u1 r]. injection Hcall as <- Hr.
    apply bind_ok in Hr as (out & _ & Hr). unfold tendency_finish in Hr.
    rewrite Epk in Hr. cbn [unpack_tracers bind] in Hr.
    apply bind_ok in Hr as ([] & _ & Hr). apply bind_ok in Hr as ([] & _ & Hr).
    apply bind_ok in Hr as (tr & Htr & Hr). apply bind_ok in Hr as (dg & Hdg & Hr).
    injection Hr as <- <-. rewrite Ei, Et in Htr. rewrite Ei in Hdg.
    assert (Hup : dupdate [] tr = tr).
    { pose proof (restore_NoDup _ _ _ _ _ _ _ Htr) as Hn.
      clear - Hn. unfold dupdate.
      assert (G : forall (l acc : dict (da T)), NoDup (keys (acc ++ l)) ->
        fold_left (fun a kv => dset (fst kv) (snd kv) a) l acc = acc ++ l).
      { induction l as [|[k v] l IH]; intros acc Hn'; simpl; [rewrite app_nil_r; auto|].
        rewrite dset_absent.
        - rewrite IH; rewrite <- app_assoc; auto.
        - unfold keys in *. rewrite map_app in Hn'. simpl in Hn'. intros Hc.
          apply NoDup_remove_2 in Hn'. apply Hn', in_app_iff; auto. }
      apply G; auto. }
    rewrite Hup.
    pose proof (restore_NoDup _ _ _ _ _ _ _ Htr) as HnT.
    destruct (restore_declared st (fst out) tend inp [] tr Hwf Hnt Hst Htr) as [Hkt Hvt].
    split; [|].
    { split; auto. intros n. rewrite Hkt. simpl. tauto. }
    destruct tid.
    - destruct (Hon eq_refl) as (Eadd & Hk & Hoth & Hins).
      assert (Hsd' : stars_ok (t_diag c) inp).
      { intros k ds (p & Hp & Hd). destruct (In_dec_str k (t_added c)) as [Hi|Hi].
        - rewrite Eadd in Hi. apply in_map_iff in Hi as (n & <- & Hn).
          apply In_keys_dget in Hn as (pt & Hpt). pose proof (dget_In _ _ _ Hpt) as Hin.
          destruct (Hins n pt Hin) as (p' & ds' & u2 & Hp' & (I1 & _) & _ & Hdd).
          rewrite Hp in Hp'; injection Hp' as <-. destruct Hd as [Hd|(Hd & _)]; [|congruence].
          assert (ds' = ds) by congruence. subst ds'. apply (Hst n ds). exists pt; auto.
        - rewrite Hoth in Hp by auto. apply (Hsd k ds). exists p; auto. }
      destruct (restore_declared st (snd out) (t_diag c) inp (t_added c) dg Hwf HndD Hsd' Hdg) as [Hkd Hvd].
      rewrite Etid, En.
      destruct (insert_tendencies_get name tr dg HnT) as (G1 & G2 & G3).
      split; [split|].
      + intros k. rewrite G3, Hkd, Hk. split.
        * intros [[[H|H] _]|(X & HX & ->)]; auto. right. rewrite Eadd. apply in_map. apply Hkt in HX. tauto.
        * intros H. destruct (In_dec_str k (t_added c)) as [Hi|Hi].
          -- right. rewrite Eadd in Hi. apply in_map_iff in Hi as (X & <- & HX). exists X; split; auto.
             apply Hkt. simpl; auto.
          -- left. split; auto.
      + intros k q Hq. destruct (In_dec_str k (map (tendency_name name) (keys tr))) as [Hi|Hi].
        * apply in_map_iff in Hi as (X & <- & HX). apply In_keys_dget in HX as (qx & HX).
          rewrite (G1 X qx HX) in Hq. injection Hq as <-.
          pose proof (Hvt X qx HX) as Hc.
          assert (HXt : In X (keys tend)) by (apply Hkt; eapply dget_In_keys; eauto).
          apply In_keys_dget in HXt as (p & Hp).
          destruct (Hins X p (dget_In _ _ _ Hp)) as (p' & ds & u2 & Hp' & Hins' & Hu & Hd).
          eapply conforms_inserted; eauto. intros p0 Hp0. assert (p0 = p) by congruence; subst; auto.
        * rewrite G2 in Hq; [auto|]. intros X HX ->. apply Hi, in_map; auto.
      + intros k. rewrite Hk, Eadd, in_map_iff. split.
        * intros [H|(X & <- & HX)]; eauto.
        * intros [H|(_ & X & HX & ->)]; eauto.
    - destruct (Hoff eq_refl) as [Ed Ea]. rewrite Etid, Ed in *. rewrite Ea in Hdg.
      destruct (restore_declared st (snd out) diag inp [] dg Hwf Hnd Hsd Hdg) as [Hkd Hvd].
      split; [split; auto; intros k; rewrite Hkd; simpl; tauto|].
      intros k. split; auto. intros [|[? _]]; auto. discriminate.
  Qed.

  Lemma diagnostic_contract : forall {U} (inp diag : pdict) c
      (ac : U -> dict (rval T) -> U * res (dict (nd T))) u u' (st : state T) dout,
    NoDup (keys diag) -> stars_ok diag inp ->
    make_diagnostic_component inp diag = Ok c -> wf_state st ->
    diagnostic_call c ac u st = (u', Ok dout) -> as_declared st diag inp dout.
  Proof.
    intros U inp diag c ac u u' st dout Hnd Hs Hmk Hwf Hcall.
    unfold make_diagnostic_component in Hmk. apply bind_ok in Hmk as ([] & _ & Hmk).
    apply bind_ok in Hmk as ([] & _ & Hmk). injection Hmk as <-.
    unfold diagnostic_call in Hcall. cbn [d_init d_inp d_diag] in Hcall.
    destruct (let* _ := raise_if (negb true) ERuntime in raw_state empty_treg inp None st) as [raw|e]; [|congruence].
    destruct (ac u raw) as [u1 r]. injection Hcall as <- Hr.
    apply bind_ok in Hr as (out & _ & Hr). unfold diagnostic_finish in Hr. cbn [d_diag d_inp] in Hr.
    apply bind_ok in Hr as ([] & _ & Hr).
    destruct (restore_declared st out diag inp [] dout Hwf Hnd Hs Hr) as [Hk Hv].
    split; auto. intros n; rewrite Hk; simpl; tauto.
  Qed.

  (** ** Only declared inputs matter *)

  Lemma wildcard_ext : forall (st st' : state T) (pd : pdict), agree_on (keys pd) st st' ->
    get_wildcard_matches_and_dim_lengths st pd = get_wildcard_matches_and_dim_lengths st' pd.
  Proof.
    intros st st' pd H. unfold get_wildcard_matches_and_dim_lengths.
    rewrite (foldM_ext (wildcard_step st) (wildcard_step st')); auto.
    intros s [n p] Hin. unfold wildcard_step, dgetE. simpl. rewrite (H n); auto.
    apply in_map_iff. exists (n, p); auto.
  Qed.

  Lemma extract_ext : forall (st st' : state T) (pd : pdict), agree_on (keys pd) st st' ->
    get_numpy_arrays_with_properties st pd = get_numpy_arrays_with_properties st' pd.
  Proof.
    intros st st' pd H. unfold get_numpy_arrays_with_properties. rewrite (wildcard_ext st st' pd H).
    destruct (get_wildcard_matches_and_dim_lengths st' pd) as [[wn dl]|e]; simpl; auto.
    apply foldM_ext. intros s [n p] Hin. unfold extract_step, dgetE. simpl. rewrite (H n); auto.
    apply in_map_iff. exists (n, p); auto.
  Qed.

  Lemma restore_ext : forall (st st' : state T) raw (outp inp : pdict) ign b, agree_on (keys inp) st st' ->
    restore_data_arrays_with_properties raw outp st inp ign b =
    restore_data_arrays_with_properties raw outp st' inp ign b.
  Proof.
    intros st st' raw outp inp ign b H. unfold restore_data_arrays_with_properties.
    rewrite (wildcard_ext st st' inp H); auto.
  Qed.

  Lemma raw_state_ext : forall g inp pk (st st' : state T),
    agree_on (keys inp) st st' -> agree_on ["time"] st st' -> agree_on (read_tracers g pk) st st' ->
    raw_state g inp pk st = raw_state g inp pk st'.
  Proof.
    intros g inp pk st st' Hi Ht Hp. unfold raw_state.
    assert (check_inputs inp st = check_inputs inp st') as ->.
    { unfold check_inputs. apply foldM_ext. intros s [n p] Hin. unfold dmem. simpl. rewrite (Hi n); auto.
      apply in_map_iff. exists (n, p); auto. }
    rewrite (extract_ext st st' inp Hi).
    assert (dgetE "time" st = dgetE "time" st') as -> by (unfold dgetE; rewrite (Ht "time"); simpl; auto).
    destruct pk as [p|]; auto. unfold pack. rewrite (extract_ext st st' _ Hp). reflexivity.
  Qed.

  Lemma unpack_tracers_ext : forall g pk m raw (st st' : state T), agree_on (read_tracers g pk) st st' ->
    unpack_tracers g pk m raw st = unpack_tracers g pk m raw st'.
  Proof.
    intros g [p|] m raw st st' Hp; auto. unfold unpack_tracers, unpack.
    destruct (dgetE "tracers" raw) as [t|e]; simpl; auto.
    match goal with |- context [foldM ?f ?l ?x] => destruct (foldM f l x) as [r|e]; simpl; auto end.
    rewrite (restore_ext st st' r _ _ [] false Hp). reflexivity.
  Qed.

  Lemma tendency_call_ext : forall {U} g c (ac : U -> dict (rval T) -> U * res (dict (nd T) * dict (nd T))) u st st',
    agree_on (keys (t_inp c)) st st' -> agree_on ["time"] st st' -> agree_on (read_tracers g (t_packer c)) st st' ->
    tendency_call g c ac u st = tendency_call g c ac u st'.
  Proof.
    intros U g c ac u st st' Hi Ht Hp. unfold tendency_call. rewrite (raw_state_ext g _ _ st st' Hi Ht Hp).
    destruct (let* _ := raise_if _ _ in _) as [raw|e]; auto. destruct (ac u raw) as [u1 [out|e]]; auto. simpl.
    unfold tendency_finish. rewrite (unpack_tracers_ext g _ _ _ st st' Hp).
    destruct (unpack_tracers _ _ _ _ _) as [[tr rt]|e]; simpl; auto.
    rewrite !(restore_ext st st' _ _ _ _ _ Hi). reflexivity.
  Qed.

  Lemma diagnostic_call_ext : forall {U} c (ac : U -> dict (rval T) -> U * res (dict (nd T))) u st st',
    agree_on (keys (d_inp c)) st st' -> agree_on ["time"] st st' ->
    diagnostic_call c ac u st = diagnostic_call c ac u st'.
  Proof.
    intros U c ac u st st' Hi Ht. unfold diagnostic_call.
    rewrite (raw_state_ext empty_treg _ None st st' Hi Ht) by (intros n []).
    destruct (let* _ := raise_if _ _ in _) as [raw|e]; auto. destruct (ac u raw) as [u1 [out|e]]; auto. simpl.
    unfold diagnostic_finish. rewrite !(restore_ext st st' _ _ _ _ _ Hi). reflexivity.
  Qed.

  Lemma stepper_call_ext : forall {U} g c (ac : U -> dict (rval T) -> Z -> U * res (dict (nd T) * dict (nd T))) u st st' dt,
    agree_on (keys (s_inp c)) st st' -> agree_on ["time"] st st' -> agree_on (read_tracers g (s_packer c)) st st' ->
    stepper_call g c ac u st dt = stepper_call g c ac u st' dt.
  Proof.
    intros U g c ac u st st' dt Hi Ht Hp. unfold stepper_call. rewrite (raw_state_ext g _ _ st st' Hi Ht Hp).
    destruct (let* _ := raise_if _ _ in _) as [raw|e]; auto. destruct (ac u raw dt) as [u1 [[rd rn]|e]]; auto. simpl.
    rewrite (unpack_tracers_ext g _ _ _ st st' Hp).
    destruct (unpack_tracers _ _ _ _ _) as [[tr rt]|e]; simpl; auto.
    destruct (check_outputs _ _ _ rd); simpl; auto. destruct (check_outputs _ _ _ rt); simpl; auto.
    destruct (if s_tid c then _ else _); simpl; auto.
    rewrite !(restore_ext st st' _ _ _ _ _ Hi). reflexivity.
  Qed.

  (** ** Validated input *)

  Lemma extract_ok_usable : forall (st : state T) (inp : pdict) raw, wf_state st ->
    get_numpy_arrays_with_properties st inp = Ok raw -> check_inputs inp st = Ok tt -> ~ unusable st inp.
  Proof.
    intros st inp raw Hwf Hex Hci.
    assert (Hcomp : complete st inp).
    { intros name p Hin. unfold get_numpy_arrays_with_properties in Hex.
      apply bind_ok in Hex as ((wn & dl) & Hscan & _). unfold get_wildcard_matches_and_dim_lengths in Hscan.
      apply bind_ok in Hscan as ((w & d) & Hf & _).
      apply in_split in Hin as (l1 & l2 & ->). rewrite foldM_app in Hf. apply bind_ok in Hf as (s1 & _ & Hf).
      simpl in Hf. apply bind_ok in Hf as (s2 & Hf & _). unfold wildcard_step in Hf. simpl in Hf.
      unfold dims_and_units in Hf. destruct (p_dims p) as [ds|]; [|discriminate].
      destruct (p_units p) as [u|]; [|discriminate]. simpl in Hf. unfold dgetE in Hf.
      destruct (dget name st) as [[a|t]|]; try discriminate. eauto 10. }
    unfold get_numpy_arrays_with_properties in Hex. apply bind_ok in Hex as ((wn & dl) & Hscan & Hf).
    destruct (wildcard_matches_iff st inp Hwf Hcomp) as [Herr _].
    intros [(name & Hn & Hm)|[Hb|[Hb|Hb]]].
    - apply in_map_iff in Hn as ((n & p) & E & Hin). simpl in E; subst n.
      destruct (Hcomp name p Hin) as (_ & _ & a & Ha). congruence.
    - rewrite (Herr (or_introl Hb)) in Hscan. discriminate.
    - rewrite (Herr (or_intror Hb)) in Hscan. discriminate.
    - destruct Hb as (name & p & u & a & Hin & Hu & Ha & Hbad).
      apply in_split in Hin as (l1 & l2 & ->). rewrite foldM_app in Hf. apply bind_ok in Hf as (s1 & _ & Hf).
      cbn [foldM] in Hf. apply bind_ok in Hf as (s2 & Hf & _). unfold extract_step in Hf. cbn [fst snd] in Hf.
      unfold dims_and_units in Hf. destruct (p_dims p) as [ds|]; [|discriminate].
      rewrite Hu in Hf. cbn [bind] in Hf. unfold dgetE in Hf. rewrite Ha in Hf. cbn [bind] in Hf.
      assert (Hget : forall od dl, get_array (VDA a) u od dl = Err EInvalidState).
      { intros od dl'. unfold get_array. destruct Hbad as [Hno|(own & x & y & Ho & Hx & Hy & Hne)].
        - unfold dmem. rewrite Hno. reflexivity.
        - unfold dmem. rewrite Ho. simpl. unfold to_units, parseE. rewrite Ho, Hx, Hy. simpl.
          assert (Hd : udim_eqb x y = false).
          { destruct (udim_eqb x y) eqn:E; auto. apply udim_eqb_eq in E. contradiction. }
          unfold one_eqb. rewrite Hd. simpl. reflexivity. }
      destruct (index_of "*" ds) as [i|].
      + destruct wn as [names|]; [|discriminate].
        apply bind_ok in Hf as (r & Hf & _). apply bind_ok in Hf as (r' & Hf & _).
        rewrite Hget in Hf; discriminate.
      + apply bind_ok in Hf as (r & Hf & _). rewrite Hget in Hf; discriminate.
  Qed.

  Lemma raw_state_ok : forall g inp pk (st : state T) raw, wf_state st -> proper_inputs inp ->
    raw_state g inp pk st = Ok raw -> validated g inp pk st raw.
  Proof.
    intros g inp pk st raw Hwf (Hwp & Hnd & Hnt) H. unfold raw_state in H.
    apply bind_ok in H as ([] & Hci & H). apply bind_ok in H as (r0 & Hex & H).
    apply bind_ok in H as (r1 & Hr1 & H). apply bind_ok in H as (t & Ht & H). injection H as <-.
    apply dgetE_ok in Ht.
    split; [eapply extract_ok_usable; eauto|].
    destruct (extraction_spec st inp r0 Hwf Hwp Hnd Hex) as (L & HL & Hk & Hv).
    assert (Hg1 : forall k, k <> "tracers" -> dget k r1 = option_map RArr (dget k r0)).
    { intros k Hne. destruct pk as [p|].
      - apply bind_ok in Hr1 as (tt' & _ & E). injection E as <-. rewrite dget_dset_neq by auto.
        apply (dget_map_snd (@RArr T)).
      - injection Hr1 as <-. apply (dget_map_snd (@RArr T)). }
    repeat split.
    - exists L. split; auto. intros name p Hin. destruct (Hv name p Hin) as (r & Hr & He).
      destruct (Hnt name p Hin) as [N1 N2]. exists r. split; auto.
      rewrite dget_dset_neq by auto. rewrite Hg1 by auto. rewrite Hr. reflexivity.
    - exists t. split; auto. apply dget_dset_eq.
    - intros p ->. apply bind_ok in Hr1 as (ta & Hta & E). injection E as <-. exists ta. split; auto.
      rewrite dget_dset_neq by discriminate. apply dget_dset_eq.
    - intros Hin. apply In_keys_dset in Hin as [-> |Hin]; auto.
      destruct pk as [p|].
      + apply bind_ok in Hr1 as (ta & Hta & E). injection E as <-.
        apply In_keys_dset in Hin as [-> |Hin]; [right; left; split; auto; discriminate|].
        rewrite (keys_map_snd (@RArr T)) in Hin. rewrite Hk in Hin. apply in_map_iff in Hin as ((n & q) & <- & Hin).
        right; right; eauto.
      + injection Hr1 as <-. rewrite (keys_map_snd (@RArr T)) in Hin. rewrite Hk in Hin.
        apply in_map_iff in Hin as ((n & q) & <- & Hin). right; right; eauto.
    - intros Hin. apply In_keys_dset. destruct Hin as [-> |[(Hpk & ->)|(n & q & Hin & ->)]]; auto; right.
      + destruct pk as [p|]; [|congruence]. apply bind_ok in Hr1 as (ta & Hta & E). injection E as <-.
        apply In_keys_dset; auto.
      + assert (Hi : In (raw_name n q) (keys (map (fun kv => (fst kv, RArr (snd kv))) r0))).
        { rewrite (keys_map_snd (@RArr T)), Hk. apply in_map_iff. exists (n, q); auto. }
        destruct pk as [p|].
        * apply bind_ok in Hr1 as (ta & Hta & E). injection E as <-. apply In_keys_dset; auto.
        * injection Hr1 as <-; auto.
  Qed.

  Lemma raw_state_unusable : forall g inp pk (st : state T), wf_state st -> unusable st inp ->
    exists e, raw_state g inp pk st = Err e.
  Proof.
    intros g inp pk st Hwf Hu. unfold raw_state.
    destruct (check_inputs inp st) as [[]|e] eqn:Hci; simpl; [|eauto].
    destruct (get_numpy_arrays_with_properties st inp) as [r|e] eqn:Hex; simpl; [|eauto].
    exfalso. eapply extract_ok_usable; eauto.
  Qed.
End Calls.
