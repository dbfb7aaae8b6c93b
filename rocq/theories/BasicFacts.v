(** Lemmas about the basic components (Basic.v). *)
From Coq Require Import String List Bool Arith ZArith QArith Qcanon Lia.
From Verif Require Import Prelude PreludeFacts ArithM NdArray NdFacts Units DataArrayM Wildcard GetNp Restore Tracers Components Steppers Basic
  SpecUnits SpecArrays SpecDa SpecComponents SpecCalls SpecComposite SpecSteppers SpecBasic
  WildcardFacts GetNpFacts ExtractFacts RestoreFacts RoundTripFacts ArraysMain CallFacts ComponentFacts TidFacts DaFacts.
Import ListNotations.
Open Scope string_scope.
Open Scope nat_scope.
Open Scope list_scope.

Lemma append_self_l : forall a b : string, b = (a ++ b)%string -> a = "".
Proof.
  intros a b H. apply (f_equal String.length) in H. rewrite append_length in H.
  destruct a; auto. simpl in H. lia.
Qed.

Lemma relax_names : forall q, q <> equilibrium_name q /\ q <> timescale_name q /\ equilibrium_name q <> timescale_name q /\
  equilibrium_name q <> "time" /\ timescale_name q <> "time".
Proof.
  intros q. unfold equilibrium_name, timescale_name.
  repeat split; intros H; apply (f_equal String.length) in H; rewrite ?append_length in H; cbn [String.length] in H; lia.
Qed.

Lemma NoDup3 : forall a b c : string, a <> b -> a <> c -> b <> c -> NoDup [a; b; c].
Proof.
  intros a b c H1 H2 H3. constructor; [simpl; intuition|]. constructor; [simpl; intuition|].
  constructor; [simpl; intuition|]. constructor.
Qed.

Section Relax.
  Context {T : Type} {A : Arith T} {R : Registry}.

  (** The component [new_relaxation] makes. *)
  Definition relax_comp (q u tu name : string) (tid : bool) : tcomp :=
    mktcomp true (relaxation_inputs q u) [(q, qprops ["*"] tu)]
      (if tid then [(tendency_name name q, qprops ["*"] tu)] else []) name tid
      (if tid then [tendency_name name q] else []) None "s^-1".

  Lemma new_relaxation_form : forall over_s q u tu name tid c, over_s u = Ok tu ->
    new_relaxation over_s q u name tid = Ok c -> c = relax_comp q u tu name tid.
  Proof.
    intros over_s q u tu name tid c Ho H. unfold new_relaxation, relaxation_tendencies in H. rewrite Ho in H.
    cbn [bind] in H. unfold make_tendency_component in H. cbn [make_packer] in H.
    destruct (check_input_properties _) as [[]|]; [|discriminate H]. cbn [bind] in H.
    destruct (check_tendency_properties _ _) as [[]|]; [|discriminate H]. cbn [bind] in H.
    destruct (check_diagnostic_properties _ _) as [[]|]; [|discriminate H]. cbn [bind] in H.
    destruct tid; cbn in H; injection H as <-; reflexivity.
  Qed.

  Lemma raw_state_none : forall g inp (st : state T) raw, raw_state g inp None st = Ok raw <->
    exists r0 t, check_inputs inp st = Ok tt /\ get_numpy_arrays_with_properties st inp = Ok r0 /\ dget "time" st = Some t /\
      raw = dset "time" (RTime t) (map (fun kv => (fst kv, RArr (snd kv))) r0).
  Proof.
    intros g inp st raw. unfold raw_state. split.
    - intros H. apply bind_ok in H as ([] & Hci & H). apply bind_ok in H as (r0 & Hex & H).
      cbn [bind] in H. apply bind_ok in H as (t & Ht & H). injection H as <-. apply dgetE_ok in Ht. exists r0, t. auto.
    - intros (r0 & t & Hci & Hex & Ht & ->). rewrite Hci. cbn [bind]. rewrite Hex. cbn [bind].
      unfold dgetE. rewrite Ht. reflexivity.
  Qed.

  Lemma dget_mapR : forall (r0 : dict (nd T)) k, dget k (map (fun kv => (fst kv, RArr (snd kv))) r0) =
    match dget k r0 with Some a => Some (RArr a) | None => None end.
  Proof.
    induction r0 as [|[k' v] r IH]; intros k; auto. cbn [map fst snd dget]. destruct (String.eqb k k'); auto.
  Qed.

  Lemma get_raw_none : forall r0 (t : pval T) k a,
    get_raw_array k (dset "time" (RTime t) (map (fun kv => (fst kv, RArr (snd kv))) r0)) = Ok a <->
    k <> "time" /\ dget k r0 = Some a.
  Proof.
    intros r0 t k a. unfold get_raw_array, dgetE. destruct (string_dec k "time") as [->|Hk].
    - rewrite dget_dset_eq. cbn [bind]. split; [discriminate|intros [? _]; congruence].
    - rewrite dget_dset_neq, dget_mapR by auto. destruct (dget k r0); cbn [bind].
      + split; [intros H; injection H as <-; auto|intros [_ H]; injection H as <-; auto].
      + split; [discriminate|intros [_ H]; discriminate H].
  Qed.

  Lemma relax_inputs_wf : forall q u, wf_pdict (relaxation_inputs q u) /\
    NoDup (map (fun np => raw_name (fst np) (snd np)) (relaxation_inputs q u)) /\ NoDup (keys (relaxation_inputs q u)).
  Proof.
    intros q u. destruct (relax_names q) as (H1 & H2 & H3 & _). repeat split.
    - intros n p ds [E|[E|[E|[]]]] Hd; injection E as <- <-; injection Hd as <-; right; exists [], []; split; auto.
    - apply NoDup3; auto.
    - apply NoDup3; auto.
  Qed.

  (** All that is wanted of the three quantities. *)
  Definition three (st : state T) (q : string) (x e s : da T) : Prop :=
    dget q st = Some (VDA x) /\ dget (equilibrium_name q) st = Some (VDA e) /\ dget (timescale_name q) st = Some (VDA s).

  Lemma relax_listed : forall (st : state T) q u x e s, three st q x e s -> forall n p ds a,
    listed st (relaxation_inputs q u) n p ds a <->
    ds = ["*"] /\ ((n, p, a) = (q, qprops ["*"] u, x) \/ (n, p, a) = (equilibrium_name q, qprops ["*"] u, e) \/
                  (n, p, a) = (timescale_name q, qprops ["*"] "s", s)).
  Proof.
    intros st q u x e s (Hx & He & Hs) n p ds a. unfold listed. split.
    - intros ([E|[E|[E|[]]]] & Hd & Ha); injection E as <- <-; injection Hd as <-; split; auto.
      + left. congruence.
      + right; left. congruence.
      + right; right. congruence.
    - intros (-> & [E|[E|E]]); injection E as -> -> ->; (split; [simpl; tauto|split; auto]).
  Qed.

  Lemma relax_wild : forall (st : state T) q u x e s, wf_state st -> three st q x e s ->
    wildcard_dims st (relaxation_inputs q u) = dedup (dims x ++ dims e ++ dims s).
  Proof.
    intros st q u x e s Hwf (Hx & He & Hs). unfold wildcard_dims, relaxation_inputs. cbn [flat_map].
    unfold undeclared. cbn [fst snd p_dims qprops]. rewrite Hx, He, Hs.
    assert (Hf : forall n (a : da T), dget n st = Some (VDA a) -> filter (fun d => negb (mem d ["*"])) (dims a) = dims a).
    { intros n a Ha. destruct (Hwf _ _ Ha) as [_ Hns]. clear - Hns. induction (dims a) as [|d l IH]; auto. cbn [filter].
      rewrite (proj2 (mem_false d ["*"])). 2:{ intros [E|[]]. apply Hns. left; auto. }
      cbn [negb]. rewrite IH; auto. intros Hi. apply Hns. right; auto. }
    rewrite (Hf _ _ Hx), (Hf _ _ He), (Hf _ _ Hs), app_nil_r. reflexivity.
  Qed.

  Lemma dim_len_has : forall (a : da T) d n, wf_da a -> (dim_len a d = Some n <-> has_dim a d n).
  Proof.
    intros a d n (Hl & Hn & _). unfold dim_len, has_dim. split.
    - apply dget_In.
    - apply dget_NoDup_In. rewrite keys_combine; auto.
  Qed.

  Lemma relax_three : forall (st : state T) q u, complete st (relaxation_inputs q u) -> exists x e s, three st q x e s.
  Proof.
    intros st q u Hc.
    destruct (Hc q (qprops ["*"] u) (or_introl eq_refl)) as (_ & _ & x & Hx).
    destruct (Hc (equilibrium_name q) (qprops ["*"] u) (or_intror (or_introl eq_refl))) as (_ & _ & e & He).
    destruct (Hc (timescale_name q) (qprops ["*"] "s") (or_intror (or_intror (or_introl eq_refl)))) as (_ & _ & s & Hs).
    exists x, e, s. split; auto.
  Qed.

  Lemma relax_call_ok : forall q u tu name tid (st : state T) r0 t x e s, wf_state st -> q <> "time" -> three st q x e s ->
    check_inputs (relaxation_inputs q u) st = Ok tt -> get_numpy_arrays_with_properties st (relaxation_inputs q u) = Ok r0 ->
    dget "time" st = Some t ->
    exists r, relaxation_call (relax_comp q u tu name tid) q st = Ok ([(q, r)], if tid then [(tendency_name name q, r)] else []) /\
      is_relaxation u tu x e s r.
  Proof.
    intros q u tu name tid st r0 t x e s Hwf Hq H3 Hci Hex Ht.
    destruct (relax_inputs_wf q u) as (Hwp & Hnd & Hnk). destruct (relax_names q) as (N1 & N2 & N3 & N4 & N5).
    destruct (extraction_spec st _ r0 Hwf Hwp Hnd Hex) as (L & HL & Hk & Hv).
    set (inp := relaxation_inputs q u) in *. set (W := wildcard_dims st inp) in *.
    assert (HW : W = dedup (dims x ++ dims e ++ dims s)) by (apply relax_wild; auto).
    assert (Hext : forall n uu a, In (n, qprops ["*"] uu) inp -> dget n st = Some (VDA a) ->
       exists r, dget n r0 = Some r /\ wf_nd r /\ shape r = [prod (map L W)] /\ exists b, to_units a uu = Ok b /\
         forall c, (forall w, In w W -> c w < L w) -> at_ r [ravel (map L W) (map c W)] = da_at b c).
    { intros n uu a Hi Ha. destruct (Hv _ _ Hi) as (r & Hr & ds & u' & a' & b & Hd & Hu & Ha' & Hb & Hwr & Hsh & Hat).
      injection Hd as <-. injection Hu as <-. assert (a' = a) by congruence. subst a'.
      exists r. split; auto. split; auto. split; [exact Hsh|]. exists b. split; auto.
      intros c Hc. apply (Hat c). intros d [<-|[]]. exact Hc. }
    destruct H3 as (Hx & He & Hs).
    destruct (Hext q u x) as (rx & Gx & Wx & Sx & bx & Ux & Vx); [simpl; auto|auto|].
    destruct (Hext (equilibrium_name q) u e) as (re & Ge & We & Se & be & Ue & Ve); [simpl; auto|auto|].
    destruct (Hext (timescale_name q) "s" s) as (rs & Gs & Ws & Ss & bs & Us & Vs); [simpl; auto|auto|].
    assert (Hraw : raw_state empty_treg inp None st = Ok (dset "time" (RTime t) (map (fun kv => (fst kv, RArr (snd kv))) r0))).
    { apply raw_state_none. exists r0, t. auto. }
    destruct (np_binop_same asub re rx) as (d & Hd & Wd & Sd & Ad); [congruence|].
    destruct (np_binop_same adiv d rs) as (rt & Hrt & Wt & St & At); [congruence|].
    unfold relaxation_call, tendency_call. cbn [t_init relax_comp negb raise_if bind t_inp t_packer].
    fold inp. rewrite Hraw. unfold relaxation_array.
    rewrite (proj2 (get_raw_none _ _ _ _) (conj Hq Gx)). cbn [bind].
    rewrite (proj2 (get_raw_none _ _ _ _) (conj N4 Ge)). cbn [bind].
    rewrite (proj2 (get_raw_none _ _ _ _) (conj N5 Gs)). cbn [bind].
    rewrite Hd. cbn [bind]. rewrite Hrt. cbn [bind snd]. unfold tendency_finish.
    cbn [t_packer t_tend t_diag t_inp t_added t_tid t_name relax_comp unpack_tracers bind fst snd].
    assert (Hu : ~ unusable st inp) by (eapply extract_ok_usable; eauto).
    assert (Hcomp : complete st inp).
    { intros n p [E|[E|[E|[]]]]; injection E as <- <-; (split; [eexists; reflexivity|split; [eexists; reflexivity|]]); eauto. }
    assert (Hnc : ~ length_conflict st inp) by (intros H; apply Hu; right; left; auto).
    assert (Hnu : ~ unexpected_dim st inp) by (intros H; apply Hu; right; right; left; auto).
    assert (Hchk : check_outputs [(q, qprops ["*"] tu)] inp [] [(q, rt)] = Ok tt).
    { unfold check_outputs, check_missing, check_extra. unfold dmem. cbn. rewrite !String.eqb_refl. reflexivity. }
    fold inp.
    rewrite Hchk. cbn [bind].
    assert (Hchk2 : check_outputs (if tid then [(tendency_name name q, qprops ["*"] tu)] else []) inp
              (if tid then [tendency_name name q] else []) (@nil (string * nd T)) = Ok tt).
    { destruct tid; [|reflexivity]. unfold check_outputs, check_missing, check_extra.
      cbn [existsb fst snd dmem dget keys map negb andb mem]. rewrite String.eqb_refl. reflexivity. }
    rewrite Hchk2. cbn [bind].
    assert (Hone : forall nm p, dget nm [(q, qprops ["*"] tu)] = Some p -> nm = q /\ p = qprops ["*"] tu).
    { intros nm p E. cbn [dget] in E. destruct (String.eqb nm q) eqn:Eq; [|discriminate E].
      apply String.eqb_eq in Eq. split; congruence. }
    assert (Hni : forall nm, ~ ignored [(q, rt)] [(q, qprops ["*"] tu)] [] false nm).
    { intros nm [[]|[E _]]; discriminate E. }
    assert (Hrest : restorable [(q, rt)] st [(q, qprops ["*"] tu)] inp L q (qprops ["*"] tu) ["*"] tu rt).
    { unfold restorable. split; [exists (qprops ["*"] tu); split; [cbn [dget]; rewrite String.eqb_refl; auto|left; auto]|].
      split; [right; exists [], []; auto|]. split; auto. split.
      { unfold out_key. cbn [dget]. rewrite String.eqb_refl. cbn [p_alias qprops].
        unfold inp, relaxation_inputs. cbn [dget]. rewrite String.eqb_refl. cbn [raw_name p_alias qprops].
        rewrite String.eqb_refl. auto. }
      split; [rewrite St, Sd; exact Se|]. intros _. exists q, (qprops ["*"] u), ["*"]. simpl; auto. }
    destruct (main_restore_ok st [(q, rt)] [(q, qprops ["*"] tu)] inp [] false L Hwf) as (out & Hout & Hkeys & Hget); auto.
    { constructor; [intros []|constructor]. }
    { intros; eapply (proj1 HL); eauto. }
    { intros nm p E _. destruct (Hone nm p E) as [-> ->]. exists ["*"], tu, rt. exact Hrest. }
    destruct (Hget q (qprops ["*"] tu) ["*"] tu rt) as (r & Hr & Hra & Hrd & Hrsh & Hrat); auto.
    { cbn [dget]. rewrite String.eqb_refl. auto. }
    rewrite Hout. cbn [bind].
    assert (Ho : out = [(q, r)]).
    { pose proof (restore_NoDup _ _ _ _ _ _ _ Hout) as Hno. clear - Hno Hkeys Hr. destruct out as [|[k v] rest]; [discriminate Hr|].
      assert (k = q). { destruct (proj1 (Hkeys k)) as [[E|[]] _]; [left; auto|auto]. } subst k.
      cbn [dget] in Hr. rewrite String.eqb_refl in Hr. injection Hr as ->. f_equal.
      destruct rest as [|[k' v'] rest]; auto. exfalso. inversion Hno as [|? ? Hni _]; subst. apply Hni.
      destruct (proj1 (Hkeys k')) as [[E|[]] _]; [right; left; auto|]. cbn in E. subst k'. left; auto. }
    subst out.
    destruct (main_restore_ok st (@nil (string * nd T)) ((if tid then [(tendency_name name q, qprops ["*"] tu)] else []) : pdict) inp
               (if tid then [tendency_name name q] else []) false L Hwf) as (out2 & Hout2 & Hkeys2 & _); auto.
    { destruct tid; [constructor; [intros []|constructor]|constructor]. }
    { intros; eapply (proj1 HL); eauto. }
    { intros nm p E Hig. exfalso. destruct tid; [|discriminate E]. apply Hig. left. cbn [dget] in E.
      destruct (String.eqb nm _) eqn:Eq; [|discriminate E]. apply String.eqb_eq in Eq. left; auto. }
    rewrite Hout2. cbn [bind].
    assert (Ho2 : out2 = []).
    { destruct out2 as [|[k v] rest]; auto. exfalso. destruct (proj1 (Hkeys2 k)) as [Hi Hig]; [left; auto|].
      destruct tid; [|destruct Hi]. apply Hig. left. destruct Hi as [<-|[]]. left; auto. }
    subst out2. exists r. split.
    { cbn [dupdate fold_left]. destruct tid; reflexivity. }
    assert (Hrdim : dims r = W).
    { rewrite Hrd. unfold expand_dims. cbn [flat_map]. cbn. rewrite app_nil_r. auto. }
    assert (HnW : NoDup W) by (rewrite HW; apply dedup_NoDup).
    assert (Hwr : wf_da r).
    { split; [rewrite Hrsh, map_length; auto|]. split; [rewrite Hrdim; auto|].
      assert (Hno1 : NoDup (keys [(q, qprops ["*"] tu)])) by (constructor; [intros []|constructor]).
      assert (Hos : forall nm ds, declared_dims [(q, qprops ["*"] tu)] inp nm ds -> one_star ds).
      { intros nm ds (p & Hp & Hds). destruct (Hone nm p Hp) as [-> ->]. destruct Hds as [E|[E _]]; [|discriminate E].
        injection E as <-. right; exists [], []; auto. }
      destruct (restoration_spec st _ _ inp _ _ _ Hwf Hno1 Hos Hout) as [_ Hsp].
      destruct (Hsp q (qprops ["*"] tu)) as (ds & r' & _ & Hr' & (ra & u' & Hra' & _ & _ & _ & _ & Hdat & Hprod & _)); auto.
      { cbn [dget]. rewrite String.eqb_refl. auto. }
      assert (r' = r) by congruence. subst r'.
      destruct Hrest as (_ & _ & _ & Hra2 & _). assert (ra = rt) by congruence. subst ra.
      unfold wf_nd. rewrite Hdat, Hprod. exact Wt. }
    assert (HdimL : forall dd n, dim_len r dd = Some n <-> In dd W /\ n = L dd).
    { intros dd n. unfold dim_len. rewrite Hrsh, Hrdim. split.
      - intros E. assert (Hi : In dd W). { apply dget_In_keys in E. rewrite keys_combine in E; [auto|rewrite map_length; auto]. }
        rewrite dget_combine_map in E by auto. split; congruence.
      - intros [Hi ->]. apply dget_combine_map; auto. }
    assert (Hwx : forall n a, dget n st = Some (VDA a) -> wf_da a) by (intros n a Ha; apply (Hwf _ _ Ha)).
    assert (HLs : forall n uu a dd m, In (n, qprops ["*"] uu) inp -> dget n st = Some (VDA a) -> dim_len a dd = Some m ->
              In dd W /\ m = L dd).
    { intros n uu a dd m Hi Ha Hm. assert (Hl : listed st inp n (qprops ["*"] uu) ["*"] a) by (split; auto).
      split.
      - apply (undeclared_In st inp n (qprops ["*"] uu) ["*"] a dd Hl).
        + apply dim_len_In; eauto.
        + intros [<-|[]]. apply (Hwf _ _ Ha). apply dim_len_In; eauto.
      - symmetry. eapply (proj1 HL); eauto. apply dim_len_has; eauto. }
    assert (Lx := fun dd m => HLs q u x dd m (or_introl eq_refl) Hx).
    assert (Le := fun dd m => HLs (equilibrium_name q) u e dd m (or_intror (or_introl eq_refl)) He).
    assert (Ls := fun dd m => HLs (timescale_name q) "s" s dd m (or_intror (or_intror (or_introl eq_refl))) Hs).
    assert (Hgr : forall c, in_grid r c -> forall w, In w W -> c w < L w).
    { intros c Hc w Hw. apply (Hc w). apply HdimL. auto. }
    split; auto. split; auto. split; [congruence|]. split.
    - intros dd. cbn [first_len]. destruct (dim_len x dd) as [m|] eqn:Ex.
      { destruct (Lx _ _ Ex) as [Hi ->]. apply HdimL; auto. }
      destruct (dim_len e dd) as [m|] eqn:Ee.
      { destruct (Le _ _ Ee) as [Hi ->]. apply HdimL; auto. }
      destruct (dim_len s dd) as [m|] eqn:Es.
      { destruct (Ls _ _ Es) as [Hi ->]. apply HdimL; auto. }
      destruct (dim_len r dd) as [m|] eqn:Er; auto. exfalso. apply HdimL in Er as [Hi _].
      rewrite HW in Hi. apply (proj1 (dedup_In _ _)) in Hi. apply dim_len_none in Ex, Ee, Es; eauto.
      rewrite !in_app_iff in Hi. tauto.
    - intros c Hc. assert (Gxc : in_grid x c) by (intros dd m Hm; destruct (Lx _ _ Hm) as [Hi ->]; apply Hgr; auto).
      assert (Gec : in_grid e c) by (intros dd m Hm; destruct (Le _ _ Hm) as [Hi ->]; apply Hgr; auto).
      assert (Gsc : in_grid s c) by (intros dd m Hm; destruct (Ls _ _ Hm) as [Hi ->]; apply Hgr; auto).
      split; auto. split; auto. split; auto.
      assert (Hval : forall n (a b : da T) uu, dget n st = Some (VDA a) -> in_grid a c -> to_units a uu = Ok b -> value_in a uu c (da_at b c)).
      { intros n a b uu Ha Hg Hb. destruct (to_units_ok _ _ _ Hb) as (own & _ & _ & Hown & _). exists own. split; auto.
        eapply to_units_at; eauto. }
      exists (da_at bx c), (da_at be c), (da_at bs c).
      split; [eauto|]. split; [eauto|]. split; [eauto|].
      rewrite Hrat. fold W. cbn [map axis_pos]. cbn.
      assert (Hir : in_range [ravel (map L W) (map c W)] [prod (map L W)]).
      { constructor; [|constructor]. apply ravel_lt. apply Forall2_map_lt. intros w Hw. apply (Hgr c Hc w Hw). }
      rewrite At by (rewrite Sd, Se; auto). rewrite Ad by (rewrite Se; auto).
      rewrite Vx, Ve, Vs; auto.
  Qed.

  Lemma relax_call_inv : forall q u tu name tid (st : state T) out, wf_state st ->
    relaxation_call (relax_comp q u tu name tid) q st = Ok out ->
    q <> "time" /\ check_inputs (relaxation_inputs q u) st = Ok tt /\
    (exists r0, get_numpy_arrays_with_properties st (relaxation_inputs q u) = Ok r0) /\ exists t, dget "time" st = Some t.
  Proof.
    intros q u tu name tid st out Hwf H. unfold relaxation_call, tendency_call in H.
    cbn [t_init relax_comp negb raise_if bind t_inp t_packer] in H.
    destruct (raw_state empty_treg (relaxation_inputs q u) None st) as [raw|] eqn:Hr; [|discriminate H].
    apply raw_state_none in Hr as (r0 & t & Hci & Hex & Ht & ->). cbn [snd] in H.
    apply bind_ok in H as (o & Ho & _). unfold relaxation_array in Ho. apply bind_ok in Ho as (v & Hv & _).
    apply get_raw_none in Hv as [Hq _]. repeat split; eauto.
  Qed.
End Relax.
