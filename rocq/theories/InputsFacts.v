(** C83: proofs. *)
From Coq Require Import String List Bool Arith ZArith Lia Permutation.
From Verif Require Import Prelude PreludeFacts ArithM NdArray NdFacts Units DataArrayM DaFacts SpecDa SpecUnits SpecArrays Wildcard GetNp ExtractFacts
  Tracers SpecTracers TracersFacts TracersMain SpecComponents Components SpecCalls ComponentFacts CallFacts ComponentsMain
  Composite SpecComposite CompositeFacts Steppers CombineFacts SpecNested SpecInputs.
Import ListNotations.
Open Scope string_scope.
Open Scope nat_scope.
Open Scope list_scope.

Lemma In_entries {V} : forall X (p : V) l, In p (entries X l) <-> In (X, p) l.
Proof.
  intros X p l. unfold entries. rewrite in_flat_map. split.
  - intros ((k, v) & Hin & H). cbn in H. destruct (String.eqb_spec X k) as [->|]; cbn in H; [|tauto].
    destruct H as [->|[]]. exact Hin.
  - intros H. exists (X, p). split; [exact H|]. cbn. rewrite String.eqb_refl. cbn. auto.
Qed.

Lemma Forall2_in_l {A B} (P : A -> B -> Prop) : forall l l' x, Forall2 P l l' -> In x l -> exists y, In y l' /\ P x y.
Proof.
  intros l l' x H. induction H as [|a b l l' HH H IH]; cbn; intros Hin; [tauto|].
  destruct Hin as [->|Hin]; [eauto|]. destruct (IH Hin) as (y & Hy & HP). eauto.
Qed.

Lemma Forall2_in_r {A B} (P : A -> B -> Prop) : forall l l' y, Forall2 P l l' -> In y l' -> exists x, In x l /\ P x y.
Proof.
  intros l l' y H. induction H as [|a b l l' HH H IH]; cbn; intros Hin; [tauto|].
  destruct Hin as [->|Hin]; [eauto|]. destruct (IH Hin) as (z & Hz & HP). eauto.
Qed.

Section Facts.
  Context {T : Type} {A : Arith T} {R : Registry}.
  Variable ord : list string -> list string.
  Hypothesis Hord : forall l, NoDup l -> Permutation (ord l) l.

  (** What the combined entry says about one of its entries. *)
  Lemma combined_reads : forall pds res, known (concat pds) ->
    combine_properties ord pds [] = Ok res ->
    forall X p, In (X, p) (concat pds) -> exists r, In (X, r) res /\
      (exists ds, p_dims p = Some ds) /\
      (p_units p = p_units r \/ units_compatible p r) /\
      (forall ds d, p_dims p = Some ds -> ~ In "*" ds -> forall rd, p_dims r = Some rd -> ~ In "*" rd /\
         (In d rd -> d <> "*" -> exists q ds', In (X, q) (concat pds) /\ p_dims q = Some ds' /\ In d ds')) /\
      (exists rd, p_dims r = Some rd).
  Proof.
    intros pds res Hk H X p Hin. pose proof (combine_properties_spec ord Hord [] pds Hk) as Hs. rewrite H in Hs.
    destruct Hs as (Hc & Hkeys & Hent). specialize (Hent X). specialize (Hc X).
    apply In_entries in Hin. pose proof (Hk X) as HkX. destruct (entries X (concat pds)) as [|p0 rest] eqn:E; [cbn in Hin; tauto|].
    destruct Hent as (r & Hr & Hu & Hal & Htr & rd & sn & Hrd & Hf & Hstar & Hnamed).
    exists r. split. { apply dget_In. exact Hr. }
    destruct Hc as (Hdims & Hcomb).
    destruct (Forall2_in_l _ _ _ p Hf Hin) as (dp & Hdp & Hpd). unfold dims_for in Hpd.
    assert (Hpd' : p_dims p = Some dp) by (destruct (p_dims p); [exact Hpd|cbn in Hpd; discriminate Hpd]).
    split; [eauto|]. split.
    - destruct Hin as [->|Hin]; [left; auto|]. right.
      apply in_split in Hin. destruct Hin as (l1 & l2 & ->).
      destruct (Hcomb p0 l1 p l2 eq_refl) as (Huc & _).
      destruct Huc as (s & s0 & u & u0 & H1 & H2 & H3 & H4 & H5). exists s, s0, u, u0. rewrite Hu. auto.
    - split; [|eauto]. intros ds d Hds Hns rd' Hrd'. rewrite Hrd in Hrd'. injection Hrd' as <-.
      rewrite Hpd' in Hds. injection Hds as <-. split.
      + rewrite Hstar. intros Hall. apply Hns. apply Hall. exact Hdp.
      + intros Hd Hne. apply Hnamed in Hd; [|exact Hne]. destruct Hd as (_ & ds' & Hds' & Hdd).
        destruct (Forall2_in_r _ _ _ ds' Hf Hds') as (q & Hq & Hqd). exists q, ds'. split.
        { apply In_entries. rewrite E. exact Hq. }
        split; [|exact Hdd]. unfold dims_for in Hqd. destruct (p_dims q); [exact Hqd|cbn in Hqd; discriminate Hqd].
  Qed.

  (** C83: what is enough for the combined properties is enough for each. *)
  Lemma combined_satisfied : forall pds res (st : state T), known (concat pds) -> wf_state st ->
    combine_properties ord pds [] = Ok res -> covers (concat pds) -> satisfies st res ->
    forall pd, In pd pds -> satisfies st pd.
  Proof.
    intros pds res st Hk Hwf H Hcov (Hcomp & Hkn & Hlc & Hud & Hbu) pd Hpd.
    assert (Hsub : forall X p, In (X, p) pd -> In (X, p) (concat pds)).
    { intros X p Hin. apply in_concat. eauto. }
    assert (Hlist : forall X p ds a, listed st pd X p ds a -> exists r rd, listed st res X r rd a).
    { intros X p ds a (Hin & Hds & Ha). destruct (combined_reads pds res Hk H X p (Hsub _ _ Hin)) as (r & Hr & _ & _ & _ & rd & Hrd).
      exists r, rd. repeat split; auto. }
    split; [|split; [|split; [|split]]].
    - intros X p Hin. destruct (combined_reads pds res Hk H X p (Hsub _ _ Hin)) as (r & Hr & Hds & Hu & _).
      destruct (Hcomp X r Hr) as (_ & (u & Hru) & Ha). split; [exact Hds|]. split; [|exact Ha].
      destruct Hu as [Hu|(s & s0 & x & y & Hu & _)]; [rewrite Hu; eauto|eauto].
    - intros X p Hin. destruct (combined_reads pds res Hk H X p (Hsub _ _ Hin)) as (r & Hr & _ & Hu & _).
      destruct (Hkn X r Hr) as (H1 & H2). split; [|exact H2].
      intros u Hpu. destruct Hu as [Hu|(s & s0 & x & y & Hu & _ & Hx & _)].
      + apply H1. rewrite <- Hu. exact Hpu.
      + rewrite Hu in Hpu. injection Hpu as <-. eauto.
    - intros (n1 & p1 & ds1 & a1 & n2 & p2 & ds2 & a2 & d & l1 & l2 & H1 & H2 & H3 & H4 & H5). apply Hlc.
      destruct (Hlist _ _ _ _ H1) as (r1 & rd1 & H1'). destruct (Hlist _ _ _ _ H2) as (r2 & rd2 & H2').
      exists n1, r1, rd1, a1, n2, r2, rd2, a2, d, l1, l2. auto.
    - intros (X & p & ds & a & d & (Hin & Hds & Ha) & Hd & Hnd & Hns). apply Hud.
      destruct (combined_reads pds res Hk H X p (Hsub _ _ Hin)) as (r & Hr & _ & _ & Hdd & rd & Hrd).
      destruct (Hdd ds d Hds Hns rd Hrd) as (Hnr & Hq).
      exists X, r, rd, a, d. split; [repeat split; auto|]. split; [exact Hd|]. split; [|exact Hnr].
      intros Hdr. assert (Hne : d <> "*"). { intros ->. destruct (Hwf X a Ha) as (_ & Hw). auto. }
      destruct (Hq Hdr Hne) as (q & ds' & Hqi & Hqd & Hdi). apply Hnd. exact (Hcov X p q ds ds' d (Hsub _ _ Hin) Hqi Hds Hqd Hns Hdi Hne).
    - intros (X & p & u & a & Hin & Hpu & Ha & Hbad). apply Hbu.
      destruct (combined_reads pds res Hk H X p (Hsub _ _ Hin)) as (r & Hr & _ & Hu & _).
      destruct Hu as [Hu|(s & s0 & x & y & Hs & Hs0 & Hx & Hy & Hd)].
      + exists X, r, u, a. rewrite <- Hu. auto.
      + exists X, r, s0, a. split; [exact Hr|]. split; [exact Hs0|]. split; [exact Ha|]. destruct Hbad as [Hb|(own & x' & y' & Ho & Hx' & Hy' & Hne)]; [auto|].
        right. rewrite Hs in Hpu. injection Hpu as <-. rewrite Hx in Hy'. injection Hy' as <-.
        exists own, x', y. split; [auto|]. split; [auto|]. split; [auto|]. congruence.
  Qed.

  (** ** From dictionaries to components *)

  Lemma remove_first_notin : forall x l, ~ In x l -> remove_first x l = l.
  Proof.
    intros x l. induction l as [|y l IH]; cbn; intros H; [reflexivity|].
    destruct (String.eqb_spec x y) as [->|]; [exfalso; apply H; auto|]. rewrite IH; auto.
  Qed.

  Lemma remove_first_here : forall x l1 l2, ~ In x l1 -> remove_first x (l1 ++ x :: l2) = l1 ++ l2.
  Proof.
    intros x l1 l2. induction l1 as [|y l1 IH]; cbn; intros H.
    - rewrite String.eqb_refl. reflexivity.
    - destruct (String.eqb_spec x y) as [->|]; [exfalso; apply H; auto|]. rewrite IH; auto.
  Qed.

  Lemma tracer_inputs_twice : forall g p qd, has_dims p qd ->
    mem "tracer" (pk_dims p) = true /\
    get_tracer_input_properties g (pk_prepend p) (remove_first "tracer" (pk_dims p)) = tracer_inputs g p.
  Proof.
    intros g p qd (pre & post & Hd & -> & Hn). split.
    - apply mem_In. rewrite Hd. apply in_or_app. right. left. reflexivity.
    - unfold tracer_inputs, get_tracer_input_properties. rewrite Hd, remove_first_here; [|intros Hi; apply Hn; apply in_or_app; auto].
      rewrite (remove_first_notin "tracer" (pre ++ post)) by exact Hn. reflexivity.
  Qed.

  Definition packers_ok (cs : list tcomp) : Prop :=
    forall c p, In c cs -> t_packer c = Some p -> exists qd, has_dims p qd.

  Lemma input_dicts_seen : forall g cs, packers_ok cs ->
    exists l, input_dicts g (map seen cs) = Ok l /\ concat l = all_reads g cs /\
      forall c, In c cs -> In (t_inp c) l /\ forall p, t_packer c = Some p -> In (tracer_inputs g p) l.
  Proof.
    intros g cs. unfold input_dicts. induction cs as [|c cs IH]; intros Hp.
    - exists []. cbn. repeat split; tauto.
    - destruct IH as (l & Hl & Hc & Hin). { intros c' p' Hi. apply Hp. right. exact Hi. }
      cbn [map]. cbn [mapM].
      destruct (mapM _ (map seen cs)) as [ls|e] eqn:E; [|discriminate Hl]. cbn in Hl. injection Hl as <-.
      unfold seen at 1. cbn [cp_tracers cp_inp]. destruct (t_packer c) as [p|] eqn:Ep; cbn [option_map].
      + destruct (Hp c p (or_introl eq_refl) Ep) as (qd & Hq). destruct (tracer_inputs_twice g p qd Hq) as (Hm & Ht).
        rewrite Hm, Ht. cbn. eexists. split; [reflexivity|]. split.
        * cbn. rewrite Hc. unfold reads_of. rewrite Ep, app_assoc. reflexivity.
        * intros c' [<-|Hi].
          { split; [cbn; auto|]. intros p' Hp'. rewrite Ep in Hp'. injection Hp' as <-. cbn. auto. }
          destruct (Hin c' Hi) as (H1 & H2). split; [cbn; auto|]. intros p' Hp'. cbn. auto.
      + cbn. eexists. split; [reflexivity|]. split.
        * cbn. rewrite Hc. unfold reads_of. rewrite Ep, app_nil_r. reflexivity.
        * intros c' [<-|Hi].
          { split; [cbn; auto|]. intros p' Hp'. rewrite Ep in Hp'. discriminate Hp'. }
          destruct (Hin c' Hi) as (H1 & H2). split; [cbn; auto|]. intros p' Hp'. cbn. auto.
  Qed.

  (** The array_call of a component whose inputs are satisfied is run. *)
  Lemma satisfied_raw : forall g inp pk (st : state T), consistent g -> wf_state st ->
    (exists t, dget "time" st = Some t) -> sound_inputs st inp -> satisfies st inp ->
    (forall p, pk = Some p -> (exists qd, has_dims p qd /\ one_star qd) /\ no_repeated_dims st (tracer_inputs g p) /\
       satisfies st (tracer_inputs g p)) ->
    exists raw, raw_state g inp pk st = Ok raw.
  Proof.
    intros g inp pk st Hg Hwf (t & Ht) (Hwp & Hnr) (Hc & Hk & H1 & H2 & H3) Hpk.
    unfold raw_state.
    assert (Hci : check_inputs inp st = Ok tt).
    { unfold check_inputs. clear - Hc.
      assert (Hall : forall X p, In (X, p) inp -> dmem X st = true).
      { intros X p Hin. destruct (Hc X p Hin) as (_ & _ & a & Ha). unfold dmem. rewrite Ha. reflexivity. }
      clear Hc. induction inp as [|(k, p) l IH]; cbn; [reflexivity|].
      rewrite (Hall k p (or_introl eq_refl)). cbn. apply IH. intros X p' Hin. apply (Hall X p'). right. exact Hin. }
    rewrite Hci. cbn [bind].
    destruct (extraction_iff st inp Hwf Hwp Hc Hk Hnr) as (_ & Hok).
    destruct (Hok H1 H2 H3) as (raw & ->). cbn [bind].
    destruct pk as [p|].
    - destruct (Hpk p eq_refl) as ((qd & Hq & Hos) & Hnr' & (Hc' & Hk' & H1' & H2' & H3')).
      assert (Hwp' : wf_pdict (tracer_inputs g p)).
      { intros name pr ds Hin Hds. unfold tracer_inputs, get_tracer_input_properties in Hin.
        apply in_map_iff in Hin. destruct Hin as (nu & E & _). injection E as _ <-. cbn in Hds. injection Hds as <-.
        destruct Hq as (pre & post & Hd & -> & Hn). rewrite Hd, remove_first_here; [exact Hos|].
        intros Hi. apply Hn. apply in_or_app. auto. }
      destruct (extraction_iff st _ Hwf Hwp' Hc' Hk' Hnr') as (_ & Hok').
      destruct (Hok' H1' H2' H3') as (raw' & Hr').
      pose proof (main_pack_iff g p qd st Hg Hq Hos Hwf) as Hpi. unfold tracer_inputs in Hr'. rewrite Hr' in Hpi.
      destruct Hpi as (arr & ->). cbn [bind]. unfold dgetE. rewrite Ht. cbn. eauto.
    - cbn [bind]. unfold dgetE. rewrite Ht. cbn. eauto.
  Qed.

  Lemma raw_called : forall g c (st : state T) raw, t_init c = true -> raw_state g (t_inp c) (t_packer c) st = Ok raw ->
    forall (ac : dict (rval T) -> res (dict (nd T) * dict (nd T))) raws,
    fst (tendency_call g c (fun s r => (s ++ [r], ac r)) raws st) = raws ++ [raw].
  Proof. intros g c st raw Hi Hr ac raws. unfold tendency_call. rewrite Hi, Hr. reflexivity. Qed.

  (** What [st] must offer for each of the components to be run. *)
  Lemma satisfied_called : forall g c (st : state T), consistent g -> wf_state st ->
    (exists t, dget "time" st = Some t) -> sound_component g st c -> satisfies st (t_inp c) ->
    (forall p, t_packer c = Some p -> satisfies st (tracer_inputs g p)) ->
    forall (ac : dict (rval T) -> res (dict (nd T) * dict (nd T))) raws, exists raw,
    fst (tendency_call g c (fun s r => (s ++ [r], ac r)) raws st) = raws ++ [raw].
  Proof.
    intros g c st Hg Hwf Ht (Hi & Hs & Hpk) Hsat Htr ac raws.
    destruct (satisfied_raw g (t_inp c) (t_packer c) st Hg Hwf Ht Hs Hsat) as (raw & Hr).
    { intros p Hp. destruct (Hpk p Hp) as (H1 & H2). auto. }
    exists raw. apply raw_called; auto.
  Qed.

  Lemma sound_packers : forall g (st : state T) cs, (forall c, In c cs -> sound_component g st c) -> packers_ok cs.
  Proof. intros g st cs H c p Hin Hp. destruct (H c Hin) as (_ & _ & Hk). destruct (Hk p Hp) as ((qd & Hq & _) & _). eauto. Qed.

  (** C83 for composites. *)
  Lemma composite_inputs_suffice : forall g cs inp (st : state T), consistent g -> wf_state st ->
    (exists t, dget "time" st = Some t) -> (forall c, In c cs -> sound_component g st c) ->
    composite_inputs ord g (map seen cs) = Ok inp -> known (all_reads g cs) -> covers (all_reads g cs) ->
    satisfies st inp ->
    forall c, In c cs -> forall (ac : dict (rval T) -> res (dict (nd T) * dict (nd T))) raws, exists raw,
    fst (tendency_call g c (fun s r => (s ++ [r], ac r)) raws st) = raws ++ [raw].
  Proof.
    intros g cs inp st Hg Hwf Ht Hs Hci Hk Hcov Hsat c Hin ac raws.
    destruct (input_dicts_seen g cs (sound_packers g st cs Hs)) as (l & Hl & Hcc & Hmem).
    unfold composite_inputs in Hci. rewrite Hl in Hci. cbn [bind] in Hci. rewrite <- Hcc in Hk, Hcov.
    destruct (Hmem c Hin) as (Hm1 & Hm2).
    apply satisfied_called; auto.
    - eapply combined_satisfied; eauto.
    - intros p Hp. eapply combined_satisfied; eauto.
  Qed.

  (** C83 for composites of diagnostic components. *)
  Lemma diagnostic_inputs_suffice : forall g cs inp (st : state T), wf_state st ->
    (exists t, dget "time" st = Some t) -> (forall c, In c cs -> d_init c = true /\ sound_inputs st (d_inp c)) ->
    composite_inputs ord g (map dseen cs) = Ok inp -> known (flat_map d_inp cs) -> covers (flat_map d_inp cs) ->
    satisfies st inp ->
    forall c, In c cs -> forall (ac : dict (rval T) -> res (dict (nd T))) raws, exists raw,
    fst (diagnostic_call c (fun s r => (s ++ [r], ac r)) raws st) = raws ++ [raw].
  Proof.
    intros g cs inp st Hwf Ht Hs Hci Hk Hcov Hsat c Hin ac raws.
    assert (Hl : input_dicts g (map dseen cs) = Ok (map d_inp cs)).
    { clear. unfold input_dicts. induction cs as [|c cs IH]; [reflexivity|]. cbn [map mapM].
      destruct (mapM _ (map dseen cs)) as [ls|e]; [|discriminate IH]. cbn in IH. injection IH as IH. cbn. rewrite IH. reflexivity. }
    unfold composite_inputs in Hci. rewrite Hl in Hci. cbn [bind] in Hci.
    rewrite flat_map_concat_map in Hk, Hcov. destruct (Hs c Hin) as (Hi & Hsc).
    assert (Hsat' : satisfies st (d_inp c)). { eapply combined_satisfied; eauto. apply in_map. exact Hin. }
    destruct (satisfied_raw empty_treg (d_inp c) None st) as (raw & Hr); auto.
    - split; [constructor|]. intros n. cbn. tauto.
    - intros p Hp. discriminate Hp.
    - exists raw. unfold diagnostic_call. rewrite Hi, Hr. reflexivity.
  Qed.

  (** C83 for time steppers. *)
  Lemma stepper_inputs_suffice : forall g clean cs name tid cfg inp (st : state T), consistent g -> wf_state st ->
    (exists t, dget "time" st = Some t) -> (forall c, In c cs -> sound_component g st c) ->
    make_tstep ord clean g (map (fun c => (true, seen c)) cs) name tid = Ok cfg ->
    composite_inputs ord g (map seen cs) = Ok inp ->
    known (all_reads g cs) -> covers (all_reads g cs) -> known (inp ++ ts_out cfg) -> covers (inp ++ ts_out cfg) ->
    satisfies st (ts_inp cfg) ->
    forall c, In c cs -> forall (ac : dict (rval T) -> res (dict (nd T) * dict (nd T))) raws, exists raw,
    fst (tendency_call g c (fun s r => (s ++ [r], ac r)) raws st) = raws ++ [raw].
  Proof.
    intros g clean cs name tid cfg inp st Hg Hwf Ht Hs Hm Hci Hk Hcov Hk2 Hcov2 Hsat.
    assert (Hcomb : combine_properties ord [inp; ts_out cfg] [] = Ok (ts_inp cfg)).
    { assert (Em : map snd (map (fun c => (true, seen c)) cs) = map seen cs) by (rewrite map_map; apply map_ext; reflexivity).
      unfold make_tstep in Hm. cbn zeta in Hm. rewrite Em in Hm.
      apply bind_ok in Hm. destruct Hm as (comp & _ & Hm). rewrite Hci in Hm. cbn [bind] in Hm.
      apply bind_ok in Hm. destruct Hm as (tend & _ & Hm). apply bind_ok in Hm. destruct Hm as (outp & _ & Hm).
      apply bind_ok in Hm. destruct Hm as (i & Hi & Hm). apply bind_ok in Hm. destruct Hm as (dg & _ & Hm).
      apply bind_ok in Hm. destruct Hm as (? & _ & Hm). apply bind_ok in Hm. destruct Hm as (? & _ & Hm).
      apply bind_ok in Hm. destruct Hm as (? & _ & Hm). apply bind_ok in Hm. destruct Hm as (? & _ & Hm).
      apply bind_ok in Hm. destruct Hm as (? & _ & Hm). injection Hm as <-. cbn. exact Hi. }
    apply (composite_inputs_suffice g cs inp st Hg Hwf Ht Hs Hci Hk Hcov).
    apply (combined_satisfied [inp; ts_out cfg] (ts_inp cfg) st); cbn [concat]; rewrite ?app_nil_r; auto. left. reflexivity.
  Qed.

  (** ** The condition is needed *)

  Definition small (np : string * props) : string * pval T :=
    (fst np, VDA (mkda (named_dims (match p_dims (snd np) with Some ds => ds | None => [] end))
                       (full (map (fun _ => 1) (named_dims (match p_dims (snd np) with Some ds => ds | None => [] end))) azero)
                       [("units", match p_units (snd np) with Some u => u | None => "" end)])).

  Definition small_state (res : pdict) : state T := map small res ++ [("time", VTime 0%Z)].

  Lemma NoDup_named : forall ds, NoDup (named_dims ds).
  Proof. intros ds. unfold named_dims. apply NoDup_filter. apply dedup_NoDup. Qed.

  Lemma small_get : forall res X r, NoDup (keys res) -> In (X, r) res -> dget X (small_state res) = Some (snd (small (X, r))).
  Proof.
    intros res X r Hnd Hin. unfold small_state. rewrite dget_app'.
    assert (H : dget X (map small res) = Some (snd (small (X, r)))); [|rewrite H; reflexivity].
    induction res as [|(k, v) res IH]; cbn in Hin; [tauto|]. cbn in Hnd. inversion Hnd as [|? ? Hn Hnd']; subst. cbn.
    destruct Hin as [E|Hin].
    - injection E as -> ->. rewrite String.eqb_refl. reflexivity.
    - destruct (String.eqb_spec X k) as [->|]; [|auto]. exfalso. apply Hn. apply in_map_iff. exists (k, r). auto.
  Qed.

  Lemma small_was : forall res X a, dget X (small_state res) = Some (VDA a) -> exists r, In (X, r) res /\ VDA a = snd (small (X, r)).
  Proof.
    intros res X a. unfold small_state. induction res as [|(k, v) res IH]; cbn; intros H.
    - destruct (String.eqb X "time"); discriminate H.
    - destruct (String.eqb_spec X k) as [->|]; [injection H as <-; eauto|]. destruct (IH H) as (r & Hr & E). eauto.
  Qed.

  Lemma small_wf : forall res, wf_state (small_state res).
  Proof.
    intros res X a H. destruct (small_was res X a H) as (r & _ & E). injection E as ->. cbn. split.
    - split; [cbn; rewrite map_length; reflexivity|]. split; [apply NoDup_named|]. apply wf_build.
    - intros Hi. apply In_named_dims in Hi. tauto.
  Qed.

  Lemma small_len : forall ds d n, In (d, n) (combine ds (map (fun _ : string => 1) ds)) -> n = 1.
  Proof. intros ds d n. induction ds as [|x ds IH]; cbn; [tauto|]. intros [E|H]; [injection E; auto|auto]. Qed.

  Lemma small_satisfies : forall res, NoDup (keys res) ->
    (forall X r, In (X, r) res -> (exists rd, p_dims r = Some rd) /\ units_known R r) -> satisfies (small_state res) res.
  Proof.
    intros res Hnd Hall. split; [|split; [|split; [|split]]].
    - intros X r Hin. destruct (Hall X r Hin) as (Hd & s & u & Hs & Hu). split; [auto|]. split; [eauto|].
      rewrite (small_get res X r Hnd Hin). cbn. eauto.
    - intros X r Hin. destruct (Hall X r Hin) as (Hd & s & u & Hs & Hu). split.
      + intros u' Hu'. rewrite Hs in Hu'. injection Hu' as <-. eauto.
      + intros a own Ha Ho. rewrite (small_get res X r Hnd Hin) in Ha. injection Ha as <-. cbn in Ho. injection Ho as <-. rewrite Hs. eauto.
    - intros (n1 & p1 & ds1 & a1 & n2 & p2 & ds2 & a2 & d & l1 & l2 & (_ & _ & H1) & (_ & _ & H2) & H3 & H4 & H5).
      destruct (small_was _ _ _ H1) as (r1 & _ & E1). destruct (small_was _ _ _ H2) as (r2 & _ & E2). injection E1 as ->. injection E2 as ->.
      unfold has_dim in H3, H4. cbn in H3, H4. apply small_len in H3. apply small_len in H4. congruence.
    - intros (X & p & ds & a & d & (Hin & Hds & Ha) & Hd & Hnd' & _).
      rewrite (small_get res X p Hnd Hin) in Ha. injection Ha as <-. cbn in Hd. rewrite Hds in Hd. apply In_named_dims in Hd. tauto.
    - intros (X & p & u & a & Hin & Hu & Ha & Hb). rewrite (small_get res X p Hnd Hin) in Ha. injection Ha as <-. cbn in Hb.
      destruct Hb as [Hb|(own & x & y & Ho & Hx & Hy & Hne)]; [discriminate Hb|]. injection Ho as <-. rewrite Hu in Hx. rewrite Hx in Hy. injection Hy as <-. auto.
  Qed.

  (** C83: without [covers], some state with all combined inputs is refused. *)
  Lemma combined_unsatisfied : forall pds res, (forall X p, In (X, p) (concat pds) -> units_known R p) ->
    combine_properties ord pds [] = Ok res -> ~ covers (concat pds) ->
    exists st : state T, wf_state st /\ dget "time" st <> None /\ satisfies st res /\
      ~ (forall pd, In pd pds -> ~ unexpected_dim st pd).
  Proof.
    intros pds res Hu H Hnc.
    assert (Hk : known (concat pds)). { intros X _ p Hp. apply (Hu X). apply In_entries. exact Hp. }
    pose proof (combine_properties_spec ord Hord [] pds Hk) as Hs. rewrite H in Hs. destruct Hs as (Hc & Hkeys & Hent).
    assert (Hnd : NoDup (keys res)). { rewrite Hkeys. apply dedup_NoDup. }
    exists (small_state res). split; [apply small_wf|]. split.
    { unfold small_state. rewrite dget_app'. destruct (dget "time" (map small res)); [discriminate|]. cbn. discriminate. }
    split.
    - apply small_satisfies; auto. intros X r Hin. specialize (Hent X).
      destruct (entries X (concat pds)) as [|p0 rest] eqn:E.
      { exfalso. apply dget_NoDup_In in Hin; auto. congruence. }
      destruct Hent as (r' & Hr' & Hru & _ & _ & rd & sn & Hrd & _). apply dget_NoDup_In in Hin; auto.
      rewrite Hin in Hr'. injection Hr' as <-. split; [eauto|].
      destruct (Hu X p0) as (s & u & Hs' & Hu'). { apply In_entries. rewrite E. left. reflexivity. }
      exists s, u. rewrite Hru. auto.
    - intros Hall. apply Hnc. intros X p q ds ds' d Hp Hq Hds Hds' Hns Hd Hne.
      destruct (in_dec string_dec d ds) as [Hi|Hn]; [exact Hi|]. exfalso.
      apply in_concat in Hp as (pd & Hpd & Hp'). apply (Hall pd Hpd).
      specialize (Hent X). assert (Hq' : In q (entries X (concat pds))) by (apply In_entries; exact Hq).
      destruct (entries X (concat pds)) as [|p0 rest] eqn:E; [cbn in Hq'; tauto|].
      destruct Hent as (r & Hr & _ & _ & _ & rd & sn & Hrd & Hf & _ & Hnamed).
      exists X, p, ds. eexists. exists d. split; [|split; [|split; auto]].
      + split; [exact Hp'|]. split; [exact Hds|]. apply dget_In in Hr. rewrite (small_get res X r Hnd Hr). cbn. reflexivity.
      + cbn. rewrite Hrd. apply In_named_dims. split; [exact Hne|]. apply Hnamed; [exact Hne|]. split; [exact Hne|].
        destruct (Forall2_in_l _ _ _ q Hf Hq') as (dq & Hdq & Hqd). exists dq. split; [exact Hdq|].
        unfold dims_for in Hqd. rewrite Hds' in Hqd. injection Hqd as <-. exact Hd.
  Qed.
End Facts.
