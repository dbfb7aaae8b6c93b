(** What exactly happens where a property holds in part (C06, C07, C10, C15, C22, C27, C47, C63). *)
From Coq Require Import String List Bool Arith ZArith QArith Permutation Lia.
From Verif Require Import Prelude PreludeFacts ArithM NdArray NdFacts Units DataArrayM SpecArrays Wildcard WildcardFacts GetNp GetNpFacts ExtractFacts
  Restore RestoreFacts RoundTripFacts InitNp InitFacts ArraysMain Tracers SpecTracers TracersMain Components SpecComponents SpecCalls Composite SpecComposite CombineFacts
  Steppers SpecSteppers SteppersFacts StepRuns NetCDF.
Import ListNotations.
Open Scope string_scope.
Open Scope nat_scope.
Open Scope list_scope.

(** ** C63 *)

Lemma exact_same_list : forall a b, same_list a b = true <-> length a = length b /\ forall x, In x a <-> In x b.
Proof.
  intros a b. unfold same_list. rewrite !andb_true_iff, Nat.eqb_eq, !forallb_forall. split.
  - intros (H1 & H2 & H3). split; auto. intros x. rewrite <- !mem_In. split; intros H; [apply H2|apply H3]; apply mem_In; auto.
  - intros (H1 & H2). split; auto. split; intros x Hx; apply mem_In; apply H2; auto.
Qed.

(** ** C22 *)

Lemma exact_combine : forall ord, (forall l, NoDup l -> Permutation (ord l) l) -> forall d1 d2,
  (exists r, combine_dims ord d1 d2 = Ok r) <->
  In "*" (fst d1) \/ forall d, d <> "*" -> (In d (fst d1) <-> In d (fst d2)).
Proof.
  intros ord Ho d1 d2.
  assert (E : same_set (named_dims (fst d1)) (named_dims (fst d2)) <-> forall d, d <> "*" -> (In d (fst d1) <-> In d (fst d2))).
  { unfold same_set. split; intros H d; [intros Hd|]; specialize (H d); rewrite !In_named_dims in *; tauto. }
  rewrite <- E. destruct (combine_dims_cases ord Ho d1 d2) as [(r & -> & H & _)|(-> & H1 & H2)].
  - split; eauto.
  - split; [intros (r & K); discriminate K|tauto].
Qed.

Section Exact.
  Context {T : Type} {A : Arith T} {R : Registry}.

  (** ** C10, C07 *)

  Lemma foldM_reaches : forall {S X} (f : S -> X -> res S) l s s' x, foldM f l s = Ok s' -> In x l -> exists s1 s2, f s1 x = Ok s2.
  Proof.
    intros S X f l. induction l as [|y l IH]; intros s s' x H [].
    - subst y. cbn [foldM] in H. apply bind_ok in H as (s1 & H1 & _). eauto.
    - cbn [foldM] in H. apply bind_ok in H as (s1 & _ & H). eauto.
  Qed.

  Lemma exact_lookup : forall (st : state T) raw outp inp ign b out name, NoDup (keys outp) ->
    restore_data_arrays_with_properties raw outp st inp ign b = Ok out ->
    In name (keys outp) -> ~ ignored raw outp ign b name -> exists a, dget (out_key outp inp name) raw = Some a.
  Proof.
    intros st raw outp inp ign b out name Hnd H Hin Hig. unfold restore_data_arrays_with_properties in H.
    set (ignore := if b then _ else _) in H. assert (Hi : ~ In name ignore) by (intros K; apply Hig; apply ignored_iff; exact K).
    apply bind_ok in H as ((wn & dl) & _ & H). apply bind_ok in H as (dd & Hd & H). apply bind_ok in H as ((dl' & out') & Hf & _).
    unfold extract_output_dims_properties in Hd. apply extract_dims_ok in Hd as (_ & _ & Hd).
    2:{ change (NoDup (filter (fun n => negb (mem n ignore)) (keys outp))). apply NoDup_filter; auto. }
    apply In_keys_dget in Hin as (p & Hp). destruct (Hd name p (dget_In _ _ _ Hp) Hi) as (ds & Hg & _).
    destruct (foldM_reaches _ _ _ _ _ Hf (dget_In _ _ _ Hg)) as ((dl1 & o1) & s2 & Hs).
    unfold restore_step in Hs. rewrite (proj2 (mem_false name ignore) Hi) in Hs. apply bind_ok in Hs as (rn & Hrn & Hs).
    assert (rn = out_key outp inp name) as ->.
    { unfold get_alias_or_name, dgetE in Hrn. unfold out_key. rewrite Hp in *. cbn [bind] in Hrn. destruct (p_alias p); [congruence|].
      destruct (dget name inp) as [q|]; [|congruence]. unfold raw_name. destruct (p_alias q); congruence. }
    unfold dgetE in Hs. destruct (dget (out_key outp inp name) raw) as [a|]; [eauto|]. destruct (mem "*" ds); discriminate Hs.
  Qed.

  (** An accepted answer under another name than the one looked up is never restored. *)
  Lemma exact_other_name : forall (st : state T) raw outp inp ign b name, NoDup (keys outp) ->
    In name (keys outp) -> ~ ignored raw outp ign b name -> ~ In (out_key outp inp name) (keys raw) ->
    exists e, restore_data_arrays_with_properties raw outp st inp ign b = Err e.
  Proof.
    intros st raw outp inp ign b name Hnd Hin Hig Hno.
    destruct (restore_data_arrays_with_properties raw outp st inp ign b) as [out|e] eqn:E; [|eauto].
    destruct (exact_lookup _ _ _ _ _ _ _ _ Hnd E Hin Hig) as (a & Ha). exfalso. apply Hno. eapply dget_In_keys; eauto.
  Qed.

  Lemma exact_accepted : forall (outp inp : pdict) ign (raw : dict (nd T)), NoDup (keys outp) -> check_outputs outp inp ign raw = Ok tt ->
    forall st name, In name (keys outp) -> ~ In name ign -> 
    In (out_key outp inp name) (keys raw) \/
    (exists k, k <> out_key outp inp name /\ (k = name \/ alias_of outp inp name k) /\ In k (keys raw)) /\
    exists e, restore_data_arrays_with_properties raw outp st inp ign false = Err e.
  Proof.
    intros outp inp ign raw Hnd Hc st name Hin Hi. destruct (dget (out_key outp inp name) raw) as [a|] eqn:E; [left; eapply dget_In_keys; eauto|].
    right. assert (Hno : ~ In (out_key outp inp name) (keys raw)) by (intros K; apply In_keys_dget in K as (a & K); congruence).
    split; [|apply exact_other_name with (name := name); auto; intros [K|(K & _)]; [auto|discriminate K]].
    unfold check_outputs in Hc. apply bind_ok in Hc as ([] & Hm & _). unfold check_missing, raise_if in Hm.
    destruct (existsb _ outp) eqn:Ex in Hm; [discriminate Hm|].
    apply In_keys_dget in Hin as (p & Hp). assert (Hip := dget_In _ _ _ Hp).
    assert (K : (fun np : string * props => negb (dmem (fst np) raw) && negb (mem (fst np) ign) && negb (existsb (fun al => dmem al raw) (wanted_aliases inp np))) (name, p) = false).
    { destruct ((fun np : string * props => negb (dmem (fst np) raw) && negb (mem (fst np) ign) && negb (existsb (fun al => dmem al raw) (wanted_aliases inp np))) (name, p)) eqn:Eb; auto.
      assert (existsb (fun np : string * props => negb (dmem (fst np) raw) && negb (mem (fst np) ign) && negb (existsb (fun al => dmem al raw) (wanted_aliases inp np))) outp = true) by (apply existsb_exists; exists (name, p); auto). congruence. }
    cbn [fst] in K. rewrite (proj2 (mem_false name ign) Hi) in K. cbn [negb] in K. rewrite andb_true_r in K.
    apply andb_false_iff in K as [K|K]; apply negb_false_iff in K.
    - exists name. unfold dmem in K. destruct (dget name raw) as [b|] eqn:Eb; [|discriminate K]. apply dget_In_keys in Eb.
      split; [intros Ek; apply Hno; rewrite <- Ek; auto|]. auto.
    - apply existsb_exists in K as (al & Hal & K). exists al. unfold dmem in K. destruct (dget al raw) as [b|] eqn:Eb; [|discriminate K]. apply dget_In_keys in Eb.
      split; [intros Ek; apply Hno; rewrite <- Ek; auto|]. split; auto. right. split; [eapply dget_In_keys; eauto|].
      unfold wanted_aliases in Hal. cbn [fst snd] in Hal.
      destruct (p_alias p) as [a1|] eqn:Ep; cbn in Hal.
      + destruct Hal as [->|Hal]; [left; eauto|]. right. destruct (dget name inp) as [q|]; [|destruct Hal]. destruct (p_alias q) as [a2|] eqn:Eq; [|destruct Hal].
        destruct Hal as [->|[]]. eauto.
      + right. destruct (dget name inp) as [q|]; [|destruct Hal]. destruct (p_alias q) as [a2|] eqn:Eq; [|destruct Hal]. destruct Hal as [->|[]]. eauto.
  Qed.

  Lemma exact_initialised : forall (st : state T) raw outp inp tn out name, NoDup (keys outp) ->
    initialize_numpy_arrays_with_properties outp raw inp None tn = Ok out ->
    In name (keys outp) -> ~ In (out_key outp inp name) (keys outp) ->
    exists e, restore_data_arrays_with_properties out outp st inp [] false = Err e.
  Proof.
    intros st raw outp inp tn out name Hnd H Hin Hno. destruct (init_shapes _ _ _ _ _ Hnd H) as (Hk & _).
    apply exact_other_name with (name := name); auto.
    - intros [[]|(K & _)]. discriminate K.
    - rewrite Hk. auto.
  Qed.

  (** ** C15 *)

  Lemma raw_state_keys : forall g inp pk (st : state T) raw, raw_state g inp pk st = Ok raw ->
    forall k, In k (keys raw) -> k = "time" \/ k = "tracers" \/ exists name p, In (name, p) inp /\ k = raw_name name p.
  Proof.
    intros g inp pk st raw H k Hk. unfold raw_state in H. apply bind_ok in H as (x & _ & H). apply bind_ok in H as (raw0 & Hr & H).
    apply bind_ok in H as (raw1 & H1 & H). apply bind_ok in H as (t & _ & H). injection H as <-.
    apply In_keys_dset in Hk as [->|Hk]; auto.
    assert (K : k = "tracers" \/ In k (keys raw0)).
    { assert (G : In k (keys (map (fun kv : string * nd T => (fst kv, RArr (snd kv))) raw0)) -> In k (keys raw0)).
      { unfold keys. rewrite map_map. auto. }
      destruct pk as [p|]; [|injection H1 as <-; auto]. apply bind_ok in H1 as (a & _ & H1). injection H1 as <-.
      apply In_keys_dset in Hk as [->|Hk]; auto. }
    destruct K as [->|K]; auto. right. right.
    unfold get_numpy_arrays_with_properties in Hr. apply bind_ok in Hr as ((wn & dl) & _ & Hr).
    assert (G : forall l acc out, foldM (extract_step st wn dl) l acc = Ok out -> In k (keys out) -> In k (keys acc) \/ exists name p, In (name, p) l /\ k = raw_name name p).
    { clear. induction l as [|[n p] l IH]; cbn [foldM]; intros acc out H Hk; [injection H as <-; auto|].
      apply bind_ok in H as (s1 & H1 & H2). destruct (IH _ _ H2 Hk) as [K|(n1 & p1 & K1 & K2)]; [|right; exists n1, p1; split; auto; right; auto].
      unfold extract_step in H1. cbn [fst snd] in H1.
      repeat match type of H1 with
      | bind ?X _ = _ => apply bind_ok in H1 as (? & ? & H1)
      | (if ?b then _ else _) = _ => destruct b; try discriminate H1
      | match ?X with _ => _ end = _ => destruct X eqn:?; try discriminate H1
      end; injection H1 as <-; auto; apply In_keys_dset in K as [->|K]; auto; right; exists n, p; split; try (left; reflexivity); unfold raw_name; auto. }
    destruct (G _ _ _ Hr K) as [[]|G']; auto.
  Qed.

  (** A Stepper that adds tendencies returns only if each of its outputs is also the name
      under which array_call is given an input. *)
  Lemma exact_difference : forall {U} g c (ac : U -> dict (rval T) -> Z -> U * res (dict (nd T) * dict (nd T))) u (st : state T) dt u' d n,
    stepper_call g c ac u st dt = (u', Ok (d, n)) -> s_tid c = true -> 
    forall X, In X (keys (s_out c)) -> X = "tracers" \/ exists name p, In (name, p) (s_inp c) /\ X = raw_name name p.
  Proof.
    intros U g c ac u st dt u' d n H Ht X HX. unfold stepper_call in H.
    destruct (let* _ := raise_if (negb (s_init c)) ERuntime in raw_state g (s_inp c) (s_packer c) st) as [raw|e] eqn:Er; [|discriminate H].
    apply bind_ok in Er as (x & _ & Er). destruct (ac u raw dt) as [u1 r]. injection H as _ H. apply bind_ok in H as ([rd rn] & -> & H).
    unfold stepper_finish in H. apply bind_ok in H as ((tr & rn') & _ & H). apply bind_ok in H as (x1 & _ & H). apply bind_ok in H as (x2 & _ & H).
    apply bind_ok in H as (rd' & Hi & _). rewrite Ht in Hi. unfold stepper_insert in Hi. apply In_keys_dget in HX as (p & Hp).
    destruct (foldM_reaches _ _ _ _ _ Hi (dget_In _ _ _ Hp)) as (s1 & s2 & Hs). cbn [fst] in Hs.
    apply bind_ok in Hs as (nw & _ & Hs). apply bind_ok in Hs as (old & Ho & _). unfold get_raw_array, dgetE in Ho.
    destruct (dget X raw) as [v|] eqn:Ev; [|discriminate Ho]. cbn [bind] in Ho.
    assert (HXk := dget_In_keys _ _ _ Ev). destruct (raw_state_keys _ _ _ _ _ Er X HXk) as [->|K]; auto.
    exfalso. unfold raw_state in Er. apply bind_ok in Er as (y & _ & Er). apply bind_ok in Er as (raw0 & _ & Er).
    apply bind_ok in Er as (raw1 & _ & Er). apply bind_ok in Er as (t & _ & Er). injection Er as <-. rewrite dget_dset_eq in Ev.
    injection Ev as <-. discriminate Ho.
  Qed.

  (** ** C06 *)

  Lemma note_known : forall ds sh (dl : dict nat), (forall d, In d ds -> d <> "*" -> dmem d dl = true) -> note_new_dims ds sh dl = dl.
  Proof.
    intros ds sh dl H. unfold note_new_dims.
    assert (G : forall l : list (string * nat), (forall dn, In dn l -> fst dn <> "*" -> dmem (fst dn) dl = true) ->
      fold_left (fun acc dn => if negb (dmem (fst dn) acc) && negb (String.eqb (fst dn) "*") then dset (fst dn) (snd dn) acc else acc) l dl = dl).
    { induction l as [|[d n] l IH]; intros Hl; auto. cbn [fold_left fst snd].
      destruct (String.eqb_spec d "*") as [->|Hne]; cbn [negb].
      - rewrite andb_false_r. apply IH. intros dn Hin. apply Hl. right; auto.
      - assert (Hd := Hl (d, n) (or_introl eq_refl) Hne). cbn [fst] in Hd. rewrite Hd. cbn [negb andb]. apply IH. intros dn Hin. apply Hl. right; auto. }
    apply G. intros [d n] Hin Hd. apply H; auto. eapply in_combine_l; eauto.
  Qed.

  (** For an output with '*' whose named dims the inputs have, the shape of the raw
      array does not matter, only its elements in row-major order. *)
  Lemma exact_wildcard : forall (st : state T) raw raw' outp inp ign, wf_state st -> NoDup (keys outp) ->
    (forall name ds, declared_dims outp inp name ds ->
       dget (out_key outp inp name) raw' = dget (out_key outp inp name) raw \/
       In "*" ds /\ dims_known st inp ds /\ exists ra ra', dget (out_key outp inp name) raw = Some ra /\ dget (out_key outp inp name) raw' = Some ra' /\
         data ra' = data ra /\ prod (shape ra') = prod (shape ra)) ->
    restore_data_arrays_with_properties raw' outp st inp ign false = restore_data_arrays_with_properties raw outp st inp ign false.
  Proof.
    intros st raw raw' outp inp ign Hwf Hnd H. unfold restore_data_arrays_with_properties.
    destruct (get_wildcard_matches_and_dim_lengths st inp) as [[wn dl]|e] eqn:Es; auto. cbn [bind].
    destruct (extract_output_dims_properties outp inp ign) as [dd|e] eqn:Ed; auto. cbn [bind].
    apply wildcard_matches_spec in Es as ((_ & _ & _ & Hlen & _) & _); auto.
    assert (Hdl : forall d, (exists nm p ds a, listed st inp nm p ds a /\ In d (dims a)) -> dmem d dl = true).
    { intros d (nm & p & ds & a & Hl & Hd). unfold dmem. rewrite (Hlen _ _ _ _ _ Hl Hd).
      assert (Hwa : wf_da a) by (destruct Hl as (_ & _ & Hl); apply (Hwf _ _ Hl)). apply (dim_len_some a d Hwa) in Hd as (k & ->). auto. }
    unfold extract_output_dims_properties in Ed. apply extract_dims_ok in Ed as (Hkd & _ & Hd).
    2:{ change (NoDup (filter (fun n => negb (mem n ign)) (keys outp))). apply NoDup_filter; auto. }
    change (keys dd = filter (fun n => negb (mem n ign)) (keys outp)) in Hkd.
    assert (Hnk : NoDup (keys dd)) by (rewrite Hkd; apply NoDup_filter; auto).
    assert (Hdecl : forall name ds, In (name, ds) dd -> exists p, dget name outp = Some p /\ declared_dims outp inp name ds).
    { intros name ds Hi. pose proof (dget_NoDup_In _ _ _ Hnk Hi) as Hg. assert (Hin := dget_In_keys _ _ _ Hg).
      rewrite Hkd in Hin. apply filter_In in Hin as [Hin Hm]. apply negb_true_iff, mem_false in Hm. apply In_keys_dget in Hin as (p & Hp).
      destruct (Hd name p (dget_In _ _ _ Hp) Hm) as (ds' & Hg' & Hor). assert (ds' = ds) as -> by congruence. exists p. split; auto. exists p. auto. }
    assert (G : forall l acc, (forall x, In x l -> In x dd) -> (forall d, dmem d dl = true -> dmem d (fst acc) = true) ->
      foldM (restore_step raw' outp inp wn ign) l acc = foldM (restore_step raw outp inp wn ign) l acc).
    { induction l as [|[name ds] l IH]; intros [dl0 out0] Hl Ha; auto. cbn [foldM].
      assert (E : restore_step raw' outp inp wn ign (dl0, out0) (name, ds) = restore_step raw outp inp wn ign (dl0, out0) (name, ds)).
      { destruct (Hdecl name ds (Hl _ (or_introl eq_refl))) as (p & Hp & Hds). unfold restore_step.
        destruct (mem name ign); auto. destruct (get_alias_or_name name outp inp) as [rn|e] eqn:Ern; auto. cbn [bind].
        assert (rn = out_key outp inp name) as ->.
        { unfold get_alias_or_name, dgetE in Ern. unfold out_key. rewrite Hp in *. cbn [bind] in Ern. destruct (p_alias p); [congruence|].
          destruct (dget name inp) as [q|]; [|congruence]. unfold raw_name. destruct (p_alias q); congruence. }
        destruct (H name ds Hds) as [K|(Hs & Hkn & ra & ra' & K1 & K2 & K3 & K4)]; unfold dgetE.
        - rewrite K. reflexivity.
        - rewrite K1, K2, (proj2 (mem_In "*" ds) Hs). cbn [bind]. rewrite !note_known.
          + destruct (fill_dims_wildcard ds dl0 wn) as [[ds1 target]|e]; auto. cbn [bind].
            unfold expand_array_wildcard_dims, reshape. rewrite K3, K4. reflexivity.
          + intros d Hdd Hne. apply Ha. apply Hdl. apply Hkn; auto.
          + intros d Hdd Hne. apply Ha. apply Hdl. apply Hkn; auto. }
      rewrite E. destruct (restore_step raw outp inp wn ign (dl0, out0) (name, ds)) as [[dl1 out1]|e] eqn:Es; auto. cbn [bind].
      apply IH; [intros x Hx; apply Hl; right; auto|]. intros d Hdd. specialize (Ha d Hdd). cbn [fst] in *.
      unfold restore_step in Es. destruct (mem name ign); [injection Es as <- <-; auto|]. apply bind_ok in Es as (rn & _ & Es).
      apply bind_ok in Es as (((dl3 & ds3) & oa) & E3 & Es). apply bind_ok in Es as (p & _ & Es). apply bind_ok in Es as (u & _ & Es).
      apply bind_ok in Es as (q & _ & Es). injection Es as <- _.
      destruct (mem "*" ds).
      - apply bind_ok in E3 as (ra & _ & E3). apply bind_ok in E3 as ((ds4 & tg) & _ & E3). apply bind_ok in E3 as (oa' & _ & E3). injection E3 as <- _ _.
        unfold note_new_dims. revert Ha. generalize dl0. generalize (combine ds (shape ra)). clear. induction l as [|[x n] l IH]; cbn [fold_left]; intros dl0 Hd; auto.
        apply IH. cbn [fst snd]. destruct (negb (dmem x dl0) && negb (String.eqb x "*")); auto. unfold dmem in *. rewrite dget_dset. destruct (String.eqb d x); auto.
      - apply bind_ok in E3 as (ra & _ & E3). apply bind_ok in E3 as (y & _ & E3). injection E3 as <- _ _. auto. }
    rewrite G; auto.
  Qed.

  (** What is restored holds the raw data in row-major order. *)
  Lemma exact_data : forall (st : state T) raw outp inp ign b out, NoDup (keys outp) ->
    restore_data_arrays_with_properties raw outp st inp ign b = Ok out ->
    forall name q, dget name out = Some q -> exists ra, dget (out_key outp inp name) raw = Some ra /\ data (arr q) = data ra.
  Proof.
    intros st raw outp inp ign b out Hnd H. unfold restore_data_arrays_with_properties in H. set (ignore := if b then _ else _) in H.
    apply bind_ok in H as ((wn & dl) & _ & H). apply bind_ok in H as (dd & Hd & H). apply bind_ok in H as ((dl' & out') & Hf & H). injection H as <-.
    revert Hf. intros Hf.
    assert (G : forall l s s', foldM (restore_step raw outp inp wn ignore) l s = Ok s' ->
      (forall name q, dget name (snd s) = Some q -> exists ra, dget (out_key outp inp name) raw = Some ra /\ data (arr q) = data ra) ->
      forall name q, dget name (snd s') = Some q -> exists ra, dget (out_key outp inp name) raw = Some ra /\ data (arr q) = data ra).
    { clear. induction l as [|[n ds] l IH]; cbn [foldM]; intros s s' H Hs; [injection H as <-; auto|].
      apply bind_ok in H as (s1 & H1 & H2). apply (IH _ _ H2). clear IH H2. destruct s as [dl0 out0]. unfold restore_step in H1.
      destruct (mem n ignore); [injection H1 as <-; auto|]. apply bind_ok in H1 as (rn & Hrn & H1).
      apply bind_ok in H1 as (((dl3 & ds3) & oa) & E3 & H1). apply bind_ok in H1 as (p & Hp & H1). apply bind_ok in H1 as (u & _ & H1).
      apply bind_ok in H1 as (q & Hq & H1). injection H1 as <-. cbn [snd] in *. intros name q0 Hg. rewrite dget_dset in Hg.
      destruct (String.eqb_spec name n) as [->|Hne]; [|auto]. injection Hg as <-.
      apply dgetE_ok in Hp. assert (rn = out_key outp inp n) as ->.
      { unfold get_alias_or_name, dgetE in Hrn. unfold out_key. rewrite Hp in *. cbn [bind] in Hrn. destruct (p_alias p); [congruence|].
        destruct (dget n inp) as [q'|]; [|congruence]. unfold raw_name. destruct (p_alias q'); congruence. }
      unfold create_quantity in Hq. destruct (Nat.eqb (length ds3) (length (shape oa))); [|discriminate Hq]. injection Hq as <-. cbn [arr].
      destruct (mem "*" ds).
      - apply bind_ok in E3 as (ra & Hra & E3). apply bind_ok in E3 as ((ds4 & tg) & _ & E3). apply bind_ok in E3 as (oa' & Ho & E3). injection E3 as _ _ <-.
        apply dgetE_ok in Hra. exists ra. split; auto. unfold expand_array_wildcard_dims, reshape in Ho. destruct (Nat.eqb _ _) in Ho; [|discriminate Ho].
        injection Ho as <-. reflexivity.
      - apply bind_ok in E3 as (ra & Hra & E3). apply bind_ok in E3 as (y & _ & E3). injection E3 as _ _ <-. apply dgetE_ok in Hra. eauto. }
    apply (G _ _ _ Hf). intros name q K. discriminate K.
  Qed.

  (** ** C27 *)

  Lemma convert_fails : forall (st : state T) tend e, convert_tendencies st tend = Err e -> exists X t, In (X, t) tend /\ ~ has_rate st X t.
  Proof.
    intros st tend e. unfold convert_tendencies. induction tend as [|[k t] tend IH]; cbn [mapM]; intros H; [discriminate H|].
    destruct (convert_one st (k, t)) as [[k' t']|e1] eqn:E1.
    - cbn [bind] in H. destruct (mapM _ tend) as [r|e2] eqn:E2; [discriminate H|]. destruct IH as (X & t0 & Hi & Hn); [auto|]. exists X, t0. split; auto. right; auto.
    - exists k, t. split; [left; auto|]. intros Hr. apply (conv_succeeds st k t) in Hr as (t' & Ht). unfold conv in Ht. congruence.
  Qed.

  Lemma exact_failed : forall {U} cfg (prog : icaller (T:=T) U) a u (st : state T) dt a' u' e,
    adams_bashforth cfg prog (a, u) st dt = ((a', u'), Err e) ->
    (ab_dt a <> None /\ ab_dt a <> Some dt /\ e = EValue /\ a' = a /\ u' = u) \/
    (ab_order a' = ab_order a /\ ab_dt a' = Some dt /\
     exists r, prog u st dt = (u', r) /\
       (r = Err e /\ ab_hist a' = ab_hist a \/
        exists tend diag, r = Ok (tend, diag) /\
          ((exists X t, In (X, t) tend /\ ~ has_rate st X t) /\ ab_hist a' = ab_hist a \/
           exists h, keys h = keys tend /\
             (ab_hist a' = ab_hist a ++ [h] \/
              ts_tid cfg = true /\ ab_hist a' = (if Nat.eqb (length (ab_hist a ++ [h])) (ab_order a) then tl (ab_hist a ++ [h]) else ab_hist a ++ [h]))))).
  Proof.
    intros U cfg prog a u st dt a' u' e H. unfold adams_bashforth, ab_call in H. destruct (ensure_timestep (ab_dt a) dt) as [x|e0] eqn:Et.
    2:{ left. unfold ensure_timestep in Et. destruct (ab_dt a) as [dt0|]; [|discriminate Et]. unfold raise_if in Et.
        destruct (Z.eqb_spec dt0 dt); [discriminate Et|]. injection Et as <-. injection H as <- <- <-. repeat split; congruence. }
    right. destruct (prog u st dt) as [u1 r] eqn:Ep. destruct (let* td := r in _) as [[tend' diag']|e1] eqn:Er.
    - apply bind_ok in Er as ([tend diag] & -> & Er). apply bind_ok in Er as (h & Hc & Er). injection Er as <- <-. cbn [fst snd] in *.
      assert (Hk := proj1 (convert_ok _ _ _ Hc)).
      destruct (perform_step (ab_order a) (ab_hist a ++ [h]) st dt) as [new|e2] eqn:Es.
      + injection H as <- <- H. cbn [ab_order ab_dt ab_hist]. split; auto. split; auto. exists (Ok (tend, diag)). split; auto. right.
        exists tend, diag. split; auto. right. exists h. split; auto. right. split; auto. unfold finish_step in H. cbn [bind] in H.
        destruct (ts_tid cfg); auto. discriminate H.
      + injection H as <- <- _. cbn [ab_order ab_dt ab_hist]. split; auto. split; auto. exists (Ok (tend, diag)). split; auto. right.
        exists tend, diag. split; auto. right. exists h. auto.
    - injection H as <- <- He. subst e1. cbn [ab_order ab_dt ab_hist]. split; auto. split; auto. exists r. split; auto.
      destruct r as [[tend diag]|e2]; [|left; cbn [bind] in Er; split; congruence]. right. exists tend, diag. split; auto. left. split; auto.
      cbn [bind fst snd] in Er. destruct (convert_tendencies st tend) as [h|e3] eqn:Ec; [discriminate Er|].
      eapply convert_fails; eauto.
  Qed.

  Lemma ab_keeps : forall {U} cfg (prog : icaller (T:=T) U) a u (st : state T) dt, ab_order a <= length (ab_hist a) ->
    exists more, ab_hist (fst (fst (adams_bashforth cfg prog (a, u) st dt))) = ab_hist a ++ more /\ ab_order (fst (fst (adams_bashforth cfg prog (a, u) st dt))) = ab_order a.
  Proof.
    intros U cfg prog a u st dt Hl. unfold adams_bashforth, ab_call. destruct (ensure_timestep (ab_dt a) dt) as [x|e]; [|exists []; rewrite app_nil_r; auto].
    destruct (prog u st dt) as [u1 r]. destruct (let* td := r in _) as [[h d]|e]; [|exists []; rewrite app_nil_r; auto].
    destruct (perform_step (ab_order a) (ab_hist a ++ [h]) st dt) as [new|e]; cbn [fst ab_hist ab_order]; exists [h]; split; auto.
    replace (Nat.eqb (length (ab_hist a ++ [h])) (ab_order a)) with false; auto. symmetry. apply Nat.eqb_neq. rewrite app_length. cbn [length]. lia.
  Qed.

  (** Once the memory is full or more, nothing is forgotten any more. *)
  Lemma exact_grows : forall {U} cfg (prog : icaller (T:=T) U) a u, ab_order a <= length (ab_hist a) ->
    (forall calls, exists more, ab_hist (fst (after (adams_bashforth cfg prog) calls (a, u))) = ab_hist a ++ more) /\ (forall dt log a' u', history (adams_bashforth cfg prog) prog dt (a, u) log (a', u') -> length (ab_hist a') = length (ab_hist a) + length log).
  Proof.
    intros U cfg prog a u Hl. split.
    - intros calls. revert a u Hl. induction calls as [|[st dt] calls IH]; intros a u Hl; [exists []; rewrite app_nil_r; auto|].
      unfold after. cbn [fold_left fst snd]. destruct (ab_keeps cfg prog a u st dt Hl) as (m & E & Eo).
      destruct (fst (adams_bashforth cfg prog (a, u) st dt)) as [a1 u1]. cbn [fst] in *.
      destruct (IH a1 u1) as (m' & E'); [rewrite E, Eo, app_length; lia|]. unfold after in E'. rewrite E', E. exists (m ++ m'). rewrite app_assoc. auto.
    - intros dt log a' u' H. cut (ab_order a' = ab_order a /\ length (ab_hist a') = length (ab_hist a) + length log); [tauto|].
      remember (a, u) as s0. remember (a', u') as s1. revert a' u' Heqs1. induction H as [s|s0 log s w st w' tend pd s' diag new H IH Hp Hc]; intros a' u' Hs.
      + rewrite Heqs0 in Hs. injection Hs as <- <-. cbn [length]. split; auto; lia.
      + destruct (IH Heqs0 _ _ eq_refl) as [Eo El]. injection Hs as -> ->. assert (Hf : ab_order s <= length (ab_hist s)) by lia.
        pose proof (ab_growth cfg prog s w st dt _ _ Hc Hf) as G. destruct (ab_keeps cfg prog s w st dt Hf) as (m & _ & Eo'). rewrite Hc in Eo'. cbn [fst] in *.
        rewrite app_length. cbn [length]. split; [congruence|lia].
  Qed.

  (** ** C47 *)

  (** A registration refused because a packer's component computes the name is
      recorded exactly as an accepted one. *)
  Lemma exact_recorded : forall ops name u, SpecTracers.outcome ops (Register name u) = Err EInvalidProps ->
    let g := registry_after ops in let g' := registry_after (ops ++ [Register name u]) in
    dget name (tr_units g') = Some u /\ (forall m, m <> name -> dget m (tr_units g') = dget m (tr_units g)) /\
    tr_names g' = tr_names g ++ [name] /\ tr_packers g' = tr_packers g.
  Proof.
    intros ops name u H g g'. unfold g'. rewrite registry_snoc. fold g. unfold SpecTracers.outcome in H. fold g in H. unfold tracer_step in *.
    destruct (register_cases g name u) as [(e & E & K)|(_ & r & E & K)]; rewrite E in *; cbn [fst snd] in *.
    - exfalso. injection H as ->. destruct K as [[K _]|(u0 & _ & K)]; [discriminate K|]. unfold units_are_same, parseE in K.
      destruct (parse u0), (parse u); cbn [bind] in K; discriminate K.
    - cbn [tr_units tr_names tr_packers]. rewrite dget_dset_eq. repeat split; auto. intros m Hm. rewrite dget_dset_neq; auto.
  Qed.
End Exact.
