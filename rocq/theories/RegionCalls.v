(** C98: components that work column by column, on part of a grid. *)
From Coq Require Import String List Bool Arith ZArith Lia.
From Verif Require Import Prelude PreludeFacts ArithM NdArray NdFacts Units DataArrayM SpecDa DaFacts
  Wildcard WildcardFacts GetNp GetNpFacts SpecArrays ExtractFacts Restore RestoreFacts RoundTripFacts RestoreExtract ArraysMain
  Tracers SpecComponents Components ComponentFacts CallFacts TidFacts SpecCalls ComponentsMain SpecColumns ColumnsFacts ColumnsMain
  Composite Steppers MainLoop SpecRegion RegionFacts RegionMain.
Import ListNotations.
Open Scope string_scope.
Open Scope nat_scope.
Open Scope list_scope.

(** ** The order of what is restored *)
Lemma keys_dset_same : forall {V W} (d : dict V) (e : dict W) k x y, keys d = keys e -> keys (dset k x d) = keys (dset k y e).
Proof.
  intros V W d. induction d as [|[a v] d IH]; intros [|[b w] e] k x y H; try discriminate H; [reflexivity|].
  cbn in H. injection H as <- H. cbn. destruct (String.eqb k a); cbn; unfold keys in *; f_equal; auto.
Qed.

Section Calls.
  Context {T : Type} {A : Arith T} {R : Registry}.

  Lemma restore_order : forall outp (st1 st2 : state T) inp ign ra1 ra2 out1 out2,
    restore_data_arrays_with_properties ra1 outp st1 inp ign false = Ok out1 ->
    restore_data_arrays_with_properties ra2 outp st2 inp ign false = Ok out2 -> keys out1 = keys out2.
  Proof.
    intros outp st1 st2 inp ign ra1 ra2 out1 out2 H1 H2. unfold restore_data_arrays_with_properties in *.
    apply bind_ok in H1 as ([wn1 dl1] & _ & H1). apply bind_ok in H1 as (dd & Hdd & H1). apply bind_ok in H1 as ([x1 o1] & H1 & E1). injection E1 as <-.
    apply bind_ok in H2 as ([wn2 dl2] & _ & H2). apply bind_ok in H2 as (dd2 & Hdd2 & H2). apply bind_ok in H2 as ([x2 o2] & H2 & E2). injection E2 as <-.
    rewrite Hdd in Hdd2. injection Hdd2 as <-. clear Hdd.
    assert (K : forall l s1 s2 e1 e2, keys (snd s1) = keys (snd s2) -> foldM (restore_step ra1 outp inp wn1 ign) l s1 = Ok e1 ->
      foldM (restore_step ra2 outp inp wn2 ign) l s2 = Ok e2 -> keys (snd e1) = keys (snd e2)).
    { clear. induction l as [|[name od] l IH]; intros [dl1 o1] [dl2 o2] e1 e2 Hk H1 H2; cbn [foldM] in *.
      - injection H1 as <-. injection H2 as <-. exact Hk.
      - apply bind_ok in H1 as (s1 & S1 & H1). apply bind_ok in H2 as (s2 & S2 & H2). refine (IH s1 s2 e1 e2 _ H1 H2). clear IH H1 H2.
        unfold restore_step in S1, S2. destruct (mem name ign). { injection S1 as <-. injection S2 as <-. exact Hk. }
        apply bind_ok in S1 as (? & _ & S1). apply bind_ok in S1 as ([[d1 ds1] oa1] & _ & S1). apply bind_ok in S1 as (? & _ & S1). apply bind_ok in S1 as (? & _ & S1). apply bind_ok in S1 as (? & _ & S1). injection S1 as <-.
        apply bind_ok in S2 as (? & _ & S2). apply bind_ok in S2 as ([[d2 ds2] oa2] & _ & S2). apply bind_ok in S2 as (? & _ & S2). apply bind_ok in S2 as (? & _ & S2). apply bind_ok in S2 as (? & _ & S2). injection S2 as <-.
        apply keys_dset_same. exact Hk. }
    exact (K dd (dl1, []) (dl2, []) _ _ eq_refl H1 H2).
  Qed.

  Context (g : cut) (Hkept : whole_kept g).

  Lemma part_get : forall (st st' : state T) k, part_state g st st' ->
    (exists v w, dget k st = Some v /\ dget k st' = Some w /\ part_value g k v w) \/ dget k st = None /\ dget k st' = None.
  Proof. intros st st' k H. exact (dicts_get _ _ _ k H). Qed.

  Lemma part_wf : forall st st' : state T, part_state g st st' -> wf_state st /\ wf_state st'.
  Proof.
    intros st st' H. split; intros name a E; destruct (part_get st st' name H) as [(v & w & E1 & E2 & K)|(E1 & E2)]; try congruence; rewrite ?E1, ?E2 in E; injection E as ->; cbn in K.
    - destruct w as [b|]; [|contradiction]. destruct K as (_ & (K1 & _ & K2 & _) & _). auto.
    - destruct v as [b|]; [|contradiction]. destruct K as (_ & (K1 & K2 & K3 & K4 & K5 & _) & _). split; [exact K2|]. intro X. apply K5 in X. apply K3, X.
  Qed.

  Lemma part_listed : forall (st st' : state T) inp nm p ds a, part_state g st st' -> listed st inp nm p ds a -> exists b, listed st' inp nm p ds b /\ part_named g nm a b.
  Proof.
    intros st st' inp nm p ds a H (L1 & L2 & L3). destruct (part_get st st' nm H) as [(v & w & E1 & E2 & K)|(E1 & E2)]; [|congruence].
    rewrite L3 in E1. injection E1 as <-. destruct w as [b|]; cbn in K; [|contradiction]. exists b. split; [split; [exact L1|split; [exact L2|exact E2]]|exact K].
  Qed.

  Lemma part_listed' : forall (st st' : state T) inp nm p ds b, part_state g st st' -> listed st' inp nm p ds b -> exists a, listed st inp nm p ds a /\ part_named g nm a b.
  Proof.
    intros st st' inp nm p ds b H (L1 & L2 & L3). destruct (part_get st st' nm H) as [(v & w & E1 & E2 & K)|(E1 & E2)]; [|congruence].
    rewrite L3 in E2. injection E2 as <-. destruct v as [a|]; cbn in K; [|contradiction]. exists a. split; [split; [exact L1|split; [exact L2|exact E1]]|exact K].
  Qed.

  Lemma part_wild : forall (st st' : state T) inp, ordered g -> part_state g st st' -> wildcard_dims st inp = wildcard_dims st' inp.
  Proof.
    intros st st' inp O H. unfold wildcard_dims. f_equal. induction inp as [|[k p] inp IH]; [reflexivity|]. cbn [flat_map]. rewrite IH. f_equal.
    unfold undeclared. cbn [fst snd]. destruct (p_dims p); [|reflexivity].
    destruct (part_get st st' k H) as [(v & w & E1 & E2 & K)|(E1 & E2)]; rewrite E1, E2; [|reflexivity].
    destruct v as [a|], w as [b|]; cbn in K; try contradiction; [|reflexivity]. destruct K as (_ & (_ & _ & _ & _ & _ & K & _) & _). rewrite (K O). reflexivity.
  Qed.

  Lemma part_wild_in : forall (st st' : state T) inp d, part_state g st st' -> (In d (wildcard_dims st' inp) <-> In d (wildcard_dims st inp) /\ fixed g d = None).
  Proof.
    intros st st' inp d H. split.
    - intro X. apply wildcard_dims_listed in X. revert X. intros (nm & p & ds & b & L & Hd & Hn). destruct (part_listed' _ _ _ _ _ _ _ H L) as (a & La & (_ & (_ & _ & _ & _ & K & _) & _)). apply K in Hd as (Hd & Hf).
      split; [|exact Hf]. exact (undeclared_In st inp nm p ds a d La Hd Hn).
    - intros (X & Hf). apply wildcard_dims_listed in X as (nm & p & ds & a & L & Hd & Hn). destruct (part_listed _ _ _ _ _ _ _ H L) as (b & Lb & (_ & (_ & _ & _ & _ & K & _) & _)).
      exact (undeclared_In st' inp nm p ds b d Lb (proj2 (K d) (conj Hd Hf)) Hn).
  Qed.

  Section One.
    Context (inp outp : pdict) (Hcp : column_physics g inp outp).

    Lemma wild_cut : forall (st st' : state T) d, part_state g st st' -> In d (wildcard_dims st inp) -> ~ whole g d.
    Proof.
      intros st st' d H Hd Hw. destruct (wildcard_dims_listed st inp d Hd) as (nm & p & ds & a & L & Hin & Hn).
      destruct (part_listed st st' inp nm p ds a H L) as (b & _ & (_ & _ & K)). destruct L as (L1 & L2 & _).
      apply Hn. exact (proj1 (proj2 Hcp) nm p ds d L1 L2 Hw (K d Hin Hw)).
    Qed.

    Lemma out_whole : forall name ds d, declared_dims outp inp name ds -> In d ds -> d <> "*" -> whole g d.
    Proof. intros name ds d H1 H2 H3. apply (proj1 Hcp); [|exact H3]. exact (proj2 (proj2 (proj2 (proj2 Hcp) name ds H1)) d H2 H3). Qed.

    Lemma part_unamb : forall (st st' : state T), part_state g st st' -> unambiguous st inp outp.
    Proof.
      intros st st' H d Hd. destruct (part_wf _ _ H) as (Hwf & _). assert (Hs := wildcard_undeclared st inp d Hwf Hd). assert (Hw := wild_cut _ _ _ H Hd). split.
      - intro X. apply Hw. exact (proj1 Hcp d X Hs).
      - intros (name & ds & X1 & X2). apply Hw. exact (out_whole name ds d X1 X2 Hs).
    Qed.

    Lemma part_lengths : forall (st st' : state T) L L' d, part_state g st st' -> common_lengths st inp L -> common_lengths st' inp L' ->
      (whole g d -> L d = L' d) /\ (In d (wildcard_dims st inp) -> forall p, (In d (wildcard_dims st' inp) -> p d < L' d) -> spot g p d < L d).
    Proof.
      intros st st' L L' d H HL HL'.
      assert (K : forall nm p ds a, listed st inp nm p ds a -> In d (dims a) ->
        (forall i, fixed g d = Some i -> i < L d) /\ (fixed g d = None -> (whole g d -> L d = L' d) /\ forall i, i < L' d -> pick g d i < L d)).
      { intros nm p ds a Hl Hd. destruct (part_listed st st' inp nm p ds a H Hl) as (b & Hl' & (_ & (P1 & P2 & P3 & P4 & P5 & P6 & P7 & P8 & P9) & _)).
        destruct (In_has_dim a d P1 Hd) as (n & Hn). rewrite (proj1 HL _ _ _ _ _ _ Hl Hn). apply (has_dim_len a d n P1) in Hn. split; [intros i; exact (P7 d n i Hn)|].
        intro Hf. assert (Hd' := proj2 (P5 d) (conj Hd Hf)). destruct (In_has_dim b d P2 Hd') as (m & Hm).
        rewrite (proj1 HL' _ _ _ _ _ _ Hl' Hm). destruct (P8 d n m Hn (proj1 (has_dim_len b d m P2) Hm)) as (Q1 & Q2). split; [exact Q2|exact Q1]. }
      split.
      - intro Hw. assert (Hf := proj1 (Hkept d Hw)).
        destruct (in_dec string_dec d (flat_map (fun np => match dget (fst np) st with Some (VDA a) => match p_dims (snd np) with Some _ => dims a | None => [] end | _ => [] end) inp)) as [X|X].
        + apply in_flat_map in X as ([nm p] & X1 & X2). cbn [fst snd] in X2. destruct (dget nm st) as [[a|]|] eqn:E; try contradiction. destruct (p_dims p) as [ds|] eqn:Ep; [|contradiction].
          assert (Lx : listed st inp nm p ds a) by (split; [exact X1|split; [exact Ep|exact E]]). exact (proj1 (proj2 (K nm p ds a Lx X2) Hf) Hw).
        + assert (N : forall nm p ds a, listed st inp nm p ds a -> ~ In d (dims a)).
          { intros nm p ds a (L1 & L2 & L3) Y. apply X. apply in_flat_map. exists (nm, p). split; [exact L1|]. cbn [fst snd]. rewrite L3, L2. exact Y. }
          rewrite (proj2 HL d N). symmetry. apply (proj2 HL'). intros nm p ds b Lb Y. destruct (part_listed' st st' inp nm p ds b H Lb) as (a & La & (_ & (_ & _ & _ & _ & P4 & _) & _)).
          apply (N nm p ds a La). apply P4 in Y. apply Y.
      - intros Hd p Hp. destruct (wildcard_dims_listed st inp d Hd) as (nm & pr & ds & a & Hl & Hin & _). destruct (K nm pr ds a Hl Hin) as (K1 & K2).
        unfold spot. destruct (fixed g d) as [i|] eqn:Ef; [exact (K1 i eq_refl)|]. apply (proj2 (K2 eq_refl)), Hp. apply (part_wild_in _ _ _ _ H). auto.
    Qed.

    Lemma part_column : forall (st' : state T) L' p, common_lengths st' inp L' -> (forall d, In d (wildcard_dims st' inp) -> p d < L' d) ->
      column_of st' inp p.
    Proof. intros st' L' p HL' Hp nm pr ds a d n Hl Hh Hd. rewrite <- (proj1 HL' _ _ _ _ _ _ Hl Hh). apply Hp. exact Hd. Qed.

    Lemma part_inputs : forall (st st' : state T) p, part_state g st st' -> same_inputs inp st (spot g p) st' p.
    Proof.
      intros st st' p H. split.
      - destruct (part_get st st' "time" H) as [(v & w & E1 & E2 & K)|(E1 & E2)]; rewrite E1, E2; [|reflexivity].
        destruct v as [a|s], w as [b|t]; cbn in K; try contradiction; [destruct (proj1 K eq_refl)|congruence].
      - intros name pr ds u a1 a2 q1 q2 Hin Hd Hu E1 E2 T1 T2 c1 c2 C1 C2 I1 I2 Hn.
        destruct (part_wf _ _ H) as (W1 & W2).
        destruct (part_get st st' name H) as [(v & w & F1 & F2 & K)|(F1 & F2)]; [|congruence]. rewrite E1 in F1. rewrite E2 in F2. injection F1 as <-. injection F2 as <-. cbn in K.
        assert (Kq := part_units g name _ _ u K _ _ T1 T2).
        destruct Kq as (_ & (Q1 & Q2 & Q3 & Q4 & Q5 & Q6 & Q7 & Q8 & Q9) & _). rewrite <- Q9.
        2: { intros d n E. apply I2, has_dim_len; assumption. }
        apply da_at_agree. intros d Hdd.
        assert (Hda : In d (dims a1)). { rewrite <- (proj1 (DaFacts.to_units_dims _ _ _ T1)). exact Hdd. }
        destruct (dims_covered st inp name pr ds a1 d W1 (conj Hin (conj Hd E1)) Hda) as [Hw|(Hds & Hs)].
        + rewrite (C1 d Hw). unfold spot. destruct (fixed g d) eqn:Ef; [reflexivity|]. f_equal. symmetry. apply C2. apply (part_wild_in _ _ _ _ H). auto.
        + rewrite (Hn d Hds Hs). assert (Hw : whole g d) by (apply (proj1 Hcp); [exists name, pr, ds; auto|exact Hs]).
          unfold spot. rewrite (proj1 (Hkept d Hw)). symmetry. exact (proj2 (Hkept d Hw) _).
    Qed.

    Lemma by_keys : forall {V W} (Q : string -> V -> W -> Prop) (d : dict V) (e : dict W), keys d = keys e -> NoDup (keys d) ->
      (forall k x y, dget k d = Some x -> dget k e = Some y -> Q k x y) -> Forall2 (fun x y => fst x = fst y /\ Q (fst x) (snd x) (snd y)) d e.
    Proof.
      intros V W Q d. induction d as [|[a v] d IH]; intros [|[b w] e] Hk Hn H; try discriminate Hk; [constructor|]. cbn in Hk. injection Hk as <- Hk.
      inversion Hn as [|? ? Ha Hn']; subst. constructor.
      - cbn. split; [reflexivity|]. apply H; cbn; rewrite String.eqb_refl; reflexivity.
      - apply IH; [exact Hk|exact Hn'|]. intros k x y E1 E2. assert (X : String.eqb k a = false).
        { apply String.eqb_neq. intros ->. apply Ha. eapply dget_In_keys; exact E1. }
        apply H; cbn; rewrite X; assumption.
    Qed.

    Lemma expand_NoDup : forall W ds, NoDup W -> NoDup ds -> (forall d, In d W -> ~ In d ds) -> NoDup (expand_dims W ds).
    Proof.
      intros W ds HW Hds H. unfold expand_dims. induction Hds as [|d ds Hd Hds IH]; cbn; [constructor|].
      assert (K : NoDup (flat_map (fun d0 => if String.eqb d0 "*" then W else [d0]) ds)) by (apply IH; intros x Hx Hi; apply (H x Hx); right; exact Hi).
      destruct (String.eqb d "*") eqn:E.
      - apply String.eqb_eq in E. subst d. clear IH. assert (F : flat_map (fun d0 => if String.eqb d0 "*" then W else [d0]) ds = ds).
        { clear -Hd. induction ds as [|x ds IH]; [reflexivity|]. cbn. destruct (String.eqb x "*") eqn:E; [apply String.eqb_eq in E; subst x; exfalso; apply Hd; left; reflexivity|].
          cbn. f_equal. apply IH. intro X. apply Hd. right. exact X. }
        rewrite F in *. clear F. induction HW as [|w W Hw HW IHW]; [exact K|]. cbn. constructor.
        + intro X. apply in_app_or in X as [X|X]; [contradiction|]. apply (H w (or_introl eq_refl)). right. exact X.
        + apply IHW. intros x Hx. apply H. right. exact Hx.
      - cbn. constructor; [|exact K]. intro X. apply in_flat_map in X as (x & X1 & X2). destruct (String.eqb x "*").
        + apply (H d X2). left. reflexivity.
        + destruct X2 as [->|[]]. contradiction.
    Qed.

    Lemma in_expand : forall W ds d, In d (expand_dims W ds) -> In d W /\ In "*" ds \/ In d ds /\ d <> "*".
    Proof.
      intros W ds d X. unfold expand_dims in X. apply in_flat_map in X as (x & X1 & X2). destruct (String.eqb x "*") eqn:E.
      - apply String.eqb_eq in E. subst x. auto.
      - destruct X2 as [->|[]]. right. split; [exact X1|]. apply String.eqb_neq. exact E.
    Qed.

    Lemma expand_in : forall W ds d, In "*" ds -> In d W -> In d (expand_dims W ds).
    Proof. intros W ds d H1 H2. unfold expand_dims. apply in_flat_map. exists "*". split; [exact H1|exact H2]. Qed.

    Lemma expand_named : forall W ds d, In d ds -> d <> "*" -> In d (expand_dims W ds).
    Proof. intros W ds d H1 H2. unfold expand_dims. apply in_flat_map. exists d. split; [exact H1|]. apply String.eqb_neq in H2. rewrite H2. left. reflexivity. Qed.

    Lemma region_core : forall f (st st' : state T) ign raw raw' ra ra' out out', part_state g st st' ->
      proper_inputs inp -> NoDup (keys outp) -> stars_ok outp inp -> columnwise inp outp f ->
      (forall raw ra k a, f raw ra -> In (k, a) ra -> wf_nd a) ->
      validated empty_treg inp None st raw -> f raw ra -> restore_data_arrays_with_properties ra outp st inp ign false = Ok out ->
      validated empty_treg inp None st' raw' -> f raw' ra' -> restore_data_arrays_with_properties ra' outp st' inp ign false = Ok out' ->
      Forall2 (fun x y => fst x = fst y /\ (part_of g (snd x) (snd y) /\ exists ds, declared_dims outp inp (fst x) ds /\ dims (snd x) = expand_dims (wildcard_dims st inp) ds)) out out'.
    Proof.
      intros f st st' ign raw raw' ra ra' out out' H Hpi Hnd Hst Hc Hreal V F Hr V' F' Hr'.
      destruct (part_wf _ _ H) as (W1 & W2). assert (EW := fun d => part_wild_in _ _ inp d H). assert (U1 := part_unamb _ _ H).
      assert (U2 : unambiguous st' inp outp) by (intros d Hd; apply U1, (EW d); exact Hd).
      destruct V as (V1 & (L & HL & V2) & V3). destruct V' as (V1' & (L' & HL' & V2') & V3').
      assert (V : validated empty_treg inp None st raw) by (split; [exact V1|split; [exists L; auto|exact V3]]).
      assert (V' : validated empty_treg inp None st' raw') by (split; [exact V1'|split; [exists L'; auto|exact V3']]).
      assert (HLn : forall d, input_dim inp d -> d <> "*" -> L d = L' d) by (intros d X Y; apply (part_lengths _ _ _ _ d H HL HL'), (proj1 Hcp); assumption).
      assert (Hsl : same_lengths inp st st').
      { intros M1 M2 HM1 HM2 d X Y. rewrite (common_lengths_unique st inp M1 L W1 HM1 HL), (common_lengths_unique st' inp M2 L' W2 HM2 HL'). auto. }
      destruct (validated_grid st inp raw L W1 V HL) as (G1 & _). destruct (validated_grid st' inp raw' L' W2 V' HL') as (G2 & _).
      destruct (Hc (axis_len (wildcard_dims st inp) L) (axis_len (wildcard_dims st' inp) L') raw raw' ra ra' F F' G1 G2) as (m1 & m2 & M1 & M2 & M3 & _).
      { intros d X Y. unfold axis_len. assert (E : String.eqb d "*" = false) by (apply String.eqb_neq; exact Y). rewrite E. auto. }
      apply (by_keys (fun k x y => part_of g x y /\ exists ds, declared_dims outp inp k ds /\ dims x = expand_dims (wildcard_dims st inp) ds)).
      { exact (restore_order _ _ _ _ _ _ _ _ _ Hr Hr'). }
      { exact (restore_NoDup _ _ _ _ _ _ _ Hr). }
      intros name q q' Eq Eq'.
      assert (O1 : one_call inp outp f st out) by (exists raw, ra, ign; auto). assert (O2 : one_call inp outp f st' out') by (exists raw', ra', ign; auto).
      destruct (one_call_declared inp outp f st out name q W1 Hnd Hst O1 Eq) as (ds & Hds & D1).
      destruct (restore_on_grid st inp outp ign raw ra out L m1 W1 Hpi Hnd Hst U1 V HL M1 Hr name ds q Hds Eq) as (a & A1 & _ & A2 & _).
      destruct (restore_on_grid st' inp outp ign raw' ra' out' L' m2 W2 Hpi Hnd Hst U2 V' HL' M2 Hr' name ds q' Hds Eq') as (a' & A1' & D2 & A2' & _).
      assert (EO := fun O => part_wild st st' inp O H). set (W := wildcard_dims st inp) in *. set (W' := wildcard_dims st' inp) in *.
      destruct (proj2 (proj2 Hcp) name ds Hds) as (N1 & N2 & N3).
      assert (HN : NoDup (expand_dims W ds)).
      { apply expand_NoDup; [apply dedup_NoDup|exact N1|]. intros d Hd Hi. apply (proj2 (U1 d Hd)). exists name, ds. auto. }
      assert (HN' : NoDup (expand_dims W' ds)).
      { apply expand_NoDup; [apply dedup_NoDup|exact N1|]. intros d Hd Hi. apply (proj2 (U2 d Hd)). exists name, ds. auto. }
      assert (Hdd : forall d, In d (dims q') <-> In d (dims q) /\ fixed g d = None).
      { intro d. rewrite D1, D2. split.
        - intro X. apply in_expand in X as [(X & Y)|(X & Y)]; [apply EW in X as (X & Z); split; [apply expand_in; assumption|exact Z]|].
          split; [apply expand_named; assumption|]. exact (proj1 (Hkept d (out_whole name ds d Hds X Y))).
        - intros (X & Z). apply in_expand in X as [(X & Y)|(X & Y)]; [apply expand_in; [exact Y|apply EW; auto]|apply expand_named; assumption]. }
      assert (WF : forall st0 raw0 ra0 out0 q0, wf_state st0 -> f raw0 ra0 -> restore_data_arrays_with_properties ra0 outp st0 inp ign false = Ok out0 -> dget name out0 = Some q0 -> NoDup (dims q0) -> wf_da q0).
      { intros st0 raw0 ra0 out0 q0 X1 X2 X3 X4 X5. destruct (restoration_spec st0 ra0 outp inp ign false out0 X1 Hnd Hst X3) as (Hk & Hv).
        assert (Hin : In name (keys out0)) by (eapply dget_In_keys; exact X4). apply Hk in Hin as [Hin Hni]. apply In_keys_dget in Hin as (p & Hp).
        destruct (Hv name p Hp Hni) as (ds0 & q1 & _ & Hq & (r & u & E1 & _ & _ & _ & E5 & E6 & E7 & _)). rewrite X4 in Hq. injection Hq as <-.
        split; [exact E5|]. split; [exact X5|]. unfold wf_nd. rewrite E6, E7. apply (Hreal raw0 ra0 (out_key outp inp name) r X2). exact (dget_In _ _ _ E1). }
      assert (Wq : wf_da q) by (apply (WF st raw ra out q W1 F Hr Eq); rewrite D1; exact HN). assert (Wq' : wf_da q') by (apply (WF st' raw' ra' out' q' W2 F' Hr' Eq'); rewrite D2; exact HN').
      assert (Hat : attrs q = attrs q').
      { destruct (main_restore st ra outp inp ign false out W1 Hnd Hst Hr) as (Hk & Hv). destruct (main_restore st' ra' outp inp ign false out' W2 Hnd Hst Hr') as (Hk' & Hv').
        assert (Hin : In name (keys out)) by (eapply dget_In_keys; exact Eq). apply Hk in Hin as [Hin Hni]. apply In_keys_dget in Hin as (p & Hp).
        assert (Hin' : In name (keys out')) by (eapply dget_In_keys; exact Eq'). apply Hk' in Hin' as [_ Hni'].
        destruct (Hv name p Hp Hni) as (? & u & ? & q1 & _ & B1 & _ & B2 & B3 & _). destruct (Hv' name p Hp Hni') as (? & u' & ? & q1' & _ & B1' & _ & B2' & B3' & _).
        rewrite Eq in B2. injection B2 as <-. rewrite Eq' in B2'. injection B2' as <-. congruence. }
      assert (Hlen : forall d n, dim_len q d = Some n -> (In d W /\ n = L d) \/ (whole g d /\ n = m1 d)).
      { intros d n X. assert (Hd : In d (dims q)) by (apply (dim_len_In q d Wq); eauto). unfold dim_len in X. rewrite A2 in X. rewrite dget_combine_map in X; [|exact Hd].
        injection X as <-. rewrite D1 in Hd. apply in_expand in Hd as [(Hw & _)|(Hi & Hs)].
        - left. apply mem_In in Hw. rewrite Hw. apply mem_In in Hw. auto.
        - right. split; [exact (out_whole name ds d Hds Hi Hs)|]. destruct (mem d W) eqn:Em; [|reflexivity].
          exfalso. apply mem_In in Em. apply (proj2 (U1 d Em)). exists name, ds. auto. }
      assert (Hlen' : forall d n, dim_len q' d = Some n -> (In d W' /\ n = L' d) \/ (whole g d /\ n = m2 d)).
      { intros d n X. assert (Hd : In d (dims q')) by (apply (dim_len_In q' d Wq'); eauto). unfold dim_len in X. rewrite A2' in X. rewrite dget_combine_map in X; [|exact Hd].
        injection X as <-. rewrite D2 in Hd. apply in_expand in Hd as [(Hw & _)|(Hi & Hs)].
        - left. apply mem_In in Hw. rewrite Hw. apply mem_In in Hw. auto.
        - right. split; [exact (out_whole name ds d Hds Hi Hs)|]. destruct (mem d W') eqn:Em; [|reflexivity].
          exfalso. apply mem_In in Em. apply (proj2 (U2 d Em)). exists name, ds. auto. }
      assert (Hnw : forall d, In d W -> ~ whole g d) by (intros d Hd; exact (wild_cut _ _ d H Hd)).
      split; [|exists ds; split; [exact Hds|exact D1]].
      split; [exact Wq|]. split; [exact Wq'|].
      split. { rewrite D1. intro X. apply in_expand in X as [(X & _)|(_ & X)]; [exact (wildcard_undeclared st inp "*" W1 X eq_refl)|exact (X eq_refl)]. }
      split; [exact Hat|]. split; [exact Hdd|].
      split. { intro O. rewrite D1, D2. rewrite (EO O). reflexivity. }
      assert (Hfx : forall d n i, dim_len q d = Some n -> fixed g d = Some i -> i < n).
      { intros d n i X Ef. destruct (Hlen d n X) as [(K1 & ->)|(K1 & _)].
        - assert (Z := proj2 (part_lengths _ _ _ _ d H HL HL') K1 (fun _ => 0)). unfold spot in Z. rewrite Ef in Z. apply Z. intro Y. apply EW in Y as (_ & Y). congruence.
        - destruct (Hkept d K1). congruence. }
      split; [exact Hfx|].
      assert (Hpk : forall d n m, dim_len q d = Some n -> dim_len q' d = Some m -> (forall i, i < m -> pick g d i < n) /\ (whole g d -> n = m)).
      { intros d n m X Y. assert (Hf : fixed g d = None) by (apply Hdd, (dim_len_In q' d Wq'); eauto).
        destruct (Hlen d n X) as [(K1 & ->)|(K1 & ->)], (Hlen' d m Y) as [(K2 & ->)|(K2 & ->)].
        - split; [|intro Hw; destruct (Hnw d K1 Hw)]. intros i Hi. assert (Z := proj2 (part_lengths _ _ _ _ d H HL HL') K1 (fun _ => i) (fun _ => Hi)). unfold spot in Z. rewrite Hf in Z. exact Z.
        - destruct (Hnw d K1 K2).
        - apply EW in K2 as (K2 & _). destruct (Hnw d K2 K1).
        - assert (Hs : d <> "*").
          { intros ->. assert (X' : In "*" (dims q)) by (apply (dim_len_In q "*" Wq); eauto). rewrite D1 in X'.
            apply in_expand in X' as [(X' & _)|(_ & X')]; [exact (wildcard_undeclared st inp "*" W1 X' eq_refl)|exact (X' eq_refl)]. }
          rewrite (M3 d Hs). split; [|reflexivity]. intros i Hi. rewrite (proj2 (Hkept d K1)). exact Hi. }
      split; [exact Hpk|].
      intros p Hp.
      assert (Cl : forall d, In d W' -> p d < L' d).
      { intros d Hd. assert (Hd' : In d (dims q')) by (rewrite D2; apply expand_in; assumption). apply (Hp d). unfold dim_len. rewrite A2', dget_combine_map; [|exact Hd'].
        apply mem_In in Hd. rewrite Hd. reflexivity. }
      assert (C2 : column_of st' inp p) by exact (part_column _ L' p HL' Cl).
      assert (C1 : column_of st inp (spot g p)).
      { intros nm pr ds0 a0 d n Hl Hh Hd. rewrite <- (proj1 HL _ _ _ _ _ _ Hl Hh). exact (proj2 (part_lengths _ _ _ _ d H HL HL') Hd p (Cl d)). }
      refine (proj2 (columns_core inp outp f st st' out out' (spot g p) p W1 W2 Hpi Hnd Hst U1 U2 Hc O1 O2 Hsl C1 C2 (part_inputs _ _ p H) name ds q q' Hds Eq Eq' (spot g p) p _ _ _ _)).
      - intros d _. reflexivity.
      - intros d _. reflexivity.
      - intros d n Hh. apply has_dim_len in Hh; [|exact Wq]. unfold spot. destruct (fixed g d) as [i|] eqn:Ef; [exact (Hfx d n i Hh Ef)|]. destruct (dim_len q' d) as [m|] eqn:Em.
        + apply (Hpk d n m Hh Em), Hp, Em.
        + exfalso. assert (Hd : In d (dims q')) by (apply Hdd; split; [apply (dim_len_In q d Wq); eauto|exact Ef]). apply (dim_len_In q' d Wq') in Hd as (m & Hm). congruence.
      - intros d Hd Hs. unfold spot. destruct (Hkept d (out_whole name ds d Hds Hd Hs)) as (-> & E). exact (E _).
    Qed.
  End One.

  Lemma tendency_parts : forall {U} tg c (ac : U -> dict (rval T) -> U * res (dict (nd T) * dict (nd T))) u u' (st : state T) tout dout,
    wf_state st -> t_packer c = None -> proper_inputs (t_inp c) -> tendency_call tg c ac u st = (u', Ok (tout, dout)) ->
    exists raw rt rd dg, validated empty_treg (t_inp c) None st raw /\ ac u raw = (u', Ok (rt, rd)) /\
      restore_data_arrays_with_properties rt (t_tend c) st (t_inp c) [] false = Ok tout /\
      restore_data_arrays_with_properties rd (t_diag c) st (t_inp c) (t_added c) false = Ok dg /\
      dout = if t_tid c then insert_tendencies (t_name c) tout dg else dg.
  Proof.
    intros U tg c ac u u' st tout dout Hwf Hpk Hpi H. unfold tendency_call in H.
    destruct (let* _ := raise_if _ _ in _) as [raw|e] eqn:Er; [|congruence].
    apply bind_ok in Er as ([] & _ & Er). apply raw_state_ok in Er; auto. rewrite Hpk in Er.
    destruct (ac u raw) as [u1 r] eqn:Hac. injection H as <- H.
    apply bind_ok in H as ([rt rd] & -> & H). unfold tendency_finish in H. rewrite Hpk in H.
    cbn [unpack_tracers bind fst snd] in H.
    apply bind_ok in H as ([] & _ & H). apply bind_ok in H as ([] & _ & H).
    apply bind_ok in H as (tr & Htr & H). apply bind_ok in H as (dg & Hdg & H).
    pose proof (restore_NoDup _ _ _ _ _ _ _ Htr) as Hn.
    rewrite dupdate_nil in H by auto. injection H as <- <-.
    exists raw, rt, rd, dg. split; [exact (validated_any tg empty_treg _ _ _ Er)|]. split; [exact Hac|]. split; [exact Htr|]. split; [exact Hdg|reflexivity].
  Qed.

  Lemma inserted_parts : forall name t t', part_dict g t t' -> forall d d' : dict (da T), part_diags g d d' -> part_diags g (insert_tendencies name t d) (insert_tendencies name t' d').
  Proof.
    intros name t t' H. unfold insert_tendencies. induction H as [|x y t t' (Hk & Hv) H IH]; intros d d' Hd; [exact Hd|]. cbn [fold_left]. apply IH.
    rewrite <- Hk. apply (dicts_set (fun _ : string => part_of g (T:=T))); [exact Hd|exact (proj1 (proj2 Hv))].
  Qed.

  Lemma region_component : forall {U} tg c (ac : U -> dict (rval T) -> Z -> U * res (dict (nd T) * dict (nd T))),
    t_packer c = None -> proper_inputs (t_inp c) ->
    NoDup (keys (t_tend c)) -> stars_ok (t_tend c) (t_inp c) -> NoDup (keys (t_diag c)) -> stars_ok (t_diag c) (t_inp c) ->
    column_physics g (t_inp c) (t_tend c) -> may_output g (t_inp c) (t_tend c) -> ~ In "time" (keys (t_tend c)) -> column_physics g (t_inp c) (t_diag c) ->
    (forall u dt, columnwise (t_inp c) (t_tend c) (fun raw out => exists v d, ac u raw dt = (v, Ok (out, d)))) ->
    (forall u dt, columnwise (t_inp c) (t_diag c) (fun raw out => exists v t, ac u raw dt = (v, Ok (t, out)))) ->
    (forall u raw dt v t d, ac u raw dt = (v, Ok (t, d)) -> forall k a, In (k, a) t \/ In (k, a) d -> wf_nd a) ->
    (forall u raw raw' dt, fst (ac u raw dt) = fst (ac u raw' dt)) ->
    local g eq (fun u st dt => tendency_call tg c (fun u raw => ac u raw dt) u st) (fun u st dt => tendency_call tg c (fun u raw => ac u raw dt) u st).
  Proof.
    intros U tg c ac Hpk Hpi Hn Hst Hn' Hst' Hcp Hmay Htime Hcp' Hc Hc' Hreal Hfst u v st st' dt u' v' t d t' d' <- Hs Hx Hy.
    destruct (part_wf _ _ Hs) as (W1 & W2).
    destruct (tendency_parts tg c _ u u' st t d W1 Hpk Hpi Hx) as (raw & rt & rd & dg & V & Ea & Rt & Rd & Ed).
    destruct (tendency_parts tg c _ u v' st' t' d' W2 Hpk Hpi Hy) as (raw' & rt' & rd' & dg' & V' & Ea' & Rt' & Rd' & Ed').
    split. { assert (E := Hfst u raw raw' dt). rewrite Ea, Ea' in E. exact E. }
    assert (Kt : part_dict g t t').
    { assert (K := region_core (t_inp c) (t_tend c) Hcp _ st st' [] raw raw' rt rt' t t' Hs Hpi Hn Hst (Hc u dt)
        (fun raw ra k a X Y => match X with ex_intro _ v (ex_intro _ d E) => Hreal u raw dt v ra d E k a (or_introl Y) end) V (ex_intro _ u' (ex_intro _ rd Ea)) Rt V' (ex_intro _ v' (ex_intro _ rd' Ea')) Rt').
      destruct (main_restore st rt (t_tend c) (t_inp c) [] false t W1 Hn Hst Rt) as (Hk & _).
      assert (Hkk : forall x, In x t -> fst x <> "time") by (intros x X E; apply Htime; rewrite <- E; apply (Hk (fst x)); apply in_map; exact X).
      assert (Hw := fun d => wild_cut (t_inp c) (t_tend c) Hcp st st' d Hs). clear -K Hkk Hw Hmay.
      induction K as [|x y t t' (K1 & K2 & ds & K3 & K4) K IH]; constructor; [|apply IH; intros z Z; apply Hkk; right; exact Z].
      split; [exact K1|]. split; [apply Hkk; left; reflexivity|]. split; [exact K2|]. intros e He We. rewrite K4 in He.
      apply in_expand in He as [(X & _)|(X & Y)]; [destruct (Hw e X We)|exact (Hmay _ ds e K3 X Y)]. }
    split; [exact Kt|].
    assert (Kd : part_diags g dg dg').
    { assert (K := region_core (t_inp c) (t_diag c) Hcp' _ st st' (t_added c) raw raw' rd rd' dg dg' Hs Hpi Hn' Hst' (Hc' u dt)
        (fun raw ra k a X Y => match X with ex_intro _ v (ex_intro _ d E) => Hreal u raw dt v d ra E k a (or_intror Y) end) V (ex_intro _ u' (ex_intro _ rt Ea)) Rd V' (ex_intro _ v' (ex_intro _ rt' Ea')) Rd').
      clear -K. induction K as [|x y t t' (K1 & K2 & _) K IH]; constructor; auto. }
    rewrite Ed, Ed'. destruct (t_tid c); [apply inserted_parts; assumption|exact Kd].
  Qed.

  Lemma stepper_parts : forall {U} tg c (ac : U -> dict (rval T) -> Z -> U * res (dict (nd T) * dict (nd T))) u u' (st : state T) dt dout nout,
    wf_state st -> s_packer c = None -> s_tid c = false -> proper_inputs (s_inp c) -> stepper_call tg c ac u st dt = (u', Ok (dout, nout)) ->
    exists raw rd rn, validated empty_treg (s_inp c) None st raw /\ ac u raw dt = (u', Ok (rd, rn)) /\
      restore_data_arrays_with_properties rd (s_diag c) st (s_inp c) [] false = Ok dout /\
      restore_data_arrays_with_properties rn (s_out c) st (s_inp c) [] false = Ok nout.
  Proof.
    intros U tg c ac u u' st dt dout nout Hwf Hpk Ht Hpi H. unfold stepper_call in H.
    destruct (let* _ := raise_if _ _ in _) as [raw|e] eqn:Er; [|congruence].
    apply bind_ok in Er as ([] & _ & Er). apply raw_state_ok in Er; auto. rewrite Hpk in Er.
    destruct (ac u raw dt) as [u1 r] eqn:Hac. injection H as <- H.
    apply bind_ok in H as ([rd rn] & -> & H). unfold stepper_finish in H. rewrite Hpk in H.
    cbn [unpack_tracers bind fst snd] in H.
    apply bind_ok in H as ([] & _ & H). apply bind_ok in H as ([] & _ & H).
    apply bind_ok in H as (rd' & Hrd & H).
    apply bind_ok in H as (dg & Hdg & H). apply bind_ok in H as (nw & Hnw & H).
    pose proof (restore_NoDup _ _ _ _ _ _ _ Hnw) as Hn.
    rewrite dupdate_nil in H by auto. injection H as <- <-. rewrite Ht in Hrd. injection Hrd as <-.
    exists raw, rd, rn. split; [exact (validated_any tg empty_treg _ _ _ Er)|]. split; [exact Hac|]. split; [exact Hdg|exact Hnw].
  Qed.

  Lemma region_stepper : forall {U} tg c (ac : U -> dict (rval T) -> Z -> U * res (dict (nd T) * dict (nd T))),
    s_packer c = None -> s_tid c = false -> proper_inputs (s_inp c) ->
    NoDup (keys (s_out c)) -> stars_ok (s_out c) (s_inp c) -> NoDup (keys (s_diag c)) -> stars_ok (s_diag c) (s_inp c) ->
    column_physics g (s_inp c) (s_out c) -> may_output g (s_inp c) (s_out c) -> ~ In "time" (keys (s_out c)) -> column_physics g (s_inp c) (s_diag c) ->
    (forall u dt, columnwise (s_inp c) (s_out c) (fun raw out => exists v d, ac u raw dt = (v, Ok (d, out)))) ->
    (forall u dt, columnwise (s_inp c) (s_diag c) (fun raw out => exists v n, ac u raw dt = (v, Ok (out, n)))) ->
    (forall u raw dt v d n, ac u raw dt = (v, Ok (d, n)) -> forall k a, In (k, a) d \/ In (k, a) n -> wf_nd a) ->
    (forall u raw raw' dt, fst (ac u raw dt) = fst (ac u raw' dt)) ->
    local_step g eq (stepper_process tg c ac) (stepper_process tg c ac).
  Proof.
    intros U tg c ac Hpk Htd Hpi Hn Hst Hn' Hst' Hcp Hmay Htime Hcp' Hc Hc' Hreal Hfst u v st st' dt u' v' d n d' n' <- Hs Hx Hy. unfold stepper_process in Hx, Hy.
    destruct (stepper_call tg c ac u st dt) as [u1 [[d0 n0]|]] eqn:Ex; [|discriminate Hx]. destruct (stepper_call tg c ac u st' dt) as [v1 [[d0' n0']|]] eqn:Ey; [|discriminate Hy].
    cbn [bind fst snd] in Hx, Hy. injection Hx as <- <- <-. injection Hy as <- <- <-.
    destruct (part_wf _ _ Hs) as (W1 & W2).
    destruct (stepper_parts tg c _ u u1 st dt d0 n0 W1 Hpk Htd Hpi Ex) as (raw & rd & rn & V & Ea & Rd & Rt).
    destruct (stepper_parts tg c _ u v1 st' dt d0' n0' W2 Hpk Htd Hpi Ey) as (raw' & rd' & rn' & V' & Ea' & Rd' & Rt').
    split. { assert (E := Hfst u raw raw' dt). rewrite Ea, Ea' in E. exact E. }
    split.
    { assert (K := region_core (s_inp c) (s_diag c) Hcp' _ st st' [] raw raw' rd rd' d0 d0' Hs Hpi Hn' Hst' (Hc' u dt)
        (fun raw ra k a X Y => match X with ex_intro _ v (ex_intro _ d E) => Hreal u raw dt v ra d E k a (or_introl Y) end) V (ex_intro _ u1 (ex_intro _ rn Ea)) Rd V' (ex_intro _ v1 (ex_intro _ rn' Ea')) Rd').
      clear -K. induction K as [|x y t t' (K1 & K2 & _) K IH]; constructor; auto. }
    assert (K := region_core (s_inp c) (s_out c) Hcp _ st st' [] raw raw' rn rn' n0 n0' Hs Hpi Hn Hst (Hc u dt)
      (fun raw ra k a X Y => match X with ex_intro _ v (ex_intro _ d E) => Hreal u raw dt v d ra E k a (or_intror Y) end) V (ex_intro _ u1 (ex_intro _ rd Ea)) Rt V' (ex_intro _ v1 (ex_intro _ rd' Ea')) Rt').
    destruct (main_restore st rn (s_out c) (s_inp c) [] false n0 W1 Hn Hst Rt) as (Hk & _).
    assert (Hkk : forall x, In x n0 -> fst x <> "time") by (intros x X E; apply Htime; rewrite <- E; apply (Hk (fst x)); apply in_map; exact X).
    assert (Hw := fun d => wild_cut (s_inp c) (s_out c) Hcp st st' d Hs). clear -K Hkk Hw Hmay. unfold as_state.
    induction K as [|x y t t' (K1 & K2 & ds & K3 & K4) K IH]; cbn [map]; constructor; [|apply IH; intros z Z; apply Hkk; right; exact Z].
    split; [exact K1|]. cbn [fst snd part_value]. split; [apply Hkk; left; reflexivity|]. split; [exact K2|]. intros e He We. rewrite K4 in He.
    apply in_expand in He as [(X & _)|(X & Y)]; [destruct (Hw e X We)|exact (Hmay _ ds e K3 X Y)].
  Qed.
End Calls.
