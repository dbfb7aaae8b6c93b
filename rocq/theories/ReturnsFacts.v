(** C84: proofs. *)
From Coq Require Import String List Bool Arith ZArith QArith Qcanon Lia Permutation.
From Verif Require Import Prelude PreludeFacts ArithM NdArray NdFacts Units DataArrayM SpecDa SpecUnits SpecArrays GetNp Tracers SpecComponents Components SpecCalls
  Composite SpecComposite CompositeFacts CombineFacts CompositeMain Steppers SpecSteppers SteppersFacts ABFacts LeapFacts StepRuns StepDiag SteppersMain SpecNested InputsFacts CallFacts SpecReturns.
Import ListNotations.
Open Scope string_scope.
Open Scope nat_scope.
Open Scope list_scope.

Section Facts.
  Context {T : Type} {A : Arith T} {R : Registry}.

  Lemma runs_same : forall {U O} (st : state T) (cs : list (U -> state T -> U * res O)) u u1 u2 outs1 outs2,
    runs st cs u u1 outs1 -> runs st cs u u2 outs2 -> outs1 = outs2.
  Proof.
    intros U O st cs u u1 u2 outs1 outs2 H. revert u2 outs2. induction H as [u|c cs u v w td outs E H IH]; intros u2 outs2 H2; inversion H2; subst; [reflexivity|].
    match goal with E' : c u st = _ |- _ => rewrite E in E'; injection E' as <- <- end. f_equal. eapply IH. eassumption.
  Qed.

  Lemma dget_entries : forall {V} X (d : dict V), match entries X d with [] => dget X d = None | p :: _ => dget X d = Some p end.
  Proof.
    intros V X d. induction d as [|(k, v) d IH]; cbn; [reflexivity|].
    destruct (String.eqb_spec X k) as [->|]; cbn; [reflexivity|]. exact IH.
  Qed.

  Lemma entries_app' : forall {V} X (a b : list (string * V)), entries X (a ++ b) = entries X a ++ entries X b.
  Proof. intros V X a b. unfold entries. apply flat_map_app. Qed.

  Lemma dget_keys : forall {V} X (d : dict V), In X (keys d) <-> exists v, dget X d = Some v.
  Proof.
    intros V X d. split.
    - intros H. destruct (dget X d) eqn:E; [eauto|]. exfalso. apply dget_none in E. auto.
    - intros (v & H). apply dget_In in H. apply in_map_iff. exists (X, v). auto.
  Qed.

  (** The first contribution comes from the first declaration. *)
  Lemma first_units : forall X (decl : list (pdict * list string)) (outs : list (dict (da T))),
    Forall2 (fun d o => delivers (fst d) (snd d) o) decl outs ->
    (forall d d', In d decl -> In d' decl -> In X (snd d) -> ~ In X (keys (fst d'))) ->
    match entries X (concat (map fst decl)) with
    | [] => (forall d, In d decl -> ~ In X (snd d)) -> contributions X outs = []
    | p0 :: _ => exists a rest u, contributions X outs = a :: rest /\ p_units p0 = Some u /\ units_of a = Some u
    end.
  Proof.
    intros X decl outs H. induction H as [|(d, ex) o decl outs HH H IH]; intros Hap; [cbn; auto|].
    cbn [map concat fst]. rewrite entries_app'. unfold contributions. cbn [flat_map].
    destruct HH as (Hk & Hu). cbn [fst snd] in Hk, Hu.
    pose proof (dget_entries X d) as Hd. destruct (entries X d) as [|p0 r] eqn:E; cbn [app].
    - specialize (IH (fun a b Ha Hb => Hap a b (or_intror Ha) (or_intror Hb))).
      destruct (entries X (concat (map fst decl))) as [|p0 r] eqn:E2.
      + intros Hn. assert (Ho : dget X o = None).
        { apply dget_none. intros Hi. apply Hk in Hi. destruct Hi as [Hi|Hi]; [apply dget_keys in Hi; destruct Hi; congruence|].
          apply (Hn (d, ex) (or_introl eq_refl)). exact Hi. }
        rewrite Ho. cbn. apply IH. intros d' Hd'. apply Hn. right. exact Hd'.
      + destruct IH as (a & rest & u & Hc & H1 & H2).
        assert (Ho : dget X o = None).
        { apply dget_none. intros Hi. apply Hk in Hi. destruct Hi as [Hi|Hi]; [apply dget_keys in Hi; destruct Hi; congruence|].
          assert (Hin : In p0 (entries X (concat (map fst decl)))) by (rewrite E2; left; reflexivity).
          apply In_entries in Hin. apply in_concat in Hin. destruct Hin as (dd & Hdd & Hxp). apply in_map_iff in Hdd. destruct Hdd as (d' & <- & Hd').
          apply (Hap (d, ex) d' (or_introl eq_refl) (or_intror Hd') Hi). apply in_map_iff. exists (X, p0). auto. }
        rewrite Ho. cbn [app]. exists a, rest, u. auto.
    - assert (Hin : In X (keys d)) by (apply dget_keys; eauto).
      assert (Hex : ~ In X ex). { intros Hi. exact (Hap (d, ex) (d, ex) (or_introl eq_refl) (or_introl eq_refl) Hi Hin). }
      assert (Ho : In X (keys o)) by (apply Hk; auto). apply dget_keys in Ho. destruct Ho as (q & Hq). rewrite Hq. cbn [app].
      destruct (Hu X p0 q Hd Hex Hq) as (u & Hu1 & Hu2). eauto 10.
  Qed.

  Lemma contributions_in : forall X (outs : list (dict (da T))), contributions X outs <> [] <-> exists o, In o outs /\ In X (keys o).
  Proof.
    intros X outs. unfold contributions. induction outs as [|o outs IH]; cbn.
    - split; [congruence|]. intros (o & [] & _).
    - destruct (dget X o) as [q|] eqn:E; cbn.
      + split; [|intros _; discriminate]. intros _. exists o. split; [auto|]. apply dget_keys. eauto.
      + rewrite IH. split; [intros (o' & Ho & HX); eauto|]. intros (o' & [<-|Ho] & HX); [|eauto].
        apply dget_keys in HX. destruct HX. congruence.
  Qed.

  (** The diagnostics, which no two components share. *)
  Lemma union_delivers : forall (decl : list pdict) (outs : list (dict (da T))) d out,
    Forall2 (fun d o => delivers d [] o) decl outs -> (forall k, ~ shared_key decl k) ->
    union_of decl d -> union_of outs out -> delivers d [] out.
  Proof.
    intros decl outs d out H Hs Hd Ho. split.
    - intros X. rewrite !dget_keys. split.
      + intros (q & Hq). apply Ho in Hq. destruct Hq as (o & Hin & Hq).
        destruct (Forall2_in_r _ _ _ o H Hin) as (e & He & (Hk & _)).
        assert (HX : In X (keys o)) by (apply dget_keys; eauto). apply Hk in HX. destruct HX as [HX|[]].
        apply dget_keys in HX. destruct HX as (p & Hp). left. exists p. apply Hd. eauto.
      + intros [(p & Hp)|[]]. apply Hd in Hp. destruct Hp as (e & Hin & Hp).
        destruct (Forall2_in_l _ _ _ e H Hin) as (o & Ho' & (Hk & _)).
        assert (HX : In X (keys o)) by (apply Hk; left; apply dget_keys; eauto).
        apply dget_keys in HX. destruct HX as (q & Hq). exists q. apply Ho. eauto.
    - intros X p q Hp _ Hq. apply Hd in Hp. apply Ho in Hq. clear Hd Ho.
      destruct Hp as (e & Hin & Hp). destruct Hq as (o & Hino & Hq).
      induction H as [|e0 o0 decl outs (Hk & Hu) H IH]; [destruct Hin|].
      assert (Hs' : forall k, ~ shared_key decl k).
      { intros k (l1 & d1 & l2 & d2 & l3 & -> & H1 & H2). apply (Hs k). exists (e0 :: l1), d1, l2, d2, l3. auto. }
      destruct Hin as [->|Hin], Hino as [->|Hino].
      + apply (Hu X); auto.
      + exfalso. destruct (Forall2_in_r _ _ _ o H Hino) as (e' & He' & (Hk' & _)).
        assert (HX : In X (keys o)) by (apply dget_keys; eauto). apply Hk' in HX. destruct HX as [HX|[]].
        apply in_split in He'. destruct He' as (l1 & l2 & ->). apply (Hs X). exists [], e, l1, e', l2. split; [reflexivity|]. split; [apply dget_keys; eauto|exact HX].
      + exfalso. assert (HX : In X (keys o)) by (apply dget_keys; eauto). apply Hk in HX. destruct HX as [HX|[]].
        apply in_split in Hin. destruct Hin as (l1 & l2 & ->). apply (Hs X). exists [], e0, l1, e, l2. split; [reflexivity|]. split; [exact HX|apply dget_keys; eauto].
      + apply IH; auto.
  Qed.

  Lemma runs_all : forall {U O} (P : state T -> (U -> state T -> U * res O) -> O -> Prop) (st : state T) cs u u' outs,
    runs st cs u u' outs -> (forall c v v' o, In c cs -> c v st = (v', Ok o) -> P st c o) -> Forall2 (P st) cs outs.
  Proof.
    intros U O P st cs u u' outs H. induction H as [u|c cs u v w td outs E H IH]; intros Hall; constructor.
    - eapply Hall; [left; reflexivity|exact E].
    - apply IH. intros c' v0 v' o Hin. apply Hall. right. exact Hin.
  Qed.

  Variable ord : list string -> list string.
  Hypothesis Hord : forall l, NoDup l -> Permutation (ord l) l.

  (** C84 for composites. *)
  Lemma composite_delivers : forall {U} implicit g (cs : list (comp_obj T U)) comp dt u u' (st : state T) t d,
    make_tendency_composite ord implicit g (map (fun c => (true, o_props c)) cs) = Ok comp ->
    known (tends cs) -> dictionaries cs -> apart cs -> (forall c, In c cs -> keeps st c) ->
    implicit_composite_call (map o_call cs) dt u st = (u', Ok (t, d)) ->
    delivers (t_tend comp) (flat_map o_tracers cs) t /\ delivers (t_diag comp) [] d.
  Proof.
    intros U implicit g cs comp dt u u' st t d Hm Hk Hdict Hap Hkeep Hcall.
    unfold implicit_composite_call in Hcall. rewrite map_map in Hcall.
    set (callers := map (fun x => call_at dt (o_call x)) cs) in *.
    change (map _ cs) with callers in Hcall.
    assert (Em : map snd (map (fun c : comp_obj T U => (true, o_props c)) cs) = map o_props cs) by (rewrite map_map; apply map_ext; reflexivity).
    assert (Hn : forall c, In c (map (fun c : comp_obj T U => (true, o_props c)) cs) -> NoDup (keys (cp_diag (snd c)))).
    { intros c Hin. apply in_map_iff in Hin. destruct Hin as (c0 & <- & Hc0). apply Hdict. exact Hc0. }
    destruct (tendency_construction_union ord implicit g _ comp Hn Hm) as (Hsh & Hun). rewrite Em in Hsh, Hun.
    destruct (composite_sum callers u u' st t d Hcall) as (outs & Hruns & Hsum).
    destruct (tendency_diagnostics_kept callers (map cp_diag (map o_props cs)) u u' st t d Hcall Hsh) as (outs' & Hruns' & Hdiag).
    rewrite (runs_same _ _ _ _ _ _ _ Hruns' Hruns) in Hdiag. clear Hruns' outs'.
    assert (HF : Forall2 (fun c o => proper (fst o) /\ NoDup (keys (snd o)) /\ delivers (cp_tend (o_props c)) (o_tracers c) (fst o) /\ delivers (cp_diag (o_props c)) [] (snd o)) cs outs).
    { clear - Hruns Hkeep. subst callers. revert u Hruns Hkeep. revert outs. induction cs as [|c cs IH]; intros outs u Hruns Hkeep; inversion Hruns; subst; constructor.
      - destruct td as (t0, d0). eapply (Hkeep c (or_introl eq_refl)). eassumption.
      - eapply IH; [eassumption|]. intros c' Hc'. apply Hkeep. right. exact Hc'. }
    split.
    - assert (HT : combine_properties ord (map cp_tend (map o_props cs)) (t_inp comp) = Ok (t_tend comp)).
      { clear - Hm Em. unfold make_tendency_composite in Hm. cbn zeta in Hm. rewrite Em in Hm.
        apply bind_ok in Hm. destruct Hm as (? & _ & Hm). apply bind_ok in Hm. destruct Hm as (inp & Hi & Hm).
        apply bind_ok in Hm. destruct Hm as (dg & _ & Hm). apply bind_ok in Hm. destruct Hm as (? & _ & Hm).
        apply bind_ok in Hm. destruct Hm as (tend & Ht & Hm). injection Hm as <-. cbn [t_tend t_inp].
        assert (Hct : composite_tendencies ord g (map o_props cs) = Ok tend).
        { destruct implicit.
          - apply bind_ok in Ht. destruct Ht as (? & _ & Ht). apply bind_ok in Ht. destruct Ht as (tn & Htn & Ht).
            apply bind_ok in Ht. destruct Ht as (? & _ & Ht). injection Ht as <-. exact Htn.
          - apply bind_ok in Ht. destruct Ht as (tn & Htn & Ht).
            apply bind_ok in Ht. destruct Ht as (? & _ & Ht). apply bind_ok in Ht. destruct Ht as (? & _ & Ht). injection Ht as <-. exact Htn. }
        unfold composite_tendencies in Hct. rewrite Hi in Hct. cbn [bind] in Hct. exact Hct. }
      assert (Etends : concat (map cp_tend (map o_props cs)) = tends cs) by (unfold tends; rewrite map_map; reflexivity).
      pose proof (combine_properties_spec ord Hord (t_inp comp) (map cp_tend (map o_props cs))) as Hspec.
      rewrite Etends in Hspec. specialize (Hspec Hk). rewrite HT in Hspec. destruct Hspec as (_ & Hkeys & Hent).
      set (decl := map (fun c : comp_obj T U => (cp_tend (o_props c), o_tracers c)) cs).
      assert (HF2 : Forall2 (fun d o => delivers (fst d) (snd d) o) decl (map fst outs)).
      { clear - HF. subst decl. induction HF as [|c o cs outs (_ & _ & H & _) HF IH]; cbn; constructor; auto. }
      assert (Edecl : concat (map fst decl) = tends cs).
      { unfold decl, tends. rewrite map_map. reflexivity. }
      assert (Hap2 : forall X d d', In d decl -> In d' decl -> In X (snd d) -> ~ In X (keys (fst d'))).
      { intros X e e' He He' HX. apply in_map_iff in He. destruct He as (c & <- & Hc). apply in_map_iff in He'. destruct He' as (c' & <- & Hc').
        exact (Hap c c' X Hc Hc' HX). }
      assert (Hprop : Forall proper (map fst outs)).
      { clear - HF. induction HF as [|c o cs outs (H & _) HF IH]; cbn; constructor; auto. }
      specialize (Hsum Hprop). split.
      + intros X. rewrite dget_keys. specialize (Hsum X).
        assert (Hc : (exists v, dget X t = Some v) <-> contributions X (map fst outs) <> []).
        { destruct (contributions X (map fst outs)) as [|a r]; [split; [intros (v & Hv); congruence|congruence]|].
          destruct Hsum as (v & Hv & _). split; [discriminate|eauto]. }
        rewrite Hc, contributions_in. rewrite Hkeys, dedup_In. split.
        * intros (o & Ho & HX). destruct (Forall2_in_r _ _ _ o HF2 Ho) as (e & He & (Hke & _)). apply Hke in HX.
          apply in_map_iff in He. destruct He as (c & <- & Hcin). cbn in HX. destruct HX as [HX|HX].
          { left. unfold tends. unfold keys at 1. rewrite concat_map, map_map. apply in_concat. exists (keys (cp_tend (o_props c))). split; [|exact HX].
            apply in_map_iff. exists c. auto. }
          right. apply in_flat_map. eauto.
        * intros HX. assert (Hc' : exists c, In c cs /\ (In X (keys (cp_tend (o_props c))) \/ In X (o_tracers c))).
          { destruct HX as [HX|HX].
            - unfold tends in HX. unfold keys in HX. rewrite concat_map, map_map in HX. apply in_concat in HX. destruct HX as (l & Hl & HX).
              apply in_map_iff in Hl. destruct Hl as (c & <- & Hcin). eauto.
            - apply in_flat_map in HX. destruct HX as (c & Hcin & HX). eauto. }
          destruct Hc' as (c & Hcin & HX').
          destruct (Forall2_in_l _ _ _ (cp_tend (o_props c), o_tracers c) HF2) as (o & Ho & (Hke & _)).
          { apply in_map_iff. exists c. auto. }
          exists o. split; [exact Ho|]. apply Hke. exact HX'.
      + intros X p q Hp Hex Hq. specialize (Hent X). specialize (Hsum X).
        pose proof (first_units X decl (map fst outs) HF2 (Hap2 X)) as Hfu. rewrite Edecl in Hfu.
        destruct (entries X (tends cs)) as [|p0 rest]; [congruence|].
        destruct Hent as (r & Hr & (Hru & _)). rewrite Hp in Hr. injection Hr as <-.
        destruct Hfu as (a & rs & u0 & Hca & Hu0 & Hua). rewrite Hca in Hsum. destruct Hsum as (r & Hr & (_ & Hat & _)).
        rewrite Hq in Hr. injection Hr as <-. exists u0. split; [congruence|]. unfold units_of in *. rewrite Hat. exact Hua.
    - eapply (union_delivers (map cp_diag (map o_props cs)) (map snd outs)); auto.
      + clear - HF. induction HF as [|c o cs outs (_ & _ & _ & H) HF IH]; cbn; constructor; auto.
      + apply Hdiag. clear - HF. induction HF as [|c o cs outs (_ & H1 & _ & H) HF IH]; cbn; constructor; auto.
        split; [exact H1|]. intros k Hi. destruct H as (Hk & _). apply Hk in Hi. destruct Hi as [Hi|[]]. exact Hi.
  Qed.

  (** *** Construction of a time stepper *)

  Lemma merge_fold : forall cs acc d, foldM merge_step cs acc = Ok d -> fold_left (fun a c => dupdate a (cp_diag c)) cs acc = d.
  Proof.
    intros cs. induction cs as [|c cs IH]; intros acc d H; cbn [foldM fold_left] in *; [congruence|].
    apply bind_ok in H. destruct H as (acc' & H1 & H). unfold merge_step in H1. apply bind_ok in H1. destruct H1 as (? & _ & H1). injection H1 as <-. auto.
  Qed.

  Lemma insert_diag_get : forall comp tend d d', foldM (ts_insert_diag comp) tend d = Ok d' ->
    (forall X, In X (keys tend) -> In (tendency_name comp X) (keys d')) /\
    (forall k, In k (keys d) -> In k (keys d')) /\
    forall k, (forall X, In X (keys tend) -> k <> tendency_name comp X) -> dget k d' = dget k d.
  Proof.
    intros comp tend. induction tend as [|(Y, q) tend IH]; intros d d' H; cbn [foldM] in H.
    - injection H as <-. split; [intros X []|auto].
    - apply bind_ok in H. destruct H as (d1 & H1 & H). destruct (IH _ _ H) as (I1 & I2 & I3).
      unfold ts_insert_diag in H1. cbn [snd fst] in H1. destruct (p_units q); [|discriminate]. destruct (p_dims q); [|discriminate]. injection H1 as <-.
      split; [|split].
      + intros X [<-|HX]; [|auto]. apply I2. apply In_keys_dset. auto.
      + intros k Hk. apply I2. apply In_keys_dset. auto.
      + intros k Hk. rewrite I3; [|intros X HX; apply Hk; right; exact HX]. apply dget_dset_neq. apply Hk. left. reflexivity.
  Qed.

  Lemma clean_keys : forall clean tend outp, ts_output_properties clean tend = Ok outp -> keys outp = keys tend.
  Proof.
    intros clean tend. unfold ts_output_properties. induction tend as [|(k, p) tend IH]; intros outp H; cbn [mapM] in H; [injection H as <-; reflexivity|].
    apply bind_ok in H. destruct H as (x & H1 & H). apply bind_ok in H. destruct H as (l & H2 & H). injection H as <-.
    cbn. unfold clean_output in H1. destruct (p_units p); [|discriminate]. apply bind_ok in H1. destruct H1 as (? & _ & H1). injection H1 as <-. cbn. f_equal. apply IH. exact H2.
  Qed.

  Lemma tstep_delivers : forall {U} clean g (cs : list (comp_obj T U)) name tid cfg,
    make_tstep ord clean g (map (fun c => (true, o_props c)) cs) name tid = Ok cfg -> known (tends cs) ->
    exists comp, make_tendency_composite ord true g (map (fun c => (true, o_props c)) cs) = Ok comp /\
      keys (ts_out cfg) = keys (t_tend comp) /\ NoDup (keys (ts_out cfg)) /\
      forall pdiag diag, delivers (t_diag comp) [] pdiag ->
        (if ts_tid cfg then exists dt st new, with_differences cfg dt st new pdiag diag else diag = pdiag) ->
        stepper_delivers cfg diag.
  Proof.
    intros U clean g cs name tid cfg H Hk. unfold make_tstep in H. apply bind_ok in H. destruct H as (comp & Hcomp & H).
    apply bind_ok in H. destruct H as (inp0 & Hi0 & H). apply bind_ok in H. destruct H as (tend & Ht & H).
    apply bind_ok in H. destruct H as (outp & Ho & H). apply bind_ok in H. destruct H as (inp & Hi & H).
    apply bind_ok in H. destruct H as (diag & Hd & H). do 4 (apply bind_ok in H; destruct H as (? & _ & H)).
    apply bind_ok in H. destruct H as (? & _ & H). injection H as <-. cbn [ts_out ts_tid ts_diag ts_inp ts_name].
    exists comp. split; [exact Hcomp|].
    assert (Em : map snd (map (fun c : comp_obj T U => (true, o_props c)) cs) = map o_props cs) by (rewrite map_map; apply map_ext; reflexivity).
    rewrite Em in *.
    assert (Hc : t_tend comp = tend /\ composite_diagnostics ord g (map o_props cs) = Ok (t_diag comp)).
    { unfold make_tendency_composite in Hcomp. cbn zeta in Hcomp. rewrite Em in Hcomp.
      apply bind_ok in Hcomp. destruct Hcomp as (? & _ & Hcomp). apply bind_ok in Hcomp. destruct Hcomp as (i & _ & Hcomp).
      apply bind_ok in Hcomp. destruct Hcomp as (dg & Hdg & Hcomp). apply bind_ok in Hcomp. destruct Hcomp as (? & _ & Hcomp).
      apply bind_ok in Hcomp. destruct Hcomp as (tn & Htn & Hcomp). injection Hcomp as <-. cbn [t_tend t_diag]. split; [|exact Hdg].
      apply bind_ok in Htn. destruct Htn as (? & _ & Htn). apply bind_ok in Htn. destruct Htn as (tn' & Htn' & Htn).
      apply bind_ok in Htn. destruct Htn as (? & _ & Htn). congruence. }
    destruct Hc as (Ett & Hcd). rewrite Ett. pose proof (clean_keys _ _ _ Ho) as Eo.
    assert (Hnd : NoDup (keys tend)).
    { unfold composite_tendencies in Ht. apply bind_ok in Ht. destruct Ht as (i & _ & Ht).
      pose proof (combine_properties_spec ord Hord i (map cp_tend (map o_props cs))) as Hspec.
      assert (Etends : concat (map cp_tend (map o_props cs)) = tends cs) by (unfold tends; rewrite map_map; reflexivity).
      rewrite Etends in Hspec. specialize (Hspec Hk). rewrite Ht in Hspec. destruct Hspec as (_ & -> & _). apply dedup_NoDup. }
    split; [exact Eo|]. split; [rewrite Eo; exact Hnd|].
    unfold composite_diagnostics in Hcd. apply bind_ok in Hcd. destruct Hcd as (dd & Hdd & Hcd). apply bind_ok in Hcd. destruct Hcd as (? & _ & Hcd). injection Hcd as Edd.
    subst dd. unfold merged_diagnostics in Hdd. apply merge_fold in Hdd. unfold ts_diagnostic_properties in Hd. cbn zeta in Hd. rewrite Hdd in Hd.
    intros pdiag dg (Hk1 & Hu1) Hdiag. unfold stepper_delivers. cbn [ts_out ts_tid ts_diag ts_inp ts_name].
    destruct tid.
    - destruct Hdiag as (dt & st & new & Hw1 & Hw2). cbn [ts_out ts_tid ts_diag ts_inp ts_name] in Hw1, Hw2.
      destruct (insert_diag_get _ _ _ _ Hd) as (J1 & J2 & J3).
      split; [|split].
      + intros k. destruct (in_dec string_dec k (map (tendency_name name) (keys outp))) as [Hin|Hin].
        * apply in_map_iff in Hin. destruct Hin as (X & <- & HX). split; intros _.
          { apply J1. rewrite <- Eo. exact HX. }
          destruct (Hw1 X HX) as (_ & p & base & old & xx & d & _ & _ & _ & _ & Hd' & _). apply dget_keys. eauto.
        * assert (Hne : forall X, In X (keys outp) -> k <> tendency_name name X).
          { intros X HX ->. apply Hin. apply in_map. exact HX. }
          rewrite !dget_keys, (Hw2 k Hne), J3 by (rewrite <- Eo; exact Hne). rewrite <- !dget_keys, Hk1. cbn. tauto.
      + intros k p q Hne Hp Hq. specialize (Hne eq_refl). rewrite (Hw2 k Hne) in Hq. rewrite J3 in Hp by (rewrite <- Eo; exact Hne).
        apply (Hu1 k p q); auto.
      + intros _ X HX. destruct (Hw1 X HX) as (_ & p & base & old & xx & d & H1 & H2 & _ & _ & H3 & (_ & H4 & _)). exists p, base, d. auto.
    - injection Hd as <-. subst dg. split; [|split].
      + intros k. rewrite Hk1. cbn. tauto.
      + intros k p q _ Hp Hq. apply (Hu1 k p q); auto.
      + discriminate.
  Qed.

  (** The new state differs only in what is declared, and in the tracers. *)
  Lemma tend_names : forall {U} cfg comp (cs : list (comp_obj T U)) (tend : dict (da T)) X,
    keys (ts_out cfg) = keys (t_tend comp) -> delivers (t_tend comp) (flat_map o_tracers cs) tend ->
    (In X (keys tend) <-> In X (keys (ts_out cfg) ++ flat_map o_tracers cs)).
  Proof. intros U cfg comp cs tend X E (Hk & _). rewrite Hk, E, in_app_iff. tauto. Qed.

  Lemma latest_in : forall k pre (e : entry T) post e', In e' (latest k pre e) -> In e' (pre ++ e :: post).
  Proof.
    intros k pre e post e' H. unfold latest in H. assert (H' : In e' (e :: rev pre)) by (rewrite <- (firstn_skipn k (e :: rev pre)); apply in_or_app; auto).
    destruct H' as [<-|H']; apply in_or_app; [right; left; reflexivity|left; apply in_rev; exact H'].
  Qed.

  Lemma ab_delivers : forall {U} clean g (cs : list (comp_obj T U)) name tid cfg dt o a u log s,
    make_tstep ord clean g (map (fun c => (true, o_props c)) cs) name tid = Ok cfg -> known (tends cs) -> dictionaries cs -> apart cs ->
    new_ab o = Ok a -> history (adams_bashforth cfg (all_of cs)) (all_of cs) dt (a, u) log s -> wf_log log ->
    (forall e c, In e log -> In c cs -> keeps (e_st e) c) ->
    forall e, In e log -> stepper_delivers cfg (e_diag e) /\
      same_outside (keys (ts_out cfg) ++ flat_map o_tracers cs) (e_st e) (e_new e) /\
      forall X, In X (keys (ts_out cfg) ++ flat_map o_tracers cs) -> exists x r, dget X (e_st e) = Some (VDA x) /\ dget X (e_new e) = Some (VDA r) /\ units_of r = units_of x.
  Proof.
    intros U clean g cs name tid cfg dt o a u log s Hm Hk Hdict Hap Ha Hh Hw Hkeep e He.
    destruct (tstep_delivers clean g cs name tid cfg Hm Hk) as (comp & Hcomp & Eo & Hnd & Hdel).
    assert (Htend : forall e, In e log -> delivers (t_tend comp) (flat_map o_tracers cs) (e_tend e) /\ exists pdiag, delivers (t_diag comp) [] pdiag /\
      if ts_tid cfg then with_differences cfg dt (e_st e) (e_new e) pdiag (e_diag e) else e_diag e = pdiag).
    { intros e' He'. apply in_split in He'. destruct He' as (pre & post & E).
      destruct (main_ab_diagnostics cfg (all_of cs) dt o a u log s Ha Hh Hw Hnd pre e' post E) as (u1 & u2 & pdiag & Hp & Hd).
      assert (He' : In e' log) by (rewrite E; apply in_or_app; right; left; reflexivity).
      destruct (composite_delivers true g cs comp dt u1 u2 (e_st e') (e_tend e') pdiag Hcomp Hk Hdict Hap (fun c Hc => Hkeep e' c He' Hc) Hp) as (H1 & H2).
      eauto. }
    destruct (Htend e He) as (Ht & pdiag & Hpd & Hd). split; [|split].
    - apply (Hdel pdiag); [exact Hpd|]. destruct (ts_tid cfg); [|exact Hd]. eauto.
    - intros X HX. apply new_ab_ok in Ha. destruct Ha as (n & Hn & _ & ->). apply in_split in He. destruct He as (pre & post & E).
      apply (ab_untouched cfg (all_of cs) dt n u log s (proj1 Hn) Hh pre e post E X). intros e' He' Hin. apply HX.
      apply (tend_names cfg comp cs (e_tend e') X Eo); [|exact Hin]. apply Htend. rewrite E. eapply latest_in. exact He'.
    - intros X HX. apply new_ab_ok in Ha. destruct Ha as (n & Hn & _ & ->). apply in_split in He. destruct He as (pre & post & E).
      destruct (ab_formula_lemma cfg (all_of cs) dt n u log s (proj1 Hn) Hh Hw pre e post E X) as (x & ts & r & H1 & H2 & _ & (_ & H3 & _) & _).
      { intros e' He'. apply (tend_names cfg comp cs (e_tend e') X Eo); [|exact HX]. apply Htend. rewrite E. eapply latest_in. exact He'. }
      exists x, r. unfold units_of. rewrite H3. auto.
  Qed.

  Lemma leap_delivers : forall {U} clean g (cs : list (comp_obj T U)) name tid cfg dt nu alpha u log s,
    make_tstep ord clean g (map (fun c => (true, o_props c)) cs) name tid = Ok cfg -> known (tends cs) -> dictionaries cs -> apart cs ->
    lhistory cfg (all_of cs) dt (new_leap nu alpha, u) log s -> wf_llog log ->
    (forall e c, In e log -> In c cs -> keeps (l_st e) c) ->
    forall e, In e log -> stepper_delivers cfg (l_diag e) /\
      same_outside (keys (ts_out cfg) ++ flat_map o_tracers cs) (l_st e) (l_after e) /\
      same_outside (keys (ts_out cfg) ++ flat_map o_tracers cs) (l_st e) (l_new e) /\
      forall X, In X (keys (ts_out cfg) ++ flat_map o_tracers cs) -> exists x r, dget X (l_st e) = Some (VDA x) /\ dget X (l_new e) = Some (VDA r).
  Proof.
    intros U clean g cs name tid cfg dt nu alpha u log s Hm Hk Hdict Hap Hh Hw Hkeep e He.
    destruct (tstep_delivers clean g cs name tid cfg Hm Hk) as (comp & Hcomp & Eo & Hnd & Hdel).
    assert (Htend : delivers (t_tend comp) (flat_map o_tracers cs) (l_tend e) /\ exists pdiag, delivers (t_diag comp) [] pdiag /\
      if ts_tid cfg then with_differences cfg dt (l_after e) (l_new e) pdiag (l_diag e) else l_diag e = pdiag).
    { pose proof He as He'. apply in_split in He'. destruct He' as (pre & post & E).
      destruct (leap_diagnostics cfg (all_of cs) dt nu alpha u log s Hh Hw Hnd pre e post E) as (u1 & u2 & pdiag & Hp & Hd).
      destruct (composite_delivers true g cs comp dt u1 u2 (l_st e) (l_tend e) pdiag Hcomp Hk Hdict Hap (fun c Hc => Hkeep e c He Hc) Hp) as (H1 & H2).
      eauto. }
    destruct Htend as (Ht & pdiag & Hpd & Hd).
    pose proof (main_leap_untouched cfg (all_of cs) dt nu alpha u log s Hh Hw e) as Hunt.
    split; [|split; [|split]].
    - apply (Hdel pdiag); [exact Hpd|]. destruct (ts_tid cfg); [|exact Hd]. eauto.
    - intros X HX. apply (Hunt X He). intros Hin. apply HX. apply (tend_names cfg comp cs (l_tend e) X Eo Ht). exact Hin.
    - intros X HX. apply (Hunt X He). intros Hin. apply HX. apply (tend_names cfg comp cs (l_tend e) X Eo Ht). exact Hin.
    - intros X HX. apply (tend_names cfg comp cs (l_tend e) X Eo Ht) in HX. apply dget_keys in HX. destruct HX as (t & HX).
      destruct (main_leap_described cfg (all_of cs) dt nu alpha u log s Hh Hw) as (F1 & F2).
      apply in_split in He. destruct He as (pre & post & E). destruct pre as [|p0 pre _] using rev_ind.
      + destruct (F1 e post X t E HX) as (x & r & H1 & _ & H2 & _). eauto.
      + rewrite <- app_assoc in E. destruct (F2 pre p0 e post X t E HX) as (o & x & x' & r & _ & H1 & _ & H2 & _). eauto.
  Qed.

  Lemma rk_delivers : forall {U} clean g (cs : list (comp_obj T U)) name tid cfg z k0 u0 calls k u st dt s' diag new,
    make_tstep ord clean g (map (fun c => (true, o_props c)) cs) name tid = Ok cfg -> known (tends cs) -> dictionaries cs -> apart cs ->
    new_rk z = Ok k0 -> after (ssp_rk cfg (all_of cs)) calls (k0, u0) = (k, u) ->
    proper_components (all_of cs) -> proper_state st -> (forall c, In c cs -> keeps st c) ->
    ssp_rk cfg (all_of cs) (k, u) st dt = (s', Ok (diag, new)) -> stepper_delivers cfg diag.
  Proof.
    intros U clean g cs name tid cfg z k0 u0 calls k u st dt s' diag new Hm Hk Hdict Hap Hz Haf Hpc Hps Hkeep Hcall.
    destruct (tstep_delivers clean g cs name tid cfg Hm Hk) as (comp & Hcomp & Eo & Hnd & Hdel).
    destruct (rk_diagnostics cfg (all_of cs) z k0 u0 calls k u st dt s' diag new Hz Haf Hpc Hps Hnd Hcall) as (u1 & tend & pdiag & Hp & Hd).
    destruct (composite_delivers true g cs comp dt u u1 st tend pdiag Hcomp Hk Hdict Hap Hkeep Hp) as (H1 & H2).
    apply (Hdel pdiag); [exact H2|]. destruct (ts_tid cfg); [|exact Hd]. eauto.
  Qed.
End Facts.

(** With exact numbers SSPRungeKutta leaves the rest alone too. *)
Lemma rk_new_delivers : forall {R : Registry} ord, (forall l, NoDup l -> Permutation (ord l) l) ->
  forall {U} clean g (cs : list (comp_obj Qc U)) name tid cfg z k0 u0 calls k u st dt s' diag new,
  make_tstep ord clean g (map (fun c => (true, o_props c)) cs) name tid = Ok cfg -> known (tends cs) -> dictionaries cs -> apart cs ->
  new_rk z = Ok k0 -> after (ssp_rk cfg (all_of cs)) calls (k0, u0) = (k, u) ->
  proper_components (all_of cs) -> proper_state st -> (forall st c, In c cs -> keeps st c) ->
  ssp_rk cfg (all_of cs) (k, u) st dt = (s', Ok (diag, new)) ->
  same_outside (keys (ts_out cfg) ++ flat_map o_tracers cs) st new.
Proof.
  intros R ord Hord U clean g cs name tid cfg z k0 u0 calls k u st dt s' diag new Hm Hk Hdict Hap Hz Haf Hpc Hps Hkeep Hcall X HX.
  destruct (tstep_delivers ord Hord clean g cs name tid cfg Hm Hk) as (comp & Hcomp & Eo & _).
  eapply (main_rk_untouched cfg (all_of cs) z k0 u0 calls k u st dt s' diag new X); eauto.
  intros u1 st1 u2 tend d Hp Hin. apply HX.
  destruct (composite_delivers ord Hord true g cs comp dt u1 u2 st1 tend d Hcomp Hk Hdict Hap (Hkeep st1) Hp) as (H1 & _).
  apply (tend_names cfg comp cs tend X Eo H1). exact Hin.
Qed.

Section Instance.
  Context {T : Type} {A : Arith T} {R : Registry}.

  Lemma declared_delivers : forall (st : state T) outp inp out, as_declared st outp inp out -> delivers outp [] out.
  Proof.
    intros st outp inp out (Hk & Hc). split.
    - intros X. rewrite Hk. cbn. tauto.
    - intros X p q Hp _ Hq. destruct (Hc X q Hq) as (p' & ds & u & Hp' & _ & Hu & Hat & _). rewrite Hp in Hp'. injection Hp' as <-.
      exists u. split; [exact Hu|]. unfold units_of. rewrite Hat. reflexivity.
  Qed.

  (** A constructed component that returns proper arrays is as the theorems ask. *)
  Lemma component_keeps : forall {U} impl g g' (inp tend diag : pdict) name tid tu c
      (ac : U -> dict (rval T) -> U * res (dict (nd T) * dict (nd T))) (st : state T),
    NoDup (keys inp) -> NoDup (keys tend) -> NoDup (keys diag) -> stars_ok tend inp -> stars_ok diag inp ->
    make_tendency_component impl g inp tend diag name tid None tu = (g', Ok c) -> wf_state st ->
    (forall u u' t d, tendency_call g c ac u st = (u', Ok (t, d)) -> proper t /\ NoDup (keys d)) ->
    keeps st (mkcomp (mkcprops inp tend (t_diag c) None) [] (inr (tendency_call g c ac))).
  Proof.
    intros U impl g g' inp tend diag name tid tu c ac st H1 H2 H3 H4 H5 Hm Hw Hp dt u u' t d Hc. cbn [call_at o_call o_props o_tracers cp_tend cp_diag] in *.
    destruct (Hp _ _ _ _ Hc) as (Hp1 & Hp2). split; [exact Hp1|]. split; [exact Hp2|].
    destruct (tendency_contract impl g g' inp tend diag name tid tu c ac u u' st t d H1 H2 H3 H4 H5 Hm Hw Hc) as (D1 & D2 & _).
    split; eapply declared_delivers; eassumption.
  Qed.
End Instance.

(** Composites of diagnostic components. *)
Section Diagnostics.
  Context {T : Type} {R : Registry}.
  Variable ord : list string -> list string.

  Lemma loop_runs : forall {U} (st : state T) (cs : list (dcaller U)) u u' acc d, diagnostic_loop cs u st acc = (u', Ok d) ->
    exists outs, runs st cs u u' outs.
  Proof.
    intros U st cs. induction cs as [|c cs IH]; intros u u' acc d H; cbn [diagnostic_loop] in H; [injection H as <- _; exists []; constructor|].
    destruct (c u st) as (u1, [o|?]) eqn:Ec; cbn [bind] in H; [|discriminate].
    destruct (ensure_no_shared_keys acc o); cbn [bind] in H; [|discriminate].
    destruct (IH _ _ _ _ H) as (outs & Ho). exists (o :: outs). econstructor; eassumption.
  Qed.

  Lemma dcomposite_delivers : forall {U} g (cs : list (cprops * dcaller (T:=T) U)) c u (st : state T),
    make_diagnostic_composite ord g (map (fun x => (true, fst x)) cs) = Ok c ->
    (forall x, In x cs -> NoDup (keys (cp_diag (fst x)))) ->
    (forall x u u' o, In x cs -> snd x u st = (u', Ok o) -> NoDup (keys o) /\ delivers (cp_diag (fst x)) [] o) ->
    (forall u' d, diagnostic_composite_call (map snd cs) u st = (u', Ok d) -> delivers (d_diag c) [] d) /\
    forall u' outs, runs st (map snd cs) u u' outs -> exists d, diagnostic_composite_call (map snd cs) u st = (u', Ok d).
  Proof.
    intros U g cs c u st Hm Hn Hk.
    assert (Em : map snd (map (fun x : cprops * dcaller U => (true, fst x)) cs) = map fst cs) by (rewrite map_map; apply map_ext; reflexivity).
    assert (Hn' : forall c, In c (map (fun x : cprops * dcaller U => (true, fst x)) cs) -> NoDup (keys (cp_diag (snd c)))).
    { intros x Hx. apply in_map_iff in Hx. destruct Hx as (y & <- & Hy). apply Hn. exact Hy. }
    destruct (diagnostic_construction_union ord g _ c Hn' Hm) as (Hs & Hu). rewrite Em in Hs, Hu.
    assert (HF : forall u u' outs, runs st (map snd cs) u u' outs ->
      Forall2 (fun d o => NoDup (keys o) /\ delivers d [] o) (map cp_diag (map fst cs)) outs).
    { clear - Hk. induction cs as [|x cs IH]; intros u u' outs H; inversion H; subst; cbn [map]; constructor.
      - eapply Hk; [left; reflexivity|eassumption].
      - eapply IH; [|eassumption]. intros y v v' o Hy. apply Hk. right. exact Hy. }
    assert (Hruns : forall u' outs, runs st (map snd cs) u u' outs -> exists d, diagnostic_composite_call (map snd cs) u st = (u', Ok d) /\ union_of outs d).
    { intros u' outs Hr. pose proof (HF _ _ _ Hr) as F.
      destruct (diagnostic_call_spec (map snd cs) st u u' outs Hr) as [(_ & H)|((k & Hsk) & _)]; [| exact H |].
      - intros d Hd. destruct (Forall2_in_r _ _ _ d F Hd) as (e & _ & He & _). exact He.
      - exfalso. apply (Hs k). revert Hsk. clear - F. intros (l1 & d1 & l2 & d2 & l3 & -> & H1 & H2).
        apply Forall2_app_inv_r in F. destruct F as (m1 & m2 & F1 & F2 & ->). inversion F2 as [|e1 ? m3 ? (_ & (K1 & _)) F3]; subst.
        apply Forall2_app_inv_r in F3. destruct F3 as (m4 & m5 & F4 & F5 & ->). inversion F5 as [|e2 ? m6 ? (_ & (K2 & _)) F6]; subst.
        exists m1, e1, m4, e2, m6. split; [reflexivity|]. apply K1 in H1. apply K2 in H2. destruct H1 as [H1|[]]. destruct H2 as [H2|[]]. auto. }
    split.
    - intros u' d H. destruct (loop_runs _ _ _ _ _ _ H) as (outs & Hr). destruct (Hruns _ _ Hr) as (d' & Hd' & Hud). rewrite H in Hd'. injection Hd' as <-.
      pose proof (HF _ _ _ Hr) as F. apply (union_delivers (map cp_diag (map fst cs)) outs); auto.
      clear - F. induction F as [|e o l l' (_ & H) F IH]; constructor; auto.
    - intros u' outs Hr. destruct (Hruns _ _ Hr) as (d & Hd & _). eauto.
  Qed.
End Diagnostics.
