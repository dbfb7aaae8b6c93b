(** What composites and time steppers declare (C92). *)
From Coq Require Import String List Bool Arith ZArith Permutation Lia.
From Verif Require Import Prelude PreludeFacts ArithM NdArray Units DataArrayM Wildcard GetNp Restore Tracers Components Composite SpecComposite SpecNested CombineFacts CompositeMain Steppers
  ComponentFacts SpecReturns ReturnsFacts SpecDeclares.
Import ListNotations.
Open Scope string_scope.
Open Scope nat_scope.
Open Scope list_scope.

Section Declares.
  Context {R : Registry}.
  Variable ord : list string -> list string.
  Hypothesis Hord : forall l, NoDup l -> Permutation (ord l) l.

  Lemma input_dicts_concat : forall g cs l, input_dicts g cs = Ok l -> concat l = declared_inputs g cs.
  Proof.
    intros g cs l H. unfold input_dicts in H. apply bind_ok in H as (ls & H & E). injection E as <-. unfold declared_inputs.
    revert ls H. induction cs as [|c cs IH]; intros ls H; cbn [mapM] in H; [injection H as <-; reflexivity|].
    apply bind_ok in H as (x & Hx & H). apply bind_ok in H as (xs & Hxs & H). injection H as <-. cbn [map concat]. rewrite concat_app, (IH _ Hxs). f_equal.
    destruct (cp_tracers c) as [[prep ds]|]; [destruct (mem "tracer" ds); [|discriminate]|]; injection Hx as <-; cbn [concat]; rewrite ?app_nil_r; reflexivity.
  Qed.

  Lemma combine_is : forall pds inp r, known (concat pds) -> combine_properties ord pds inp = Ok r -> combination inp (concat pds) r.
  Proof.
    intros pds inp r Hk H. pose proof (combine_properties_spec ord Hord inp pds Hk) as S. rewrite H in S. destruct S as (_ & S1 & S2). split; assumption.
  Qed.

  Lemma composite_parts : forall implicit g cs c, make_tendency_composite ord implicit g cs = Ok c ->
    composite_inputs ord g (map snd cs) = Ok (t_inp c) /\ composite_tendencies ord g (map snd cs) = Ok (t_tend c) /\ composite_diagnostics ord g (map snd cs) = Ok (t_diag c).
  Proof.
    intros implicit g cs c H. unfold make_tendency_composite in H. apply bind_ok in H as (_ & _ & H). apply bind_ok in H as (inp & Hi & H).
    apply bind_ok in H as (diag & Hd & H). apply bind_ok in H as (_ & _ & H). apply bind_ok in H as (tend & Ht & H). injection H as <-. cbn [t_inp t_tend t_diag].
    split; [exact Hi|]. split; [|exact Hd]. destruct implicit.
    - apply bind_ok in Ht as (_ & _ & Ht). apply bind_ok in Ht as (t & Ht & E). apply bind_ok in E as (_ & _ & E). congruence.
    - apply bind_ok in Ht as (t & Ht & E). apply bind_ok in E as (_ & _ & E). apply bind_ok in E as (_ & _ & E). congruence.
  Qed.

  Theorem main_composite_declares : forall implicit g cs c, make_tendency_composite ord implicit g cs = Ok c ->
    known (declared_inputs g (map snd cs)) -> known (declared_tendencies (map snd cs)) -> (forall x, In x cs -> NoDup (keys (cp_diag (snd x)))) ->
    combination [] (declared_inputs g (map snd cs)) (t_inp c) /\ combination (t_inp c) (declared_tendencies (map snd cs)) (t_tend c) /\
    diagnostics_from (t_inp c) false "" (map snd cs) (t_diag c).
  Proof.
    intros implicit g cs c H Ki Kt Hd. destruct (composite_parts _ _ _ _ H) as (H1 & H2 & _). split; [|split].
    - unfold composite_inputs in H1. apply bind_ok in H1 as (l & Hl & H1). rewrite <- (input_dicts_concat _ _ _ Hl) in *. apply combine_is; assumption.
    - unfold composite_tendencies in H2. apply bind_ok in H2 as (inp & Hi & H2). assert (inp = t_inp c) as -> by congruence. apply combine_is; assumption.
    - destruct (tendency_construction_union ord implicit g cs c Hd H) as [_ U]. split; [|discriminate]. intros k p _. rewrite (U k p). split.
      + intros (e & He & Hg). apply in_map_iff in He as (x & <- & Hx). eauto.
      + intros (x & Hx & Hg). exists (cp_diag x). split; [apply in_map; exact Hx|exact Hg].
  Qed.

  Theorem main_diagnostic_declares : forall g cs c, make_diagnostic_composite ord g cs = Ok c ->
    known (declared_inputs g (map snd cs)) -> (forall x, In x cs -> NoDup (keys (cp_diag (snd x)))) ->
    combination [] (declared_inputs g (map snd cs)) (d_inp c) /\ diagnostics_from (d_inp c) false "" (map snd cs) (d_diag c).
  Proof.
    intros g cs c H Ki Hd. split.
    - unfold make_diagnostic_composite in H. apply bind_ok in H as (_ & _ & H). apply bind_ok in H as (inp & Hi & H).
      apply bind_ok in H as (diag & _ & H). apply bind_ok in H as (_ & _ & H). apply bind_ok in H as (_ & _ & H). injection H as <-. cbn [d_inp].
      unfold composite_inputs in Hi. apply bind_ok in Hi as (l & Hl & Hi). rewrite <- (input_dicts_concat _ _ _ Hl) in *. apply combine_is; assumption.
    - destruct (diagnostic_construction_union ord g cs c Hd H) as [_ U]. split; [|discriminate]. intros k p _. rewrite (U k p). split.
      + intros (e & He & Hg). apply in_map_iff in He as (x & <- & Hx). eauto.
      + intros (x & Hx & Hg). exists (cp_diag x). split; [apply in_map; exact Hx|exact Hg].
  Qed.

  Lemma clean_get : forall clean tend outp, ts_output_properties clean tend = Ok outp ->
    forall X r, dget X tend = Some r -> exists u u', p_units r = Some u /\ clean (u ++ " s")%string = Ok u' /\
      dget X outp = Some (mkprops (p_dims r) (p_tuple r) (Some u') (p_alias r) (p_tracer r)).
  Proof.
    intros clean tend. unfold ts_output_properties. induction tend as [|[k p] tend IH]; intros outp H X r Hr; cbn [mapM] in H; [discriminate|].
    apply bind_ok in H as (x & Hx & H). apply bind_ok in H as (l & Hl & H). injection H as <-. unfold clean_output in Hx.
    destruct (p_units p) as [u|] eqn:Eu; [|discriminate]. apply bind_ok in Hx as (u' & Hu & Hx). injection Hx as <-. cbn [dget] in *.
    destruct (String.eqb X k) eqn:E; [|apply (IH _ Hl X r Hr)]. injection Hr as <-. exists u, u'. auto.
  Qed.

  Lemma insert_diag_at : forall comp tend d d', foldM (ts_insert_diag comp) tend d = Ok d' -> NoDup (keys tend) ->
    forall X r, dget X tend = Some r -> exists e, dget (X ++ "_tendency_from_" ++ comp)%string d' = Some e /\
      p_units e = p_units r /\ p_dims e = p_dims r /\ p_alias e = None /\ p_tracer e = false.
  Proof.
    intros comp tend. induction tend as [|[Y q] tend IH]; intros d d' H Hn X r Hr; cbn [foldM] in H; [discriminate|].
    apply bind_ok in H as (d1 & H1 & H). simpl in Hn. inversion Hn as [|? ? Hni Hn']; subst.
    cbn [dget] in Hr. destruct (String.eqb_spec X Y) as [->|Hne]; [|apply (IH _ _ H Hn' X r Hr)]. injection Hr as <-.
    unfold ts_insert_diag in H1. cbn [fst snd] in H1. destruct (p_units q) as [u|] eqn:Eu; [|discriminate]. destruct (p_dims q) as [ds|] eqn:Ed; [|discriminate].
    injection H1 as <-. destruct (insert_diag_get _ _ _ _ H) as (_ & _ & K).
    change (Y ++ "_tendency_from_" ++ comp)%string with (tendency_name comp Y). rewrite K; [rewrite dget_dset_eq; eexists; split; [reflexivity|]; auto|].
    intros Z HZ E. apply tendency_name_inj in E. subst Z. apply Hni. exact HZ.
  Qed.

  Theorem main_stepper_declares : forall clean g cs name tid cfg, make_tstep ord clean g cs name tid = Ok cfg ->
    known (declared_inputs g (map snd cs)) -> known (declared_tendencies (map snd cs)) -> (forall x, In x cs -> NoDup (keys (cp_diag (snd x)))) ->
    ts_tid cfg = tid /\ ts_name cfg = name /\
    exists inp, combination [] (declared_inputs g (map snd cs)) inp /\ outputs_from clean inp (declared_tendencies (map snd cs)) (ts_out cfg) /\
      diagnostics_from inp tid name (map snd cs) (ts_diag cfg) /\ (known (inp ++ ts_out cfg) -> inputs_from inp (ts_out cfg) (ts_inp cfg)).
  Proof.
    intros clean g cs name tid cfg H Ki Kt Hdn. unfold make_tstep in H. apply bind_ok in H as (comp & Hcomp & H).
    apply bind_ok in H as (inp0 & Hi0 & H). apply bind_ok in H as (tend & Ht & H). apply bind_ok in H as (outp & Ho & H).
    apply bind_ok in H as (inp & Hi & H). apply bind_ok in H as (diag & Hd & H). do 5 (apply bind_ok in H as (? & _ & H)).
    injection H as <-. cbn [ts_tid ts_name ts_out ts_diag ts_inp]. split; [reflexivity|]. split; [reflexivity|]. exists inp0.
    destruct (composite_parts _ _ _ _ Hcomp) as (P1 & P2 & P3). assert (E1 : t_inp comp = inp0) by congruence. assert (E2 : t_tend comp = tend) by congruence.
    destruct (main_composite_declares _ _ _ _ Hcomp Ki Kt Hdn) as (C1 & C2 & C3). rewrite E1 in *. rewrite E2 in *.
    assert (Nt : NoDup (keys tend)) by (destruct C2 as [-> _]; apply dedup_NoDup).
    assert (Ent : forall X p0 rest, entries X (declared_tendencies (map snd cs)) = p0 :: rest -> exists r, dget X tend = Some r /\ combined_entry inp0 X p0 rest r).
    { intros X p0 rest E. destruct C2 as [_ C2]. specialize (C2 X). rewrite E in C2. exact C2. }
    split; [exact C1|]. split; [|split].
    - split; [rewrite (clean_keys _ _ _ Ho); apply C2|]. intros X p0 rest E. destruct (Ent X p0 rest E) as (r & Hr & Hc).
      destruct (clean_get _ _ _ Ho X r Hr) as (u & u' & Hu & Hcl & Hg). exists r, u, u'. pose proof Hc as (U1 & U2 & U3 & _).
      split; [exact Hc|]. split; [congruence|]. split; [exact Hcl|]. rewrite Hg. congruence.
    - unfold ts_diagnostic_properties in Hd. cbn zeta in Hd.
      assert (Ed : fold_left (fun acc c => dupdate acc (cp_diag c)) (map snd cs) [] = t_diag comp).
      { unfold composite_diagnostics in P3. apply bind_ok in P3 as (dd & Hdd & P3). apply bind_ok in P3 as (_ & _ & P3). injection P3 as <-. apply merge_fold. exact Hdd. }
      rewrite Ed in Hd. destruct C3 as [C3 _]. destruct tid.
      + destruct (insert_diag_get _ _ _ _ Hd) as (_ & _ & J). split.
        * intros k p Hk. rewrite J; [apply C3; discriminate|]. intros X HX. apply Hk; [reflexivity|]. destruct C2 as [C2 _]. rewrite C2 in HX. apply (proj1 (dedup_In _ _)) in HX. exact HX.
        * intros _ X p0 rest E. destruct (Ent X p0 rest E) as (r & Hr & Hc). destruct (insert_diag_at _ _ _ _ Hd Nt X r Hr) as (e & G1 & G2 & G3 & G4 & G5).
          exists r, e. split; [exact Hc|]. split; [exact G1|]. split; [rewrite G2; apply Hc|]. auto.
      + injection Hd as <-. split; [|discriminate]. intros k p _. apply C3. discriminate.
    - intros Kio. unfold inputs_from. pose proof (combine_is [inp0; outp] [] inp) as K. cbn [concat] in K. rewrite app_nil_r in K. apply K; assumption.
  Qed.
End Declares.
