(** Lemmas about the constant components (C64). *)
From Coq Require Import String List Bool Arith ZArith QArith Lia.
From Verif Require Import Prelude PreludeFacts ArithM NdArray NdFacts Units DataArrayM Wildcard GetNp Restore Tracers Components Basic
  SpecDa SpecBasic RestoreFacts TidFacts BasicFacts.
Import ListNotations.
Open Scope string_scope.
Open Scope nat_scope.
Open Scope list_scope.

Section Const.
  Context {T : Type} {A : Arith T} {R : Registry}.

  Definition cprops (na : string * da T) : string * props :=
    (fst na, mkprops (Some (dims (snd na))) true (units_of (snd na)) None false).

  Definition stripped (na : string * da T) : string * da T :=
    (fst na, mkda (dims (snd na)) (arr (snd na)) [("units", match units_of (snd na) with Some u => u | None => "" end)]).

  Lemma constant_properties_ok : forall d : dict (da T), (forall X a, In (X, a) d -> exists u, units_of a = Some u) ->
    constant_properties d = Ok (map cprops d).
  Proof.
    unfold constant_properties. induction d as [|[n a] d IH]; intros H; [reflexivity|]. cbn [mapM map fst snd].
    destruct (H n a (or_introl eq_refl)) as (u & Hu). unfold units_of in Hu.
    assert (Hg : dgetE "units" (attrs a) = Ok u) by (unfold dgetE; rewrite Hu; reflexivity). rewrite Hg. cbn [bind].
    rewrite IH by (intros X b Hi; apply (H X b); right; auto). cbn [bind]. unfold cprops at 2. cbn [fst snd]. unfold units_of. rewrite Hu. reflexivity.
  Qed.

  Lemma constant_properties_err : forall d : dict (da T), (exists X a, In (X, a) d /\ units_of a = None) ->
    constant_properties d = Err EKey.
  Proof.
    unfold constant_properties. induction d as [|[n a] d IH]; intros (X & b & Hi & Hb); [destruct Hi|]. cbn [mapM fst snd].
    destruct (dget "units" (attrs a)) as [u|] eqn:Hu.
    2:{ assert (Hg : dgetE "units" (attrs a) = Err EKey) by (unfold dgetE; rewrite Hu; reflexivity). rewrite Hg. reflexivity. }
    assert (Hg : dgetE "units" (attrs a) = Ok u) by (unfold dgetE; rewrite Hu; reflexivity). rewrite Hg. cbn [bind].
    destruct Hi as [E|Hi]; [injection E as -> ->; unfold units_of in Hb; congruence|]. rewrite IH; [reflexivity|eauto].
  Qed.

  Lemma keys_cprops : forall d : dict (da T), keys (map cprops d) = keys d.
  Proof. intros d. unfold keys. rewrite map_map. reflexivity. Qed.

  Lemma dget_cprops : forall (d : dict (da T)) k a, dget k d = Some a ->
    dget k (map cprops d) = Some (mkprops (Some (dims a)) true (units_of a) None false).
  Proof.
    induction d as [|[n b] d IH]; intros k a H; [discriminate H|]. cbn [map cprops dget fst snd] in *.
    destruct (String.eqb k n); auto. injection H as ->. reflexivity.
  Qed.

  Lemma dget_arrays : forall (d : dict (da T)) k a, dget k d = Some a -> dget k (constant_arrays d) = Some (arr a).
  Proof.
    induction d as [|[n b] d IH]; intros k a H; [discriminate H|]. unfold constant_arrays in *. cbn [map dget fst snd] in *.
    destruct (String.eqb k n); auto. injection H as ->. reflexivity.
  Qed.

  Lemma extract_fold : forall (d : dict (da T)) acc, NoDup (keys acc ++ keys d) ->
    foldM (extract_dims_step [] []) (map cprops d) acc = Ok (acc ++ map (fun na => (fst na, dims (snd na))) d).
  Proof.
    induction d as [|[n a] d IH]; intros acc H; [cbn; rewrite app_nil_r; reflexivity|].
    cbn [map foldM fst snd].
    change (cprops (n, a)) with (n, mkprops (Some (dims a)) true (units_of a) None false).
    unfold extract_dims_step at 1. cbn [fst snd mem existsb p_dims bind].
    assert (Hni : ~ In n (keys acc)).
    { intros Hi. cbn [keys map fst] in H. apply NoDup_remove_2 in H. apply H. apply in_or_app; auto. }
    rewrite (dset_absent n (dims a) acc Hni), IH.
    - rewrite <- app_assoc. reflexivity.
    - unfold keys in *. rewrite map_app, <- app_assoc. exact H.
  Qed.

  Lemma restore_fold : forall (full d : dict (da T)) out, NoDup (keys full) ->
    (forall n a, In (n, a) d -> In (n, a) full /\ wf_da a /\ ~ In "*" (dims a) /\ exists u, units_of a = Some u) ->
    NoDup (keys out ++ keys d) ->
    foldM (restore_step (constant_arrays full) (map cprops full) [] None []) (map (fun na => (fst na, dims (snd na))) d) ([], out)
    = Ok ([], out ++ map stripped d).
  Proof.
    intros full d. induction d as [|[n a] d IH]; intros out Hf Ha Hn; [cbn; rewrite app_nil_r; reflexivity|].
    cbn [map foldM fst snd]. destruct (Ha n a (or_introl eq_refl)) as (Hi & Hw & Hs & u & Hu).
    assert (Hg : dget n full = Some a) by (apply dget_NoDup_In; auto).
    unfold restore_step at 1. cbn [mem existsb]. unfold get_alias_or_name. unfold dgetE.
    rewrite (dget_cprops _ _ _ Hg). cbn [bind p_alias dget]. rewrite (proj2 (mem_false "*" (dims a)) Hs).
    rewrite (dget_arrays _ _ _ Hg). cbn [bind].
    rewrite check_array_shape_succeeds; [|apply Hw|intros ? ? ? _ E; discriminate E]. cbn [bind p_units]. rewrite Hu. cbn [bind].
    unfold create_quantity. rewrite (proj2 (Nat.eqb_eq _ _) (proj1 Hw)). cbn [bind].
    assert (Hni : ~ In n (keys out)).
    { intros Hk. cbn [keys map fst] in Hn. apply NoDup_remove_2 in Hn. apply Hn. apply in_or_app; auto. }
    rewrite (dset_absent n _ out Hni), IH; auto.
    - rewrite <- app_assoc. cbn [app]. change (stripped (n, a)) with (n, mkda (dims a) (arr a) [("units", match units_of a with Some u => u | None => "" end)]). rewrite Hu. reflexivity.
    - intros n' a' Hi'. apply Ha. right; auto.
    - unfold keys in *. rewrite map_app, <- app_assoc. exact Hn.
  Qed.

  Lemma restore_constants : forall (d : dict (da T)) (st : state T), constants d ->
    restore_data_arrays_with_properties (constant_arrays d) (map cprops d) st [] [] false = Ok (map stripped d).
  Proof.
    intros d st [Hn Ha]. unfold restore_data_arrays_with_properties.
    assert (Hw : get_wildcard_matches_and_dim_lengths st [] = Ok (None, [])) by reflexivity.
    rewrite Hw. cbn [bind]. unfold extract_output_dims_properties. rewrite extract_fold by auto. cbn [bind app].
    rewrite restore_fold; auto. intros n a Hi. split; auto. apply (Ha n a Hi).
  Qed.

  Lemma check_constants : forall d : dict (da T), check_outputs (map cprops d) [] [] (constant_arrays d) = Ok tt.
  Proof.
    intros d. unfold check_outputs, check_missing, check_extra.
    assert (E1 : existsb (fun np : string * props => negb (dmem (fst np) (constant_arrays d)) && negb (mem (fst np) []) &&
               negb (existsb (fun al => dmem al (constant_arrays d)) (wanted_aliases [] np))) (map cprops d) = false).
    { apply Bool.not_true_is_false. intros H. apply existsb_exists in H as (np & Hi & H). apply in_map_iff in Hi as ([n a] & <- & Hi).
      cbn [cprops fst snd] in H. apply andb_true_iff in H as [H _]. apply andb_true_iff in H as [H _]. apply negb_true_iff in H.
      assert (Hk : In n (keys (constant_arrays d))).
      { unfold keys, constant_arrays. rewrite map_map. cbn [fst]. apply in_map_iff. exists (n, a). auto. }
      apply In_keys_dget in Hk as (v & Hv). unfold dmem in H. rewrite Hv in H. discriminate H. }
    rewrite E1. cbn [raise_if bind].
    match goal with |- raise_if ?b _ = _ => assert (E2 : b = false) end.
    { apply Bool.not_true_is_false. intros H. apply existsb_exists in H as (k & Hi & H). apply negb_true_iff in H. apply mem_false in H.
      apply H. apply in_or_app. left. rewrite keys_cprops. unfold keys, constant_arrays in Hi. rewrite map_map in Hi. exact Hi. }
    rewrite E2. reflexivity.
  Qed.

  Lemma check_out_entries : forall d : dict (da T), (forall X a, In (X, a) d -> exists u, units_of a = Some u) ->
    check_output_entries (map cprops d) [] = Ok tt /\ check_overlapping_aliases (map cprops d) = Ok tt.
  Proof.
    intros d H. unfold check_output_entries, check_overlapping_aliases.
    assert (G : forall (d : dict (da T)) seen, foldM (fun (seen : list string) (np : string * props) =>
                     match p_alias (snd np) with
                     | Some al => if mem al seen then Err EInvalidProps else Ok (al :: seen)
                     | None => Ok seen
                     end) (map cprops d) seen = Ok seen).
    { induction d0 as [|[n a] d0 IH]; intros seen; [reflexivity|]. cbn [map foldM].
      change (cprops (n, a)) with (n, mkprops (Some (dims a)) true (units_of a) None false). cbn [snd p_alias bind]. apply IH. }
    rewrite G. cbn [bind]. split; auto. induction d as [|[n a] d IH]; [reflexivity|].
    cbn [map foldM].
    change (cprops (n, a)) with (n, mkprops (Some (dims a)) true (units_of a) None false).
    cbn [fst snd p_units p_dims]. destruct (H n a (or_introl eq_refl)) as (u & ->). cbn [bind].
    apply IH. intros X b Hi. apply (H X b). right; auto.
  Qed.

  Definition const_comp (tend diag : dict (da T)) (name : string) : tcomp :=
    mktcomp true [] (map cprops tend) (map cprops diag) name false [] None "s^-1".

  Definition with_units (d : dict (da T)) : Prop := forall X a, In (X, a) d -> exists u, units_of a = Some u.

  Lemma new_constant_ok : forall (tend diag : dict (da T)) name, with_units tend -> with_units diag ->
    new_constant_tendency tend diag name false = Ok (const_comp tend diag name).
  Proof.
    intros tend diag name Ht Hd. unfold new_constant_tendency. rewrite (constant_properties_ok tend Ht), (constant_properties_ok diag Hd).
    cbn [bind]. unfold make_tendency_component. cbn [make_packer].
    assert (E1 : check_tendency_properties (map cprops tend) [] = Ok tt).
    { unfold check_tendency_properties. destruct (check_out_entries tend Ht) as [-> ->]. reflexivity. }
    assert (E2 : check_diagnostic_properties (map cprops diag) [] = Ok tt).
    { unfold check_diagnostic_properties. destruct (check_out_entries diag Hd) as [-> ->]. reflexivity. }
    cbn [check_input_properties foldM bind check_overlapping_aliases]. rewrite E1. cbn [bind]. rewrite E2. reflexivity.
  Qed.

  Lemma constants_units : forall d : dict (da T), constants d -> with_units d.
  Proof. intros d [_ H] X a Hi. apply (H X a Hi). Qed.

  Lemma constant_call : forall (tend diag : dict (da T)) name (st : state T), constants tend -> constants diag ->
    constant_tendency_call (const_comp tend diag name) tend diag st =
    match dget "time" st with Some _ => Ok (map stripped tend, map stripped diag) | None => Err EKey end.
  Proof.
    intros tend diag name st Ht Hd. unfold constant_tendency_call, tendency_call.
    cbn [t_init const_comp negb raise_if bind t_inp t_packer].
    destruct (dget "time" st) as [t|] eqn:Et.
    - rewrite (proj2 (raw_state_none empty_treg [] st (dset "time" (RTime t) []))).
      2:{ exists [], t. repeat split; auto. }
      cbn [snd]. cbn [bind]. unfold tendency_finish. cbn [fst snd t_packer t_tend t_diag t_inp t_added t_tid const_comp unpack_tracers bind].
      rewrite (check_constants tend). cbn [bind]. rewrite (check_constants diag). cbn [bind].
      rewrite (restore_constants tend st Ht). cbn [bind]. rewrite (restore_constants diag st Hd). cbn [bind].
      rewrite dupdate_nil; [reflexivity|]. unfold keys. rewrite map_map. apply Ht.
    - unfold raw_state. cbn [check_inputs foldM bind]. unfold dgetE. rewrite Et. reflexivity.
  Qed.

  Lemma stripped_same : forall d : dict (da T), constants d ->
    keys (map stripped d) = keys d /\ forall X a, dget X d = Some a -> exists b, dget X (map stripped d) = Some b /\ same_units_values a b.
  Proof.
    intros d [_ H]. split. { unfold keys. rewrite map_map. reflexivity. }
    induction d as [|[n a] d IH]; intros X b Hb; [discriminate Hb|]. cbn [map stripped dget fst snd] in *.
    destruct (String.eqb X n).
    - injection Hb as ->. eexists. split; [reflexivity|]. destruct (H n b (or_introl eq_refl)) as (_ & _ & u & Hu).
      unfold same_units_values. cbn [dims arr attrs]. rewrite Hu. eauto.
    - apply IH; auto. intros Y c Hi. apply (H Y c). right; auto.
  Qed.

  Lemma main_constant_tendency : forall (tend diag : dict (da T)) name c, constants tend -> constants diag ->
    new_constant_tendency tend diag name false = Ok c ->
    forall st : state T,
    (dget "time" st = None -> constant_tendency_call c tend diag st = Err EKey) /\
    (dget "time" st <> None -> exists tout dout, constant_tendency_call c tend diag st = Ok (tout, dout) /\
       keys tout = keys tend /\ keys dout = keys diag /\
       (forall X a, dget X tend = Some a -> exists b, dget X tout = Some b /\ same_units_values a b) /\
       (forall X a, dget X diag = Some a -> exists b, dget X dout = Some b /\ same_units_values a b)).
  Proof.
    intros tend diag name c Ht Hd Hn st. rewrite new_constant_ok in Hn by (apply constants_units; auto). injection Hn as <-.
    rewrite constant_call by auto. destruct (stripped_same tend Ht) as [K1 G1]. destruct (stripped_same diag Hd) as [K2 G2].
    destruct (dget "time" st).
    - split; [discriminate|]. intros _. exists (map stripped tend), (map stripped diag). auto.
    - split; auto. congruence.
  Qed.

  Lemma main_new_constant_tendency : forall (tend diag : dict (da T)) name,
    ((forall X a, In (X, a) (tend ++ diag) -> exists u, units_of a = Some u) -> exists c, new_constant_tendency tend diag name false = Ok c) /\
    ((exists X a, In (X, a) (tend ++ diag) /\ units_of a = None) -> new_constant_tendency tend diag name false = Err EKey).
  Proof.
    intros tend diag name. split.
    - intros H. eexists. apply new_constant_ok; intros X a Hi; apply (H X a), in_or_app; auto.
    - intros (X & a & Hi & Ha). unfold new_constant_tendency.
      destruct (constant_properties tend) as [tp|e] eqn:E.
      + cbn [bind]. apply in_app_or in Hi as [Hi|Hi].
        * rewrite constant_properties_err in E; [discriminate E|eauto].
        * rewrite (constant_properties_err diag); [reflexivity|eauto].
      + cbn [bind]. f_equal. clear - E. unfold constant_properties in E. induction tend as [|[n b] tend IH]; [discriminate E|].
        cbn [mapM fst snd] in E. destruct (dgetE "units" (attrs b)) as [u|e'] eqn:Hg; cbn [bind] in E.
        2:{ unfold dgetE in Hg. destruct (dget "units" (attrs b)); congruence. }
        match type of E with (let* _ := ?m in _) = _ => destruct m eqn:E' end; cbn [bind] in E; [discriminate E|].
        apply IH. rewrite <- E'. congruence.
  Qed.

  Lemma main_constant_diagnostic : forall (diag : dict (da T)) c, constants diag ->
    new_constant_diagnostic diag = Ok c ->
    forall st : state T,
    (dget "time" st = None -> constant_diagnostic_call c diag st = Err EKey) /\
    (dget "time" st <> None -> exists dout, constant_diagnostic_call c diag st = Ok dout /\ keys dout = keys diag /\
       (forall X a, dget X diag = Some a -> exists b, dget X dout = Some b /\ same_units_values a b)).
  Proof.
    intros diag c Hd Hn st. unfold new_constant_diagnostic in Hn. rewrite (constant_properties_ok diag (constants_units diag Hd)) in Hn.
    cbn [bind] in Hn. unfold make_diagnostic_component, check_diagnostic_properties in Hn.
    cbn [check_input_properties foldM bind check_overlapping_aliases] in Hn.
    destruct (check_out_entries diag (constants_units diag Hd)) as [E1 E2]. rewrite E1 in Hn. cbn [bind check_compatible foldM] in Hn.
    rewrite E2 in Hn. cbn [bind] in Hn. injection Hn as <-.
    unfold constant_diagnostic_call, diagnostic_call. cbn [d_init d_inp negb raise_if bind].
    destruct (stripped_same diag Hd) as [K2 G2].
    destruct (dget "time" st) as [t|] eqn:Et.
    - split; [discriminate|]. intros _. exists (map stripped diag). split; auto.
      rewrite (proj2 (raw_state_none empty_treg [] st (dset "time" (RTime t) []))).
      2:{ exists [], t. repeat split; auto. }
      cbn [snd bind]. unfold diagnostic_finish. cbn [d_diag d_inp]. rewrite (check_constants diag). cbn [bind]. apply restore_constants; auto.
    - split; [|congruence]. intros _. unfold raw_state. cbn [check_inputs foldM bind]. unfold dgetE. rewrite Et. reflexivity.
  Qed.
End Const.
