(** Lemmas about construction and calls of components (Components.v). *)
From Coq Require Import String List Bool Arith ZArith QArith Lia.
From Verif Require Import Prelude PreludeFacts ArithM NdArray NdFacts Units DataArrayM Wildcard GetNp Restore
  SpecArrays ExtractFacts RestoreFacts RoundTripFacts UnitsFacts Tracers SpecComponents Components CheckerFacts.
Import ListNotations.
Open Scope string_scope.
Open Scope nat_scope.
Open Scope list_scope.

(** ** Names of tendency diagnostics *)

Lemma append_length : forall a b : string, String.length (a ++ b)%string = String.length a + String.length b.
Proof. induction a as [|x a IH]; intros b; simpl; auto. Qed.

Lemma append_cancel_r : forall a b s : string, (a ++ s)%string = (b ++ s)%string -> a = b.
Proof.
  induction a as [|x a IH]; intros [|y b] s H; auto.
  - exfalso. apply (f_equal String.length) in H. rewrite !append_length in H. simpl in H. lia.
  - exfalso. apply (f_equal String.length) in H. rewrite !append_length in H. simpl in H. lia.
  - simpl in H. injection H as -> H. f_equal. eapply IH; eauto.
Qed.

Lemma tendency_name_inj : forall comp a b, tendency_name comp a = tendency_name comp b -> a = b.
Proof. unfold tendency_name. intros comp a b H. eapply append_cancel_r; eauto. Qed.

(** ** Insertion of tendency properties *)

(** The entry inserted for an output declared with dims [ds] and units [u]. *)
Definition inserted (p : props) (ds : list string) (u : string) : Prop :=
  p_dims p = Some ds /\ p_units p = Some u /\ p_alias p = None.

Lemma insert_spec : forall comp (inp tend diag : pdict) added,
  (forall name p, In (name, p) tend -> (exists u, p_units p = Some u) /\
     exists ds, p_dims p = Some ds \/ p_dims p = None /\ exists q, dget name inp = Some q /\ p_dims q = Some ds) ->
  NoDup (keys tend) -> NoDup (keys diag) ->
  exists diag', foldM (insert_tendency_step comp inp) tend (diag, added) = Ok (diag', added ++ map (tendency_name comp) (keys tend)) /\
    NoDup (keys diag') /\
    (forall k, In k (keys diag') <-> In k (keys diag) \/ In k (map (tendency_name comp) (keys tend))) /\
    (forall k, ~ In k (map (tendency_name comp) (keys tend)) -> dget k diag' = dget k diag) /\
    (forall name p, In (name, p) tend -> exists p' ds u, dget (tendency_name comp name) diag' = Some p' /\
       inserted p' ds u /\ p_units p = Some u /\
       (p_dims p = Some ds \/ p_dims p = None /\ exists q, dget name inp = Some q /\ p_dims q = Some ds)).
Proof.
  intros comp inp. induction tend as [|[name p] tend IH]; intros diag added Hall Hnt Hnd.
  - exists diag. simpl. rewrite app_nil_r. repeat split; auto; simpl; intros; tauto.
  - destruct (Hall name p (or_introl eq_refl)) as ((u & Hu) & ds & Hds).
    assert (Hx : exists tup, (match p_dims p with
                        | Some ds => Ok (ds, p_tuple p)
                        | None => let* q := dgetE name inp in
                                  match p_dims q with Some ds => Ok (ds, p_tuple q) | None => Err EKey end
                        end) = Ok (ds, tup)).
    { destruct Hds as [->|(-> & q & Hq & Hqd)]; [eauto|]. unfold dgetE. rewrite Hq. simpl. rewrite Hqd. eauto. }
    destruct Hx as (tup & Hx). cbn [foldM]. unfold insert_tendency_step at 1. cbn [fst snd].
    rewrite Hx. cbn [bind]. rewrite Hu. cbn [bind fst snd].
    simpl in Hnt. inversion Hnt as [|? ? Hni Hnt']; subst.
    set (tn := tendency_name comp name).
    set (P := mkprops (Some ds) tup (Some u) None false).
    destruct (IH (dset tn P diag) (added ++ [tn])) as (diag' & Hf & Hn' & Hk & Hoth & Hins).
    { intros n q Hi. apply Hall; right; auto. } { auto. } { apply NoDup_dset; auto. }
    exists diag'. rew_fold Hf. rewrite <- app_assoc. split; [reflexivity|]. split; auto. split; [|split].
    + intros k. rewrite Hk, In_keys_dset. simpl map. fold tn. simpl. split; [intros [[->|]|]|intros [|[<-|]]]; auto.
    + intros k Hni'. simpl in Hni'. rewrite Hoth by tauto. rewrite dget_dset_neq; auto.
    + intros n q [E|Hi].
      * injection E as <- <-. exists P, ds, u. split.
        -- fold tn. rewrite Hoth; [apply dget_dset_eq|].
           intros Hc. apply in_map_iff in Hc as (n & En & Hn). apply tendency_name_inj in En; subst. auto.
        -- unfold inserted; simpl; auto.
      * apply Hins; auto.
Qed.

Lemma entries_complete : forall (outp inp : pdict), NoDup (keys inp) ->
  ~ incomplete_input inp -> ~ incomplete_output outp inp ->
  forall name p, In (name, p) outp -> (exists u, p_units p = Some u) /\
     exists ds, p_dims p = Some ds \/ p_dims p = None /\ exists q, dget name inp = Some q /\ p_dims q = Some ds.
Proof.
  intros outp inp Hnd Hi Ho name p Hin. split.
  - destruct (p_units p) eqn:E; eauto. exfalso. apply Ho. exists name, p; auto.
  - destruct (p_dims p) as [ds|] eqn:E; [exists ds; auto|].
    destruct (In_dec_str name (keys inp)) as [Hk|Hk].
    + apply In_keys_dget in Hk as (q & Hq). destruct (p_dims q) as [ds|] eqn:Eq.
      * exists ds. right; split; auto. exists q; auto.
      * exfalso. apply Hi. exists name, q. split; auto. apply dget_In; auto.
    + exfalso. apply Ho. exists name, p; auto.
Qed.

Section Construct.
  Context {R : Registry}.

  (** Everything a successfully constructed tendency component satisfies. *)
  Lemma make_tendency_ok : forall impl g g' inp tend diag name tid tro tu c,
    NoDup (keys inp) -> NoDup (keys tend) -> NoDup (keys diag) ->
    make_tendency_component impl g inp tend diag name tid tro tu = (g', Ok c) ->
    t_init c = true /\ t_inp c = inp /\ t_tend c = tend /\ t_name c = name /\ t_tid c = tid /\ t_tunit c = tu /\
    (tro = None -> t_packer c = None /\ g' = g) /\
    NoDup (keys (t_diag c)) /\
    (tid = false -> t_diag c = diag /\ t_added c = []) /\
    (tid = true -> t_added c = map (tendency_name name) (keys tend) /\
      (forall k, In k (keys (t_diag c)) <-> In k (keys diag) \/ In k (t_added c)) /\
      (forall k, ~ In k (t_added c) -> dget k (t_diag c) = dget k diag) /\
      forall n p, In (n, p) tend -> exists p' ds u, dget (tendency_name name n) (t_diag c) = Some p' /\
        inserted p' ds u /\ p_units p = Some u /\
        (p_dims p = Some ds \/ p_dims p = None /\ exists q, dget n inp = Some q /\ p_dims q = Some ds)).
  Proof.
    intros impl g g' inp tend diag name tid tro tu c Hni Hnt Hnd H.
    unfold make_tendency_component in H.
    match type of H with context [let* _ := ?X in _] => remember X as chk eqn:Hchk end.
    destruct chk as [[]|e]; [|simpl in H; congruence]. cbn [bind] in H. symmetry in Hchk.
    apply bind_ok in Hchk as ([] & Hci & Hrest).
    destruct (check_input_iff inp Hni) as [(_ & Hii & _)|(Hx & _)]; [|congruence].
    assert (Hio : ~ incomplete_output tend inp).
    { assert (check_output_entries tend inp = Ok tt).
      { destruct impl; apply bind_ok in Hrest as ([] & H1 & H2).
        - unfold check_tendency_properties in H2. apply bind_ok in H2 as ([] & ? & _); auto.
        - unfold check_tendency_properties in H1. apply bind_ok in H1 as ([] & ? & _); auto. }
      destruct (output_entries_iff tend inp) as [[_ ?]|[? _]]; [auto|congruence]. }
    assert (Hpk : forall diag' added,
      (let (g', r) := make_packer g tro (keys tend) in
        (g', let* pk := r in Ok (mktcomp true inp tend diag' name tid added pk tu))) = (g', Ok c) ->
      exists pk, c = mktcomp true inp tend diag' name tid added pk tu /\ (tro = None -> pk = None /\ g' = g)).
    { intros diag' added Hm. destruct (make_packer g tro (keys tend)) as [g1 r] eqn:Em.
      injection Hm as <- Hr. apply bind_ok in Hr as (pk & -> & Hr). injection Hr as <-. exists pk. split; auto.
      intros ->. simpl in Em. injection Em as <- <-. auto. }
    destruct tid.
    - unfold insert_tendency_properties in H.
      destruct (insert_spec name inp tend diag []) as (diag' & Hf & Hn' & Hk & Hoth & Hins);
        [apply entries_complete; auto|auto|auto|].
      rew_fold_in Hf H. apply Hpk in H as (pk & -> & Htro). simpl. repeat split; auto; try discriminate;
        try (apply Htro; auto); try (apply Hk).
    - apply Hpk in H as (pk & -> & Htro). simpl. repeat split; auto; try discriminate; apply Htro; auto.
  Qed.

  Lemma tendency_checks_iff : forall tend inp, NoDup (keys tend) -> ~ incomplete_input inp ->
    shared_known tendency_units inp tend ->
    (check_tendency_properties tend inp = Ok tt /\
       ~ incomplete_output tend inp /\ ~ shared_alias tend /\ ~ clash tendency_units inp tend) \/
    (check_tendency_properties tend inp = Err EInvalidProps /\
       (incomplete_output tend inp \/ shared_alias tend \/ clash tendency_units inp tend)).
  Proof.
    intros tend inp Hnd Hi Hk. unfold check_tendency_properties.
    destruct (output_entries_iff tend inp) as [(-> & H1)|(-> & H1)]; simpl; [|right; auto].
    destruct (overlapping_iff tend Hnd) as [(-> & H2)|(-> & H2)]; simpl; [|right; auto].
    change per_second with tendency_units.
    destruct (compatible_iff tendency_units inp tend Hi H1 Hk) as [(-> & H3)|(-> & H3)]; [left|right]; auto.
  Qed.

  Lemma diagnostic_checks_iff : forall diag inp, NoDup (keys diag) -> ~ incomplete_input inp ->
    shared_known (fun u => u) inp diag ->
    (check_diagnostic_properties diag inp = Ok tt /\
       ~ incomplete_output diag inp /\ ~ shared_alias diag /\ ~ clash (fun u => u) inp diag) \/
    (check_diagnostic_properties diag inp = Err EInvalidProps /\
       (incomplete_output diag inp \/ shared_alias diag \/ clash (fun u => u) inp diag)).
  Proof.
    intros diag inp Hnd Hi Hk. unfold check_diagnostic_properties.
    destruct (output_entries_iff diag inp) as [(-> & H1)|(-> & H1)]; simpl; [|right; auto].
    destruct (compatible_iff (fun u => u) inp diag Hi H1 Hk) as [(-> & H3)|(-> & H3)]; simpl; [|right; auto].
    destruct (overlapping_iff diag Hnd) as [(-> & H2)|(-> & H2)]; simpl; [left|right]; auto.
  Qed.

  Lemma output_checks_iff : forall diag inp, NoDup (keys diag) -> ~ incomplete_input inp ->
    shared_known (fun u => u) inp diag ->
    (check_output_properties diag inp = Ok tt /\
       ~ incomplete_output diag inp /\ ~ shared_alias diag /\ ~ clash (fun u => u) inp diag) \/
    (check_output_properties diag inp = Err EInvalidProps /\
       (incomplete_output diag inp \/ shared_alias diag \/ clash (fun u => u) inp diag)).
  Proof.
    intros diag inp Hnd Hi Hk. unfold check_output_properties.
    destruct (output_entries_iff diag inp) as [(-> & H1)|(-> & H1)]; simpl; [|right; auto].
    destruct (overlapping_iff diag Hnd) as [(-> & H2)|(-> & H2)]; simpl; [|right; auto].
    destruct (compatible_iff (fun u => u) inp diag Hi H1 Hk) as [(-> & H3)|(-> & H3)]; simpl; [left|right]; auto.
  Qed.

  Lemma make_tendency_iff : forall impl g inp tend diag name tid tu,
    NoDup (keys inp) -> NoDup (keys tend) -> NoDup (keys diag) ->
    shared_known tendency_units inp tend -> shared_known (fun u => u) inp diag ->
    (bad_tendency_properties inp tend diag ->
       make_tendency_component impl g inp tend diag name tid None tu = (g, Err EInvalidProps)) /\
    (~ bad_tendency_properties inp tend diag ->
       exists c, make_tendency_component impl g inp tend diag name tid None tu = (g, Ok c)).
  Proof.
    intros impl g inp tend diag name tid tu Hni Hnt Hnd Hk1 Hk2.
    unfold make_tendency_component, bad_tendency_properties.
    destruct (check_input_iff inp Hni) as [(-> & Hi1 & Hi2)|(-> & Hi)]; simpl.
    2:{ split; [reflexivity|]. intros Hb; exfalso; apply Hb; tauto. }
    destruct (tendency_checks_iff tend inp Hnt Hi1 Hk1) as [(Ht & T1 & T2 & T3)|(Ht & Htb)];
    destruct (diagnostic_checks_iff diag inp Hnd Hi1 Hk2) as [(Hd & D1 & D2 & D3)|(Hd & Hdb)];
    rewrite Ht, Hd; simpl.
    - destruct impl; simpl; (split; [tauto|]); intros _;
        (destruct tid; [|eauto]);
        unfold insert_tendency_properties;
        (destruct (insert_spec name inp tend diag []) as (diag' & Hf & _);
          [apply entries_complete; auto|auto|auto|]); rew_fold Hf; eauto.
    - destruct impl; simpl; split; auto; tauto.
    - destruct impl; simpl; split; auto; tauto.
    - destruct impl; simpl; split; auto; tauto.
  Qed.

  Lemma make_diagnostic_iff : forall inp diag,
    NoDup (keys inp) -> NoDup (keys diag) -> shared_known (fun u => u) inp diag ->
    (bad_tendency_properties inp [] diag -> make_diagnostic_component inp diag = Err EInvalidProps) /\
    (~ bad_tendency_properties inp [] diag ->
       exists c, make_diagnostic_component inp diag = Ok c /\
         d_init c = true /\ d_inp c = inp /\ d_diag c = diag).
  Proof.
    intros inp diag Hni Hnd Hk.
    assert (N1 : ~ incomplete_output [] inp) by (intros (n & p & [] & _)).
    assert (N2 : ~ shared_alias []) by (intros (n & p & n2 & p2 & al & [] & _)).
    assert (N3 : ~ clash tendency_units inp []) by (intros (n & u1 & u2 & x1 & x2 & (p & q & _ & Hq & _) & _); discriminate).
    unfold make_diagnostic_component, bad_tendency_properties.
    destruct (check_input_iff inp Hni) as [(-> & Hi1 & Hi2)|(-> & Hi)]; simpl.
    2:{ split; [reflexivity|]. intros Hb; exfalso; apply Hb; tauto. }
    destruct (diagnostic_checks_iff diag inp Hnd Hi1 Hk) as [(Hd & D1 & D2 & D3)|(Hd & Hdb)]; rewrite Hd; simpl.
    - split; [tauto|]. intros _. eexists; split; [reflexivity|]; simpl; auto.
    - split; auto; tauto.
  Qed.
End Construct.
