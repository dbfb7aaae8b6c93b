(** Construction and calls of Steppers, and tendencies in diagnostics. *)
From Coq Require Import String List Bool Arith ZArith QArith Lia.
From Verif Require Import Prelude PreludeFacts ArithM NdArray NdFacts Units DataArrayM Wildcard GetNp Restore
  SpecArrays WildcardFacts ExtractFacts RestoreFacts RoundTripFacts UnitsFacts Tracers SpecComponents Components
  SpecCalls CheckerFacts ComponentFacts CallFacts.
Import ListNotations.
Open Scope string_scope.
Open Scope nat_scope.
Open Scope list_scope.

Lemma list_eqb_neq : forall a b, list_eqb a b = false -> a <> b.
Proof. intros a b H ->. rewrite (proj2 (list_eqb_eq b b) eq_refl) in H. discriminate. Qed.

(** Outputs and inputs after the insertion agree: each output is an input with
    the same dims and units. *)
Definition differenced (inp : pdict) (name : string) (p : props) : Prop :=
  exists q ds u, dget name inp = Some q /\ p_dims q = Some ds /\ p_units q = Some u /\ p_units p = Some u /\
    (p_dims p = Some ds \/ p_dims p = None).

Lemma stepper_insert_spec : forall comp (outp inp diag : pdict) added,
  ~ incomplete_input inp ->
  (forall name p, In (name, p) outp -> (exists u, p_units p = Some u) /\
     exists ds, p_dims p = Some ds \/ p_dims p = None /\ exists q, dget name inp = Some q /\ p_dims q = Some ds) ->
  NoDup (keys outp) -> NoDup (keys inp) -> NoDup (keys diag) ->
  (no_difference inp outp /\ foldM (stepper_insert_step comp) outp (inp, diag, added) = Err EInvalidProps) \/
  (~ no_difference inp outp /\ exists inp' diag',
    foldM (stepper_insert_step comp) outp (inp, diag, added) =
      Ok (inp', diag', added ++ map (tendency_name comp) (keys outp)) /\
    NoDup (keys inp') /\ NoDup (keys diag') /\
    (forall k, In k (keys inp') <-> In k (keys inp) \/ In k (keys outp)) /\
    (forall k, In k (keys inp) -> dget k inp' = dget k inp) /\
    (forall k p, dget k inp' = Some p -> ~ In k (keys inp) -> p_alias p = None) /\
    (forall name p, In (name, p) outp -> differenced inp' name p) /\
    (forall k, In k (keys diag') <-> In k (keys diag) \/ In k (map (tendency_name comp) (keys outp))) /\
    (forall k, ~ In k (map (tendency_name comp) (keys outp)) -> dget k diag' = dget k diag) /\
    (forall name p, In (name, p) outp -> exists p' ds u, dget (tendency_name comp name) diag' = Some p' /\
       inserted p' ds (per_second u) /\ p_units p = Some u /\
       exists q, dget name inp' = Some q /\ p_dims q = Some ds)).
Proof.
  intros comp. induction outp as [|[name p] outp IH]; intros inp diag added Hci Hall Hno Hni Hnd.
  - right. split; [intros (n & q & q' & [] & _)|]. exists inp, diag. simpl. rewrite app_nil_r.
    repeat split; auto; simpl; try tauto; intros; try tauto. exfalso. apply H0. eapply dget_In_keys; eauto.
  - simpl in Hno. inversion Hno as [|? ? Hnn Hno']; subst.
    destruct (Hall name p (or_introl eq_refl)) as ((u & Hu) & ds & Hds).
    assert (Hx : exists tup, (match p_dims p with
                        | Some ds => Ok (ds, p_tuple p)
                        | None => let* q := dgetE name inp in
                                  match p_dims q with Some ds => Ok (ds, p_tuple q) | None => Err EKey end
                        end) = Ok (ds, tup) /\
              (p_dims p <> None -> tup = p_tuple p) /\
              (p_dims p = None -> exists q, dget name inp = Some q /\ p_dims q = Some ds /\ p_tuple q = tup)).
    { destruct Hds as [E|(E & q & Hq & Hqd)]; rewrite E.
      - exists (p_tuple p). repeat split; auto. discriminate.
      - unfold dgetE. rewrite Hq. simpl. rewrite Hqd. exists (p_tuple q). repeat split; try congruence. eauto. }
    destruct Hx as (tup & Hx & Htp & Htq).
    set (tn := tendency_name comp name).
    set (P := mkprops (Some ds) tup (Some (per_second u)) None false).
    assert (Hstep : forall r, match dget name inp with
        | None => Ok (dset name (mkprops (Some ds) tup (Some u) None false) inp, dset tn P diag, added ++ [tn])
        | Some q =>
            match p_dims q, p_units q with
            | Some ids, Some iu =>
                if negb (dims_eq (ids, p_tuple q) (ds, tup)) then Err EInvalidProps
                else if negb (String.eqb iu u) then Err EInvalidProps
                else Ok (inp, dset tn P diag, added ++ [tn])
            | _, _ => Err EKey
            end
        end = r -> stepper_insert_step comp (inp, diag, added) (name, p) = r).
    { intros r <-. unfold stepper_insert_step. cbn [fst snd]. rewrite Hu. cbn [bind]. rewrite Hx. reflexivity. }
    destruct (dget name inp) as [q|] eqn:Eq.
    + pose proof (dget_In _ _ _ Eq) as Hqi.
      destruct (p_dims q) as [ids|] eqn:Eid; [|exfalso; apply Hci; exists name, q; auto].
      destruct (p_units q) as [iu|] eqn:Eiu; [|exfalso; apply Hci; exists name, q; auto].
      destruct (dims_eq (ids, p_tuple q) (ds, tup)) eqn:Ed; cbn [negb] in Hstep.
      2:{ left. cbn [foldM]. rewrite (Hstep _ eq_refl). split; auto.
          exists name, p, q. split; [left; auto|]. split; auto. left.
          destruct (p_dims p) as [pds|] eqn:Ep.
          - destruct Hds as [E|(E & _)]; [|discriminate]. injection E as ->. split; [discriminate|].
            rewrite Htp in Ed by discriminate. rewrite Eid. unfold dims_eq in Ed. simpl in Ed.
            apply andb_false_iff in Ed as [Ed|Ed].
            + left. apply list_eqb_neq in Ed. congruence.
            + right. destruct (p_tuple q), (p_tuple p); simpl in Ed; congruence.
          - exfalso. destruct (Htq eq_refl) as (q' & E1 & E2 & E3). assert (q' = q) by congruence. subst q'.
            assert (ids = ds) by congruence. subst. unfold dims_eq in Ed. simpl in Ed.
            rewrite (proj2 (list_eqb_eq ds ds) eq_refl) in Ed. destruct (p_tuple q); discriminate. }
      unfold dims_eq in Ed. simpl in Ed. apply andb_true_iff in Ed as [Ed1 Ed2].
      apply list_eqb_eq in Ed1. subst ids.
      destruct (String.eqb iu u) eqn:Ed; cbn [negb] in Hstep.
      2:{ left. cbn [foldM]. rewrite (Hstep _ eq_refl). split; auto.
          exists name, p, q. split; [left; auto|]. split; auto. right. apply String.eqb_neq in Ed. congruence. }
      apply String.eqb_eq in Ed. subst iu.
      cbn [foldM]. rewrite (Hstep _ eq_refl). cbn [bind].
      destruct (IH inp (dset tn P diag) (added ++ [tn])) as [(Hbad & He)|(Hgood & inp' & diag' & Hf & R)]; auto.
      { intros; apply Hall; right; auto. } { apply NoDup_dset; auto. }
      { left. split; auto. destruct Hbad as (n & a & b & ? & ?). exists n, a, b. split; auto. right; auto. }
      right. destruct R as (N1 & N2 & K1 & O1 & A1 & D1 & K2 & O2 & I2). split.
      { intros (n & a & b & [E|Hi] & Hb & Hor).
        - injection E as <- <-. assert (b = q) by congruence. subst b.
          destruct Hor as [(Hne & Hor)|Hor]; [|congruence].
          destruct Hds as [E|(E & _)]; [|congruence].
          destruct Hor as [Hor|Hor]; [congruence|]. rewrite (Htp Hne) in Ed2.
          apply eqb_prop in Ed2. congruence.
        - apply Hgood. exists n, a, b; auto. }
      exists inp', diag'. rew_fold Hf. rewrite <- app_assoc. split; [reflexivity|].
      repeat match goal with |- _ /\ _ => split end; auto.
      * intros k. rewrite K1. simpl. split; [tauto|]. intros [|[<-|]]; auto. left. eapply dget_In_keys; eauto.
      * intros n a [E|Hi]; [|auto]. injection E as <- <-.
        exists q, ds, u. rewrite O1 by (eapply dget_In_keys; eauto). repeat split; auto.
        destruct Hds as [|(? & _)]; auto.
      * intros k. rewrite K2, In_keys_dset. simpl map. fold tn. simpl.
        split; [intros [[->|]|]|intros [|[<-|]]]; auto.
      * intros k Hni'. simpl in Hni'. rewrite O2 by tauto. rewrite dget_dset_neq; auto.
      * intros n a [E|Hi]; [|auto]. injection E as <- <-. exists P, ds, u. split.
        -- fold tn. rewrite O2; [apply dget_dset_eq|].
           intros Hc. apply in_map_iff in Hc as (n & En & Hn). apply tendency_name_inj in En; subst. auto.
        -- split; [unfold inserted; simpl; auto|]. split; auto. exists q. split; auto.
           rewrite O1 by (eapply dget_In_keys; eauto). auto.
    + pose proof (dget_none _ _ Eq) as Hnk || assert (Hnk : ~ In name (keys inp)) by
        (intros Hc; apply In_keys_dget in Hc as (v & Hv); congruence).
      cbn [foldM]. rewrite (Hstep _ eq_refl). cbn [bind].
      set (Q := mkprops (Some ds) tup (Some u) None false).
      destruct (IH (dset name Q inp) (dset tn P diag) (added ++ [tn])) as [(Hbad & He)|(Hgood & inp' & diag' & Hf & R)].
      * intros (n & a & Hi & Hor). rewrite dset_absent in Hi by auto. apply in_app_iff in Hi as [Hi|[E|[]]].
        -- apply Hci. exists n, a; auto.
        -- injection E as <- <-. simpl in Hor. destruct Hor; discriminate.
      * intros n a Hi. destruct (Hall n a (or_intror Hi)) as (H1 & ds' & H2). split; auto. exists ds'.
        destruct H2 as [|(H2 & b & Hb & Hb')]; auto. right; split; auto. exists b. split; auto.
        rewrite dget_dset_neq; auto. intros ->. apply Hnn. apply in_map_iff. exists (name, a); auto.
      * auto.
      * apply NoDup_dset; auto.
      * apply NoDup_dset; auto.
      * left. split; auto. destruct Hbad as (n & a & b & Hi & Hb & Hor). exists n, a, b.
        split; [right; auto|]. split; auto. rewrite dget_dset_neq in Hb; auto.
        intros ->. apply Hnn. apply in_map_iff. exists (name, a); auto.
      * right. destruct R as (N1 & N2 & K1 & O1 & A1 & D1 & K2 & O2 & I2). split.
        { intros (n & a & b & [E|Hi] & Hb & Hor).
          - injection E as <- <-. congruence.
          - apply Hgood. exists n, a, b. split; auto. split; auto. rewrite dget_dset_neq; auto.
            intros ->. apply Hnn. apply in_map_iff. exists (name, a); auto. }
        assert (HQ : dget name inp' = Some Q).
        { rewrite O1 by (apply In_keys_dset; auto). apply dget_dset_eq. }
        exists inp', diag'. rew_fold Hf. rewrite <- app_assoc. split; [reflexivity|].
        repeat match goal with |- _ /\ _ => split end; auto.
        -- intros k. rewrite K1, In_keys_dset. simpl. split; [intros [[->|]|]|intros [|[<-|]]]; auto.
        -- intros k Hk. rewrite O1 by (apply In_keys_dset; auto). rewrite dget_dset_neq; auto. intros ->; auto.
        -- intros k a Hk Hnk'. destruct (String.eqb k name) eqn:E.
           ++ apply String.eqb_eq in E. subst. rewrite HQ in Hk. injection Hk as <-. reflexivity.
           ++ apply String.eqb_neq in E. apply (A1 k a Hk). rewrite In_keys_dset. tauto.
        -- intros n a [E|Hi]; [|auto]. injection E as <- <-.
           exists Q, ds, u. repeat split; auto. destruct Hds as [|(? & _)]; auto.
        -- intros k. rewrite K2, In_keys_dset. simpl map. fold tn. simpl.
           split; [intros [[->|]|]|intros [|[<-|]]]; auto.
        -- intros k Hni'. simpl in Hni'. rewrite O2 by tauto. rewrite dget_dset_neq; auto.
        -- intros n a [E|Hi]; [|auto]. injection E as <- <-. exists P, ds, u. split.
           ++ fold tn. rewrite O2; [apply dget_dset_eq|].
              intros Hc. apply in_map_iff in Hc as (n & En & Hn). apply tendency_name_inj in En; subst. auto.
           ++ split; [unfold inserted; simpl; auto|]. split; auto. exists Q. split; auto.
Qed.

Section Construct.
  Context {R : Registry}.

  Lemma make_stepper_form : forall g g' (inp diag outp : pdict) name tid tro tu c,
    make_stepper g inp diag outp name tid tro tu = (g', Ok c) ->
    check_input_properties inp = Ok tt /\ check_diagnostic_properties diag inp = Ok tt /\
    check_output_properties outp inp = Ok tt /\
    exists inp' diag' added pk,
      (if tid then foldM (stepper_insert_step name) outp (inp, diag, []) else Ok (inp, diag, [])) = Ok (inp', diag', added) /\
      make_packer g tro (keys outp) = (g', Ok pk) /\
      c = mkscomp true inp' diag' outp name tid added pk tu.
  Proof.
    intros g g' inp diag outp name tid tro tu c H. unfold make_stepper in H.
    destruct (check_input_properties inp) as [[]|e]; [|discriminate].
    destruct (check_diagnostic_properties diag inp) as [[]|e]; [|discriminate].
    destruct (check_output_properties outp inp) as [[]|e]; [|discriminate]. cbn [bind] in H.
    destruct (if tid then foldM (stepper_insert_step name) outp (inp, diag, []) else Ok (inp, diag, []))
      as [[[inp' diag'] added]|e] eqn:Ef; [|discriminate].
    destruct (make_packer g tro (keys outp)) as [g1 r]. injection H as <- H.
    apply bind_ok in H as (pk & -> & H). injection H as <-.
    repeat split; auto. exists inp', diag', added, pk. auto.
  Qed.

  Lemma make_stepper_iff : forall g inp diag outp name tid tu,
    NoDup (keys inp) -> NoDup (keys diag) -> NoDup (keys outp) ->
    shared_known (fun u => u) inp diag -> shared_known (fun u => u) inp outp ->
    let bad := bad_stepper_properties inp diag outp \/ (tid = true /\ no_difference inp outp) in
    (bad -> make_stepper g inp diag outp name tid None tu = (g, Err EInvalidProps)) /\
    (~ bad -> exists c, make_stepper g inp diag outp name tid None tu = (g, Ok c)).
  Proof.
    intros g inp diag outp name tid tu Hni Hnd Hno Hk1 Hk2 bad. unfold bad, make_stepper, bad_stepper_properties.
    destruct (check_input_iff inp Hni) as [(-> & Hi1 & Hi2)|(-> & Hi)]; simpl.
    2:{ split; [reflexivity|]. intros Hb; exfalso; apply Hb; tauto. }
    destruct (diagnostic_checks_iff diag inp Hnd Hi1 Hk1) as [(-> & D1 & D2 & D3)|(-> & Hdb)]; simpl.
    2:{ split; [reflexivity|]. intros Hb; exfalso; apply Hb; tauto. }
    destruct (output_checks_iff outp inp Hno Hi1 Hk2) as [(-> & O1 & O2 & O3)|(-> & Hob)]; simpl.
    2:{ split; [reflexivity|]. intros Hb; exfalso; apply Hb; tauto. }
    destruct tid.
    - destruct (stepper_insert_spec name outp inp diag []) as [(Hb & He)|(Hg & inp' & diag' & Hf & _)]; auto.
      { apply entries_complete; auto. }
      + rew_fold He. split; [reflexivity|]. intros H; exfalso; apply H; auto.
      + rew_fold Hf. split; [intros [H|[_ H]]; tauto|]. eauto.
    - split; [intros [H|[H _]]; [tauto|discriminate]|]. eauto.
  Qed.

  (** What a constructed Stepper looks like. *)
  Lemma make_stepper_ok : forall g g' (inp diag outp : pdict) name tid tro tu c,
    NoDup (keys inp) -> NoDup (keys diag) -> NoDup (keys outp) ->
    make_stepper g inp diag outp name tid tro tu = (g', Ok c) ->
    s_init c = true /\ s_out c = outp /\ s_name c = name /\ s_tid c = tid /\ s_tu c = tu /\
    (tro = None -> s_packer c = None /\ g' = g) /\
    NoDup (keys (s_inp c)) /\ NoDup (keys (s_diag c)) /\
    (tid = false -> s_inp c = inp /\ s_diag c = diag /\ s_ign c = []) /\
    (tid = true ->
      s_ign c = map (tendency_name name) (keys outp) /\
      (forall k, In k (keys (s_inp c)) <-> In k (keys inp) \/ In k (keys outp)) /\
      (forall k, In k (keys inp) -> dget k (s_inp c) = dget k inp) /\
      (forall k p, dget k (s_inp c) = Some p -> ~ In k (keys inp) -> p_alias p = None) /\
      (forall n p, In (n, p) outp -> differenced (s_inp c) n p) /\
      (forall k, In k (keys (s_diag c)) <-> In k (keys diag) \/ In k (s_ign c)) /\
      (forall k, ~ In k (s_ign c) -> dget k (s_diag c) = dget k diag) /\
      (forall n p, In (n, p) outp -> exists p' ds u, dget (tendency_name name n) (s_diag c) = Some p' /\
         inserted p' ds (per_second u) /\ p_units p = Some u /\
         exists q, dget n (s_inp c) = Some q /\ p_dims q = Some ds)).
  Proof.
    intros g g' inp diag outp name tid tro tu c Hni Hnd Hno H.
    apply make_stepper_form in H as (Hci & Hcd & Hco & inp' & diag' & added & pk & Hf & Hpk & ->). simpl.
    assert (Hp : tro = None -> pk = None /\ g' = g).
    { intros ->. simpl in Hpk. injection Hpk as <- <-. auto. }
    destruct tid.
    - destruct (check_input_iff inp Hni) as [(_ & Hii & _)|(Hx & _)]; [|congruence].
      assert (Hio : ~ incomplete_output outp inp).
      { unfold check_output_properties in Hco. apply bind_ok in Hco as ([] & Hco & _).
        destruct (output_entries_iff outp inp) as [[_ ?]|[? _]]; [auto|congruence]. }
      destruct (stepper_insert_spec name outp inp diag []) as [(Hb & He)|(Hg & i2 & d2 & Hf2 & Rst)]; auto.
      { apply entries_complete; auto. }
      { exfalso. rew_fold_in He Hf. discriminate. }
      rew_fold_in Hf2 Hf. injection Hf as <- <- <-.
      destruct Rst as (N1 & N2 & K1 & O1 & A1 & D1 & K2 & O2 & I2). simpl in *.
      repeat match goal with |- _ /\ _ => split end; auto; try discriminate.
      intros _. repeat match goal with |- _ /\ _ => split end; auto.
    - injection Hf as <- <- <-. repeat match goal with |- _ /\ _ => split end; auto; try discriminate.
  Qed.
End Construct.
