(** Lemmas about the time steppers (Steppers.v). *)
From Coq Require Import String List Bool Arith ZArith QArith Qcanon Lia.
From Verif Require Import Prelude PreludeFacts ArithM NdArray NdFacts Units DataArrayM GetNp Components Composite Steppers
  SpecArrays SpecUnits UnitsFacts SpecDa DaFacts SpecComposite SpecSteppers.
Import ListNotations.
Open Scope string_scope.
Open Scope nat_scope.
Open Scope list_scope.

(** ** Dictionaries built key by key *)

Lemma dget_mapM : forall {V W} (f : string * V -> res (string * W)) d d',
  (forall kv kw, f kv = Ok kw -> fst kw = fst kv) -> mapM f d = Ok d' ->
  keys d' = keys d /\
  forall X, match dget X d with
            | None => dget X d' = None
            | Some v => exists w, f (X, v) = Ok (X, w) /\ dget X d' = Some w
            end.
Proof.
  intros V W f d. induction d as [|[k v] d IH]; intros d' Hf H; cbn [mapM] in H.
  - injection H as <-. split; [reflexivity|]. intros X. reflexivity.
  - apply bind_ok in H as ([k' w] & Hk & H). apply bind_ok in H as (r & Hr & H). injection H as <-.
    pose proof (Hf _ _ Hk) as Hkk. simpl in Hkk. subst k'.
    destruct (IH _ Hf Hr) as [IHk IHd]. split. { unfold keys in *. cbn [map fst]. congruence. }
    intros X. cbn [dget]. destruct (String.eqb X k) eqn:E; [|apply IHd].
    apply String.eqb_eq in E; subst X. eauto.
Qed.

Section Facts.
  Context {T : Type} {A : Arith T} {R : Registry}.

  Lemma for_keys_ok : forall (f : string -> res (da T)) ks st, for_keys f ks = Ok st -> keys st = ks /\
    (forall X, In X ks -> exists v, f X = Ok v /\ dget X st = Some (VDA v)) /\
    (forall X, ~ In X ks -> dget X st = None).
  Proof.
    intros f ks. unfold for_keys. induction ks as [|k ks IH]; intros st H; cbn [mapM] in H.
    - injection H as <-. repeat split; auto. intros X [].
    - apply bind_ok in H as ([k' w] & Hk & H). apply bind_ok in H as (r & Hr & H). injection H as <-.
      apply bind_ok in Hk as (v & Hv & Hk). injection Hk as <- <-.
      destruct (IH _ Hr) as (I1 & I2 & I3). split; [|split].
      + unfold keys in *. cbn [map fst]. congruence.
      + intros X HX. cbn [dget]. destruct (String.eqb X k) eqn:E.
        * apply String.eqb_eq in E; subst X. eauto.
        * apply I2. destruct HX as [->|HX]; auto. rewrite String.eqb_refl in E; discriminate.
      + intros X HX. cbn [dget]. destruct (String.eqb X k) eqn:E.
        * apply String.eqb_eq in E; subst X. exfalso; apply HX; left; auto.
        * apply I3. intros HX'. apply HX; right; auto.
  Qed.

  Lemma for_keys_succeeds : forall (f : string -> res (da T)) ks, (forall X, In X ks -> exists v, f X = Ok v) ->
    exists st, for_keys f ks = Ok st.
  Proof.
    intros f ks. unfold for_keys. induction ks as [|k ks IH]; intros H; cbn [mapM].
    - eauto.
    - destruct (H k) as (v & Hv); [left; auto|]. rewrite Hv. cbn [bind].
      destruct IH as (st & Hst); [intros; apply H; right; auto|]. rewrite Hst. cbn [bind]. eauto.
  Qed.

  Lemma copy_untouched_get : forall (old new : state T) X,
    dget X (copy_untouched old new) = match dget X new with Some v => Some v | None => dget X old end.
  Proof.
    intros old. unfold copy_untouched. induction old as [|[k v] old IH]; intros new X; cbn [fold_left fst snd].
    - cbn [dget]. destruct (dget X new); auto.
    - rewrite IH. cbn [dget]. destruct (dmem k new) eqn:Em.
      + destruct (dget X new) eqn:En; auto. destruct (String.eqb X k) eqn:E; auto.
        apply String.eqb_eq in E; subst X. unfold dmem in Em. rewrite En in Em. discriminate.
      + destruct (String.eqb X k) eqn:E.
        * apply String.eqb_eq in E; subst X. rewrite dget_dset_eq.
          unfold dmem in Em. destruct (dget k new); [discriminate|]. auto.
        * apply String.eqb_neq in E. rewrite dget_dset_neq by auto. auto.
  Qed.

  Lemma copy_untouched_idem : forall (old new : state T), copy_untouched old (copy_untouched old new) = copy_untouched old new.
  Proof.
    intros old new. assert (H : forall X, In X (keys old) -> dmem X (copy_untouched old new) = true).
    { intros X HX. unfold dmem. rewrite copy_untouched_get. destruct (dget X new); auto.
      apply In_keys_dget in HX as (v & ->). auto. }
    revert H. generalize (copy_untouched old new). clear. unfold copy_untouched.
    induction old as [|[k v] old IH]; intros m H; cbn [fold_left fst snd]; auto.
    rewrite (H k) by (simpl; auto). apply IH. intros X HX; apply H; simpl; auto.
  Qed.

  Lemma state_da_ok : forall k (st : state T) x, state_da k st = Ok x <-> dget k st = Some (VDA x).
  Proof.
    intros k st x. unfold state_da, dgetE. destruct (dget k st) as [[a|t]|]; cbn [bind]; split; intros H; congruence.
  Qed.

  (** ** Conversion of the tendencies *)

  (** What convert_tendencies does to one tendency. *)
  Definition conv (st : state T) (X : string) (t t' : da T) : Prop := convert_one st (X, t) = Ok (X, t').

  Lemma convert_ok : forall (st : state T) tend tend', convert_tendencies st tend = Ok tend' ->
    keys tend' = keys tend /\
    forall X, match dget X tend with
              | None => dget X tend' = None
              | Some t => exists t', conv st X t t' /\ dget X tend' = Some t'
              end.
  Proof.
    intros st tend tend' H. apply dget_mapM in H; auto. intros [k v] kw Hk. unfold convert_one in Hk.
    destruct (dget "units" (attrs v)); [|injection Hk as <-; auto].
    apply bind_ok in Hk as ([x|z] & _ & Hk); [|discriminate].
    destruct (dget "units" (attrs x)); [|discriminate]. apply bind_ok in Hk as (t' & _ & Hk). injection Hk as <-; auto.
  Qed.

  Lemma conv_spec : forall (st : state T) X t t', conv st X t t' -> wf_da t ->
    wf_da t' /\ dims t' = dims t /\ (forall d, dim_len t' d = dim_len t d) /\
    forall c, in_grid t c -> rate st X t c (da_at t' c).
  Proof.
    intros st X t t' H Hw. unfold conv, convert_one in H. unfold rate, units_of.
    destruct (dget "units" (attrs t)) as [ut|] eqn:Eu; [|injection H as <-; auto].
    apply bind_ok in H as ([x|z] & Hx & H); [|discriminate].
    destruct (dget "units" (attrs x)) as [us|] eqn:Ex; [|discriminate]. apply bind_ok in H as (t1 & Ht & H).
    injection H as ->. apply dgetE_ok in Hx.
    split. { eapply to_units_wf; eauto. } split. { eapply to_units_dims; eauto. }
    split. { intros; eapply to_units_len; eauto. }
    intros c Hc. exists x, us. split; auto. split; auto. eapply to_units_at; eauto.
  Qed.

  Lemma conv_succeeds : forall (st : state T) X t, has_rate st X t -> exists t', conv st X t t'.
  Proof.
    intros st X t H. unfold has_rate, units_of in H. unfold conv, convert_one, dgetE.
    destruct (dget "units" (attrs t)) as [ut|] eqn:Eu; [|eauto].
    destruct H as (x & us & u1 & u2 & Hx & Hus & H1 & H2 & Hd). rewrite Hx. cbn [bind]. rewrite Hus.
    destruct (to_units_succeeds t (us ++ " s^-1") ut u1 u2) as (q & Hq); auto. rewrite Hq. cbn [bind]. eauto.
  Qed.

  Lemma conv_has_rate : forall (st : state T) X t t', conv st X t t' -> has_rate st X t.
  Proof.
    intros st X t t' H. unfold has_rate, units_of. unfold conv, convert_one, dgetE in H.
    destruct (dget "units" (attrs t)) as [ut|] eqn:Eu; [|auto].
    destruct (dget X st) as [[x|z]|] eqn:Ex; cbn [bind] in H; try discriminate.
    destruct (dget "units" (attrs x)) as [us|] eqn:Es; [|discriminate]. apply bind_ok in H as (t1 & Ht & H).
    apply to_units_ok in Ht as (own & u1 & u2 & Ho & H1 & H2 & Hc). unfold units_of in Ho. rewrite Eu in Ho. injection Ho as <-.
    exists x, us, u1, u2. repeat (split; auto). destruct Hc as [(E & _)|(_ & E & _)]; auto. apply one_eqb_eq in E; tauto.
  Qed.

  Lemma convert_succeeds : forall (st : state T) tend, (forall X t, In (X, t) tend -> has_rate st X t) ->
    exists tend', convert_tendencies st tend = Ok tend'.
  Proof.
    intros st tend. unfold convert_tendencies. induction tend as [|[k t] tend IH]; intros H; cbn [mapM]; [eauto|].
    destruct (conv_succeeds st k t) as (t' & Ht); [apply H; left; auto|]. unfold conv in Ht. rewrite Ht. cbn [bind].
    destruct IH as (r & Hr); [intros; apply H; right; auto|]. rewrite Hr. cbn [bind]. eauto.
  Qed.

  (** ** Step formulas *)

  Lemma in_grid_map : forall f at' (a : da T) c, in_grid (da_map f at' a) c <-> in_grid a c.
  Proof. reflexivity. Qed.

  Lemma bin_extends : forall op (x s r : da T) ts, da_binop op (attrs x) x s = Ok r -> wf_da x -> wf_da s ->
    (forall d, dim_len s d = first_len d ts) -> extends x ts r.
  Proof.
    intros op x s r ts H Hx Hs Hl. apply da_binop_ok in H as (H1 & H2 & H3 & _ & H5 & _); auto.
    split; auto. split; auto. split. { rewrite H3. unfold bin_dims. eauto. }
    intros d. rewrite H5. cbn [first_len]. destruct (dim_len x d); auto.
  Qed.

  Lemma euler_one_ok : forall sec (st : state T) tend X r, euler_one sec st tend X = Ok r ->
    (forall x, dget X st = Some (VDA x) -> wf_da x) -> (forall t, dget X tend = Some t -> wf_da t) ->
    exists x t, dget X st = Some (VDA x) /\ dget X tend = Some t /\ extends x [t] r /\
      forall c, in_grid r c -> in_grid x c /\ in_grid t c /\ da_at r c = aadd (da_at x c) (amul (da_at t c) sec).
  Proof.
    intros sec st tend X r H Hx Ht. unfold euler_one in H.
    apply bind_ok in H as (x & Ex & H). apply bind_ok in H as (t & Et & H).
    apply state_da_ok in Ex. apply dgetE_ok in Et. specialize (Hx _ Ex). specialize (Ht _ Et).
    exists x, t. split; auto. split; auto. split.
    - eapply bin_extends; [exact H|auto|apply wf_da_map; auto|]. intros d. cbn [first_len]. unfold da_scale. rewrite dim_len_map.
      destruct (dim_len t d); auto.
    - intros c Hc. apply da_binop_ok in H as (_ & _ & _ & _ & _ & H); auto; [|apply wf_da_map; auto].
      destruct (H c Hc) as (H1 & H2 & H3). apply in_grid_map in H2. split; auto. split; auto. rewrite H3.
      unfold da_scale. rewrite da_at_map; auto.
  Qed.

  (** The [k] stored tendencies of [X] used by a step of order [k], newest first. *)
  Definition pasts (hist : list (dict (da T))) (k : nat) (X : string) (ts : list (da T)) : Prop :=
    Forall2 (fun d t => dget X d = Some t) (firstn k (rev hist)) ts /\ length ts = k.

  Lemma past_ok : forall hist n X (t : da T), past hist n X = Ok t ->
    exists d, nth_error (rev hist) n = Some d /\ dget X d = Some t.
  Proof.
    intros hist n X t H. unfold past in H. destruct (nth_error (rev hist) n) as [d|]; [|discriminate].
    apply dgetE_ok in H. eauto.
  Qed.

  (** One quantity of a step of order [k]. *)
  Definition ab_one (k : nat) (sec : T) (st : state T) (hist : list (dict (da T))) (X : string) : res (da T) :=
    match k with
    | 1 => let* x := state_da X st in let* t := past hist 0 X in da_add x (da_scale t sec)
    | 2 => ab2_one sec st hist X
    | 3 => ab3_one sec st hist X
    | 4 => ab4_one sec st hist X
    | _ => Err ERuntime
    end.

  Lemma firstn_1 : forall {B} (l : list B) a, nth_error l 0 = Some a -> firstn 1 l = [a].
  Proof. intros B [|x l] a H; [discriminate|]. injection H as ->. reflexivity. Qed.
  Lemma firstn_2 : forall {B} (l : list B) a b, nth_error l 0 = Some a -> nth_error l 1 = Some b -> firstn 2 l = [a; b].
  Proof. intros B [|x [|y l]] a b H1 H2; try discriminate. injection H1 as ->. injection H2 as ->. reflexivity. Qed.
  Lemma firstn_3 : forall {B} (l : list B) a b c, nth_error l 0 = Some a -> nth_error l 1 = Some b ->
    nth_error l 2 = Some c -> firstn 3 l = [a; b; c].
  Proof.
    intros B [|x [|y [|z l]]] a b c H1 H2 H3; try discriminate.
    injection H1 as ->. injection H2 as ->. injection H3 as ->. reflexivity.
  Qed.
  Lemma firstn_4 : forall {B} (l : list B) a b c d, nth_error l 0 = Some a -> nth_error l 1 = Some b ->
    nth_error l 2 = Some c -> nth_error l 3 = Some d -> firstn 4 l = [a; b; c; d].
  Proof.
    intros B [|x [|y [|z [|w l]]]] a b c d H1 H2 H3 H4; try discriminate.
    injection H1 as ->. injection H2 as ->. injection H3 as ->. injection H4 as ->. reflexivity.
  Qed.

  Ltac lens := intros; cbn [first_len]; unfold da_scale, da_lscale in *; rewrite ?dim_len_map in *;
    repeat match goal with H : forall d, dim_len _ d = match dim_len (da_map _ _ _) _ with _ => _ end |- _ => rewrite H end;
    repeat match goal with H : forall d, dim_len _ d = match dim_len _ _ with _ => _ end |- _ => rewrite H end;
    rewrite ?dim_len_map in *;
    repeat match goal with |- context [dim_len ?a ?d] => destruct (dim_len a d) end; auto.

  Lemma ab_one_ok : forall k sec (st : state T) hist X r, ab_one k sec st hist X = Ok r ->
    (forall x, dget X st = Some (VDA x) -> wf_da x) -> (forall d t, In d hist -> dget X d = Some t -> wf_da t) ->
    exists x ts, dget X st = Some (VDA x) /\ pasts hist k X ts /\ extends x ts r /\
      forall c, in_grid r c -> in_grid x c /\ Forall (fun t => in_grid t c) ts /\
        da_at r c = ab_formula sec (da_at x c) (map (fun t => da_at t c) ts).
  Proof.
    intros k sec st hist X r H Hx Ht.
    assert (Hp : forall n t, past hist n X = Ok t -> exists d, nth_error (rev hist) n = Some d /\ dget X d = Some t /\ wf_da t).
    { intros n t Hn. apply past_ok in Hn as (d & Hd & Hg). exists d. split; auto. split; auto.
      eapply Ht; eauto. apply in_rev. eapply nth_error_In; eauto. }
    destruct k as [|[|[|[|[|k]]]]]; cbn [ab_one] in H; try discriminate.
    - apply bind_ok in H as (x & Ex & H). apply bind_ok in H as (t & Et & H).
      apply state_da_ok in Ex. specialize (Hx _ Ex). apply Hp in Et as (d1 & N1 & G1 & W1).
      exists x, [t]. split; auto. split; [|split].
      + split; auto. rewrite (firstn_1 _ _ N1). auto.
      + eapply bin_extends; [exact H|auto|apply wf_da_map; auto|lens].
      + intros c Hc. apply da_binop_ok in H as (_ & _ & _ & _ & _ & H); auto; [|apply wf_da_map; auto].
        destruct (H c Hc) as (K1 & K2 & K3). apply in_grid_map in K2. split; auto. split; auto. rewrite K3.
        unfold da_scale. rewrite da_at_map; auto.
    - unfold ab2_one in H. apply bind_ok in H as (x & Ex & H). apply bind_ok in H as (t1 & E1 & H).
      apply bind_ok in H as (t2 & E2 & H). apply bind_ok in H as (s & Es & H).
      apply state_da_ok in Ex. specialize (Hx _ Ex). apply Hp in E1 as (d1 & N1 & G1 & W1). apply Hp in E2 as (d2 & N2 & G2 & W2).
      apply da_binop_ok in Es as (Ws & _ & _ & _ & Ls & Vs); try (apply wf_da_map; auto).
      exists x, [t1; t2]. split; auto. split; [|split].
      + split; auto. rewrite (firstn_2 _ _ _ N1 N2). auto.
      + eapply bin_extends; [exact H|auto|apply wf_da_map; auto|lens].
      + intros c Hc. apply da_binop_ok in H as (_ & _ & _ & _ & _ & H); auto; [|apply wf_da_map; auto].
        destruct (H c Hc) as (K1 & K2 & K3). apply in_grid_map in K2. destruct (Vs c K2) as (V1 & V2 & V3).
        apply in_grid_map in V1. apply in_grid_map in V2. split; auto. split; auto.
        rewrite K3. unfold da_lscale in *. rewrite da_at_map, V3, !da_at_map; auto.
    - unfold ab3_one in H. apply bind_ok in H as (x & Ex & H). apply bind_ok in H as (t1 & E1 & H).
      apply bind_ok in H as (t2 & E2 & H). apply bind_ok in H as (s & Es & H). apply bind_ok in H as (t3 & E3 & H).
      apply bind_ok in H as (s' & Es' & H).
      apply state_da_ok in Ex. specialize (Hx _ Ex). apply Hp in E1 as (d1 & N1 & G1 & W1). apply Hp in E2 as (d2 & N2 & G2 & W2).
      apply Hp in E3 as (d3 & N3 & G3 & W3).
      apply da_binop_ok in Es as (Ws & _ & _ & _ & Ls & Vs); try (apply wf_da_map; auto).
      apply da_binop_ok in Es' as (Ws' & _ & _ & _ & Ls' & Vs'); auto; try (apply wf_da_map; auto).
      exists x, [t1; t2; t3]. split; auto. split; [|split].
      + split; auto. rewrite (firstn_3 _ _ _ _ N1 N2 N3). auto.
      + eapply bin_extends; [exact H|auto|apply wf_da_map; auto|lens].
      + intros c Hc. apply da_binop_ok in H as (_ & _ & _ & _ & _ & H); auto; [|apply wf_da_map; auto].
        destruct (H c Hc) as (K1 & K2 & K3). apply in_grid_map in K2.
        destruct (Vs' c K2) as (V1' & V2' & V3'). destruct (Vs c V1') as (V1 & V2 & V3).
        apply in_grid_map in V1. apply in_grid_map in V2. apply in_grid_map in V2'. split; auto. split; auto.
        rewrite K3. unfold da_lscale in *. rewrite da_at_map, V3', V3, !da_at_map; auto.
    - unfold ab4_one in H. apply bind_ok in H as (x & Ex & H). apply bind_ok in H as (t1 & E1 & H).
      apply bind_ok in H as (t2 & E2 & H). apply bind_ok in H as (s & Es & H). apply bind_ok in H as (t3 & E3 & H).
      apply bind_ok in H as (s' & Es' & H). apply bind_ok in H as (t4 & E4 & H). apply bind_ok in H as (s'' & Es'' & H).
      apply state_da_ok in Ex. specialize (Hx _ Ex). apply Hp in E1 as (d1 & N1 & G1 & W1). apply Hp in E2 as (d2 & N2 & G2 & W2).
      apply Hp in E3 as (d3 & N3 & G3 & W3). apply Hp in E4 as (d4 & N4 & G4 & W4).
      apply da_binop_ok in Es as (Ws & _ & _ & _ & Ls & Vs); try (apply wf_da_map; auto).
      apply da_binop_ok in Es' as (Ws' & _ & _ & _ & Ls' & Vs'); auto; try (apply wf_da_map; auto).
      apply da_binop_ok in Es'' as (Ws'' & _ & _ & _ & Ls'' & Vs''); auto; try (apply wf_da_map; auto).
      exists x, [t1; t2; t3; t4]. split; auto. split; [|split].
      + split; auto. rewrite (firstn_4 _ _ _ _ _ N1 N2 N3 N4). auto.
      + eapply bin_extends; [exact H|auto|apply wf_da_map; auto|lens].
      + intros c Hc. apply da_binop_ok in H as (_ & _ & _ & _ & _ & H); auto; [|apply wf_da_map; auto].
        destruct (H c Hc) as (K1 & K2 & K3). apply in_grid_map in K2.
        destruct (Vs'' c K2) as (V1'' & V2'' & V3''). destruct (Vs' c V1'') as (V1' & V2' & V3'). destruct (Vs c V1') as (V1 & V2 & V3).
        apply in_grid_map in V1. apply in_grid_map in V2. apply in_grid_map in V2'. apply in_grid_map in V2''. split; auto. split; auto.
        rewrite K3. unfold da_lscale in *. rewrite da_at_map, V3'', V3', V3, !da_at_map; auto.
  Qed.

  (** ** Success *)

  Lemma sizes_match_map : forall f g at1 at2 (a b : da T), sizes_match a b -> sizes_match (da_map f at1 a) (da_map g at2 b).
  Proof. intros f g at1 at2 a b H d n m. rewrite !dim_len_map. apply H. Qed.

  Ltac szm Hm a b :=
    repeat match goal with H : Some _ = Some _ |- _ => injection H as <- end;
    eapply (Hm a b); [simpl; tauto|simpl; tauto|eassumption|eassumption].

  Lemma ab_one_succeeds : forall k sec (st : state T) hist X x ts, 1 <= k <= 4 -> dget X st = Some (VDA x) ->
    wf_da x -> Forall wf_da ts -> pasts hist k X ts -> same_sizes (x :: ts) ->
    exists r, ab_one k sec st hist X = Ok r.
  Proof.
    intros k sec st hist X x ts Hk Hx Wx Wt (Fp & Lp) Hm.
    assert (Hp : forall n t, nth_error ts n = Some t -> past hist n X = Ok t).
    { intros n t Hn. unfold past. assert (Hlt : n < k) by (rewrite <- Lp; apply nth_error_Some; congruence).
      assert (G : exists d, nth_error (firstn k (rev hist)) n = Some d /\ dget X d = Some t).
      { clear - Fp Hn. revert n Hn. induction Fp; intros [|n] Hn; simpl in *; try discriminate; eauto. injection Hn as ->. eauto. }
      destruct G as (d & Hd & Hg). rewrite <- (firstn_skipn k (rev hist)), nth_error_app1 by (apply nth_error_Some; congruence).
      rewrite Hd. unfold dgetE. rewrite Hg. auto. }
    assert (Hsx : state_da X st = Ok x) by (apply state_da_ok; auto).
    destruct k as [|[|[|[|[|k]]]]]; try lia.
    - destruct ts as [|t1 [|? ?]]; try discriminate. cbn [ab_one]. rewrite Hsx, (Hp 0 t1 eq_refl). cbn [bind].
      apply da_binop_succeeds; auto. intros d n m Hn Hm'. rewrite <- (Hm x t1) with (d := d) (n := n) (m := m); simpl; auto.
    - destruct ts as [|t1 [|t2 [|? ?]]]; try discriminate. inversion Wt as [|? ? W1 Wt2]; subst. inversion Wt2 as [|? ? W2 _]; subst.
      cbn [ab_one]. unfold ab2_one. rewrite Hsx, (Hp 0 t1 eq_refl), (Hp 1 t2 eq_refl). cbn [bind].
      destruct (da_binop_succeeds asub (attrs (da_lscale (aofQ (3 # 2)) t1)) (da_lscale (aofQ (3 # 2)) t1) (da_lscale (aofQ (1 # 2)) t2))
        as (s & Hs); [apply wf_da_map; auto|apply sizes_match_map, Hm; simpl; auto|].
      unfold da_sub. rewrite Hs. cbn [bind]. apply da_binop_ok in Hs as (_ & _ & _ & _ & Ls & _); try (apply wf_da_map; auto).
      apply da_binop_succeeds; auto. intros d n m Hn Hm'. unfold da_lscale in Hm'. rewrite dim_len_map in Hm'. rewrite Ls in Hm'.
      unfold da_lscale in Hm'. rewrite !dim_len_map in Hm'. destruct (dim_len t1 d) eqn:E1.
      + szm Hm x t1.
      + szm Hm x t2.
    - destruct ts as [|t1 [|t2 [|t3 [|? ?]]]]; try discriminate. inversion Wt as [|? ? W1 Wt2]; subst. inversion Wt2 as [|? ? W2 Wt3]; subst.
      inversion Wt3 as [|? ? W3 _]; subst.
      cbn [ab_one]. unfold ab3_one. rewrite Hsx, (Hp 0 t1 eq_refl), (Hp 1 t2 eq_refl). cbn [bind].
      destruct (da_binop_succeeds asub (attrs (da_lscale (aofQ (23 # 12)) t1)) (da_lscale (aofQ (23 # 12)) t1) (da_lscale (aofQ (4 # 3)) t2))
        as (s & Hs); [apply wf_da_map; auto|apply sizes_match_map, Hm; simpl; auto|].
      unfold da_sub. rewrite Hs. cbn [bind]. apply da_binop_ok in Hs as (Ws & _ & _ & _ & Ls & _); try (apply wf_da_map; auto).
      rewrite (Hp 2 t3 eq_refl). cbn [bind].
      destruct (da_binop_succeeds aadd (attrs s) s (da_lscale (aofQ (5 # 12)) t3)) as (s' & Hs'); auto.
      { intros d n m Hn Hm'. rewrite Ls in Hn. unfold da_lscale in Hn, Hm'. rewrite !dim_len_map in *. destruct (dim_len t1 d) eqn:E1.
        + szm Hm t1 t3.
        + szm Hm t2 t3. }
      unfold da_add at 1. rewrite Hs'. cbn [bind]. apply da_binop_ok in Hs' as (_ & _ & _ & _ & Ls' & _); auto; try (apply wf_da_map; auto).
      apply da_binop_succeeds; auto. intros d n m Hn Hm'. unfold da_lscale in Hm'. rewrite dim_len_map, Ls', Ls in Hm'.
      unfold da_lscale in Hm'. rewrite !dim_len_map in Hm'. destruct (dim_len t1 d) eqn:E1; [|destruct (dim_len t2 d) eqn:E2].
      + szm Hm x t1.
      + szm Hm x t2.
      + szm Hm x t3.
    - destruct ts as [|t1 [|t2 [|t3 [|t4 [|? ?]]]]]; try discriminate. inversion Wt as [|? ? W1 Wt2]; subst. inversion Wt2 as [|? ? W2 Wt3]; subst.
      inversion Wt3 as [|? ? W3 Wt4]; subst. inversion Wt4 as [|? ? W4 _]; subst.
      cbn [ab_one]. unfold ab4_one. rewrite Hsx, (Hp 0 t1 eq_refl), (Hp 1 t2 eq_refl). cbn [bind].
      destruct (da_binop_succeeds asub (attrs (da_lscale (aofQ (55 # 24)) t1)) (da_lscale (aofQ (55 # 24)) t1) (da_lscale (aofQ (59 # 24)) t2))
        as (s & Hs); [apply wf_da_map; auto|apply sizes_match_map, Hm; simpl; auto|].
      unfold da_sub. rewrite Hs. cbn [bind]. apply da_binop_ok in Hs as (Ws & _ & _ & _ & Ls & _); try (apply wf_da_map; auto).
      rewrite (Hp 2 t3 eq_refl). cbn [bind].
      destruct (da_binop_succeeds aadd (attrs s) s (da_lscale (aofQ (37 # 24)) t3)) as (s' & Hs'); auto.
      { intros d n m Hn Hm'. rewrite Ls in Hn. unfold da_lscale in Hn, Hm'. rewrite !dim_len_map in *. destruct (dim_len t1 d) eqn:E1.
        + szm Hm t1 t3.
        + szm Hm t2 t3. }
      unfold da_add at 1. rewrite Hs'. cbn [bind]. apply da_binop_ok in Hs' as (Ws' & _ & _ & _ & Ls' & _); auto; try (apply wf_da_map; auto).
      rewrite (Hp 3 t4 eq_refl). cbn [bind].
      destruct (da_binop_succeeds asub (attrs s') s' (da_lscale (aofQ (3 # 8)) t4)) as (s'' & Hs''); auto.
      { intros d n m Hn Hm'. rewrite Ls', Ls in Hn. unfold da_lscale in Hn, Hm'. rewrite !dim_len_map in *.
        destruct (dim_len t1 d) eqn:E1; [|destruct (dim_len t2 d) eqn:E2].
        + szm Hm t1 t4.
        + szm Hm t2 t4.
        + szm Hm t3 t4. }
      rewrite Hs''. cbn [bind]. apply da_binop_ok in Hs'' as (_ & _ & _ & _ & Ls'' & _); auto; try (apply wf_da_map; auto).
      apply da_binop_succeeds; auto. intros d n m Hn Hm'. unfold da_lscale in Hm'. rewrite dim_len_map, Ls'', Ls', Ls in Hm'.
      unfold da_lscale in Hm'. rewrite !dim_len_map in Hm'.
      destruct (dim_len t1 d) eqn:E1; [|destruct (dim_len t2 d) eqn:E2; [|destruct (dim_len t3 d) eqn:E3]].
      + szm Hm x t1.
      + szm Hm x t2.
      + szm Hm x t3.
      + szm Hm x t4.
  Qed.
End Facts.
