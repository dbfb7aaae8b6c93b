(** Lemmas about state arithmetic, forward Euler and SSPRungeKutta. *)
From Coq Require Import String List Bool Arith ZArith QArith Qcanon Lia.
From Verif Require Import Prelude PreludeFacts ArithM NdArray NdFacts Units DataArrayM GetNp Components Composite Steppers
  SpecUnits UnitsFacts SpecDa DaFacts SpecComposite SpecSteppers SteppersFacts ABFacts.
Import ListNotations.
Open Scope string_scope.
Open Scope nat_scope.
Open Scope list_scope.

Section Facts.
  Context {T : Type} {A : Arith T} {R : Registry}.

  (** ** Arithmetic on states *)

  Definition tstep_fold (g : string -> da T -> res (da T)) (acc : state T) (kv : string * pval T) : res (state T) :=
    if String.eqb (fst kv) "time" then Ok acc
    else match snd kv with
         | VTime _ => Err EType
         | VDA a => let* b := g (fst kv) a in Ok (dset (fst kv) (VDA b) acc)
         end.

  Lemma tstep_fold_ok : forall g l acc out, foldM (tstep_fold g) l acc = Ok out -> NoDup (keys l) ->
    dget "time" out = dget "time" acc /\
    (forall X, X <> "time" ->
       match dget X l with
       | None => dget X out = dget X acc
       | Some (VTime _) => False
       | Some (VDA a) => exists b, g X a = Ok b /\ dget X out = Some (VDA b)
       end) /\
    (NoDup (keys acc) -> NoDup (keys out)).
  Proof.
    intros g l. induction l as [|[k v] l IH]; intros acc out H Hnd; cbn [foldM] in H.
    - injection H as <-. repeat split; auto.
    - apply bind_ok in H as (acc1 & Hs & H). inversion Hnd as [|? ? Hni Hnd']; subst.
      destruct (IH _ _ H Hnd') as (I1 & I2 & I3). unfold tstep_fold in Hs. cbn [fst snd] in Hs.
      destruct (String.eqb k "time") eqn:Ek.
      + injection Hs as <-. split; auto. split; auto. intros X HX. cbn [dget].
        apply String.eqb_eq in Ek; subst k. apply String.eqb_neq in HX. rewrite HX. apply I2. apply String.eqb_neq; auto.
      + destruct v as [a|t]; [|discriminate]. apply bind_ok in Hs as (b & Hb & Hs). injection Hs as <-.
        apply String.eqb_neq in Ek. rewrite dget_dset_neq in I1 by auto. split; auto. split.
        * intros X HX. cbn [dget]. destruct (String.eqb X k) eqn:E.
          -- apply String.eqb_eq in E; subst X. specialize (I2 k HX). assert (Hnone : dget k l = None) by (apply dget_none; auto). rewrite Hnone in I2.
             rewrite dget_dset_eq in I2. eauto.
          -- apply String.eqb_neq in E. specialize (I2 X HX). rewrite dget_dset_neq in I2 by auto. auto.
        * intros Ha. apply I3. apply NoDup_dset; auto.
  Qed.

  Lemma time_first_get : forall (st : state T), dget "time" (time_first st) = dget "time" st /\
    (forall X, X <> "time" -> dget X (time_first st) = None) /\ NoDup (keys (time_first st)).
  Proof.
    intros st. unfold time_first. destruct (dget "time" st) as [v|]; cbn [dget].
    - split; [reflexivity|]. split.
      + intros X HX. apply String.eqb_neq in HX. rewrite HX. auto.
      + repeat constructor. intros [].
    - repeat split; auto. constructor.
  Qed.

  Lemma multiply_ok : forall x (st out : state T), multiply x st = Ok out -> NoDup (keys st) ->
    dget "time" out = dget "time" st /\
    (forall X, X <> "time" ->
       match dget X st with
       | None => dget X out = None
       | Some (VTime _) => False
       | Some (VDA a) => dget X out = Some (VDA (da_map (fun y => amul x y) (attrs a) a))
       end) /\ NoDup (keys out).
  Proof.
    intros x st out H Hnd. unfold multiply in H.
    assert (E : foldM (tstep_fold (fun _ a => Ok (da_map (fun y => amul x y) (attrs a) a))) st (time_first st) = Ok out) by exact H.
    apply tstep_fold_ok in E as (E1 & E2 & E3); auto. destruct (time_first_get st) as (F1 & F2 & F3).
    split; [congruence|]. split; auto. intros X HX. specialize (E2 X HX). destruct (dget X st) as [[a|t]|]; auto.
    - destruct E2 as (b & Hb & ->). injection Hb as <-. auto.
    - rewrite E2. auto.
  Qed.

  Lemma add_states_ok : forall (st1 st2 out : state T), add_states st1 st2 = Ok out -> NoDup (keys st1) ->
    dget "time" out = dget "time" st1 /\
    (forall X, X <> "time" ->
       match dget X st1 with
       | None => dget X out = None
       | Some (VTime _) => False
       | Some (VDA a) => exists b s, dget X st2 = Some (VDA b) /\ da_add a b = Ok s /\ dget X out = Some (VDA s)
       end) /\ NoDup (keys out).
  Proof.
    intros st1 st2 out H Hnd. unfold add_states in H.
    assert (E : foldM (tstep_fold (fun k a => let* b := state_da k st2 in da_add a b)) st1 (time_first st1) = Ok out).
    { rewrite <- H. clear. generalize (time_first st1). induction st1 as [|[k v] l IH]; intros acc; cbn [foldM]; auto.
      assert (Es : tstep_fold (fun k a => let* b := state_da k st2 in da_add a b) acc (k, v) = add_states_step st2 acc (k, v)).
      { unfold tstep_fold, add_states_step. cbn [fst snd]. destruct (String.eqb k "time"); auto. destruct v as [a|]; auto.
        destruct (state_da k st2); cbn [bind]; auto. }
      rewrite Es. destruct (add_states_step st2 acc (k, v)); cbn [bind]; auto. }
    apply tstep_fold_ok in E as (E1 & E2 & E3); auto. destruct (time_first_get st1) as (F1 & F2 & F3).
    split; [congruence|]. split; auto. intros X HX. specialize (E2 X HX). destruct (dget X st1) as [[a|t]|]; auto.
    - destruct E2 as (s & Hs & ->). apply bind_ok in Hs as (b & Hb & Hs). apply state_da_ok in Hb. eauto.
    - rewrite E2. auto.
  Qed.

  Lemma extends_one : forall (x x' r : da T), da_add x x' = Ok r -> wf_da x -> wf_da x' ->
    extends x [x'] r /\ forall c, in_grid r c -> in_grid x c /\ in_grid x' c /\ da_at r c = aadd (da_at x c) (da_at x' c).
  Proof.
    intros x x' r H Wx Wx'. split.
    - eapply bin_extends; eauto. intros d. cbn [first_len]. destruct (dim_len x' d); auto.
    - intros c Hc. apply da_binop_ok in H as (_ & _ & _ & _ & _ & H); auto.
  Qed.

  (** a * st + b * st' *)
  Lemma mix_ok : forall x y (st st' a b out : state T), proper_state st -> proper_state st' ->
    multiply x st = Ok a -> multiply y st' = Ok b -> add_states a b = Ok out ->
    combination (fun p q => aadd (amul x p) (amul y q)) st st' out /\ proper_state out.
  Proof.
    intros x y st st' a b out [N W] [N' W'] Ha Hb Ho.
    apply multiply_ok in Ha as (A1 & A2 & A3); auto. apply multiply_ok in Hb as (B1 & B2 & B3); auto.
    apply add_states_ok in Ho as (O1 & O2 & O3); auto.
    assert (C : combination (fun p q => aadd (amul x p) (amul y q)) st st' out).
    { split; [congruence|]. intros X HX. specialize (A2 X HX). specialize (B2 X HX). specialize (O2 X HX).
      destruct (dget X st) as [[p|t]|] eqn:Es; auto.
      - rewrite A2 in O2. destruct O2 as (q & s & Hq & Hs & Hg). destruct (dget X st') as [[p'|t]|] eqn:Es'; try congruence; [|contradiction].
        rewrite B2 in Hq. injection Hq as <-. exists p', s. split; auto. split; auto.
        specialize (W _ _ Es). specialize (W' _ _ Es').
        apply extends_one in Hs as (H1 & H2); try (apply wf_da_map; auto). split; auto.
        intros c Hc. destruct (H2 c Hc) as (G1 & G2 & ->). apply in_grid_map in G1. apply in_grid_map in G2. split; auto. unfold da_lscale. rewrite !da_at_map; auto.
      - rewrite A2 in O2. auto. }
    split; auto. split; auto. intros X s Hs. destruct (string_dec X "time") as [->|HX].
    - destruct C as [C _]. rewrite C in Hs. eauto.
    - destruct C as [_ C]. specialize (C X HX). destruct (dget X st) as [[p|t]|]; [|contradiction|congruence].
      destruct C as (x' & r & _ & Hr & (Wr & _) & _). congruence.
  Qed.

  (** y * (st + st') *)
  Lemma half_sum_ok : forall y (st st' s out : state T), proper_state st -> proper_state st' ->
    add_states st st' = Ok s -> multiply y s = Ok out ->
    combination (fun p q => amul y (aadd p q)) st st' out /\ proper_state out.
  Proof.
    intros y st st' s out [N W] [N' W'] Hs Ho.
    apply add_states_ok in Hs as (S1 & S2 & S3); auto. apply multiply_ok in Ho as (O1 & O2 & O3); auto.
    assert (C : combination (fun p q => amul y (aadd p q)) st st' out).
    { split; [congruence|]. intros X HX. specialize (S2 X HX). specialize (O2 X HX).
      destruct (dget X st) as [[p|t]|] eqn:Es; auto.
      - destruct S2 as (q & r & Hq & Hr & Hg). rewrite Hg in O2. eexists q, _. split; auto. split; eauto.
        specialize (W _ _ Es). specialize (W' _ _ Hq). apply extends_one in Hr as (H1 & H2); auto.
        assert (Wr : wf_da r) by apply H1. split.
        + destruct H1 as (X1 & X2 & X3 & X4). split; [apply wf_da_map; auto|]. split; auto.
        + intros c Hc. apply in_grid_map in Hc. rewrite da_at_map; auto. destruct (H2 c Hc) as (_ & G & ->). auto.
      - rewrite S2 in O2. auto. }
    split; auto. split; auto. intros X r Hr. destruct (string_dec X "time") as [->|HX].
    - destruct C as [C _]. rewrite C in Hr. eauto.
    - destruct C as [_ C]. specialize (C X HX). destruct (dget X st) as [[p|t]|]; [|contradiction|congruence].
      destruct C as (x' & r' & _ & Hr' & (Wr & _) & _). congruence.
  Qed.

  (** ** Forward Euler *)

  Lemma NoDup_copy_untouched : forall (old new : state T), NoDup (keys new) -> NoDup (keys (copy_untouched old new)).
  Proof.
    intros old. unfold copy_untouched. induction old as [|[k v] old IH]; intros new H; cbn [fold_left fst snd]; auto.
    apply IH. destruct (dmem k new); auto. apply NoDup_dset; auto.
  Qed.

  Lemma euler_ok : forall (st : state T) tend0 tend dt new0, convert_tendencies st tend0 = Ok tend ->
    step_forward_euler st tend dt = Ok new0 -> proper_state st -> proper tend0 ->
    euler_step dt st tend0 (copy_untouched st new0) /\ proper_state (copy_untouched st new0).
  Proof.
    intros st tend0 tend dt new0 Hc Hs [N W] [Nt Wt].
    apply convert_ok in Hc as (Hk & Hc). apply for_keys_ok in Hs as (Ks & Hs & Hn).
    assert (E : euler_step dt st tend0 (copy_untouched st new0)).
    { split.
      - intros X HX. rewrite copy_untouched_get, Hn; auto. rewrite Hk; auto.
      - intros X t0 Ht0. specialize (Hc X). rewrite Ht0 in Hc. destruct Hc as (t & Hcv & Ht).
        destruct (Hs X) as (r & Hr & Hg). { eapply dget_In_keys; eauto. }
        pose proof (Wt _ _ Ht0) as Wt0. apply conv_spec in Hcv as (Wc & _ & Lc & Vc); auto.
        apply euler_one_ok in Hr as (x & t' & Hx & Ht' & He & Hv).
        + rewrite Ht in Ht'. injection Ht' as <-. exists x, r. split; auto.
          split. { rewrite copy_untouched_get, Hg. auto. }
          split. { destruct He as (E1 & E2 & E3 & E4). repeat (split; auto). intros d. rewrite E4. cbn [first_len]. rewrite Lc. auto. }
          intros c Hgr. destruct (Hv c Hgr) as (V1 & V2 & V3).
          assert (Hgt : in_grid t0 c) by (intros d m Hd; rewrite <- Lc in Hd; auto). split; auto. exists (da_at t c). split; auto.
        + intros x Hx. eauto.
        + intros t' Ht'. congruence. }
    split; auto. split. { apply NoDup_copy_untouched. rewrite Ks, Hk. auto. }
    intros X a Ha. destruct (dget X tend0) as [t0|] eqn:Et.
    - destruct E as [_ E]. destruct (E X t0 Et) as (x & r & _ & Hr & (Wr & _) & _). congruence.
    - destruct E as [E _]. rewrite E in Ha; eauto. intros HX. apply In_keys_dget in HX as (v & Hv). congruence.
  Qed.

  Lemma perform_step_1 : forall hist tend (st : state T) dt,
    perform_step 1 (hist ++ [tend]) st dt = step_forward_euler st tend dt.
  Proof.
    intros hist tend st dt. unfold perform_step. rewrite app_length. cbn [length].
    replace (Nat.min 1 (length hist + 1)) with 1 by lia. rewrite rev_app_distr. reflexivity.
  Qed.

  Lemma ab_order_call : forall {U} (prog : icaller U) a u (st : state T) dt a' u' r,
    ab_call prog (a, u) st dt = ((a', u'), r) -> ab_order a' = ab_order a.
  Proof.
    intros U prog a u st dt a' u' r H. unfold ab_call in H.
    destruct (ensure_timestep (ab_dt a) dt) as [[]|e]; [|congruence].
    destruct (prog u st dt) as [u1 [[tend0 pd]|e]]; cbn [bind fst snd] in H; [|injection H as <- <- <-; auto].
    destruct (convert_tendencies st tend0) as [tend|e]; cbn [bind] in H; [|injection H as <- <- <-; auto].
    destruct (perform_step (ab_order a) (ab_hist a ++ [tend]) st dt); injection H as <- <- <-; auto.
  Qed.

  Lemma inner_euler_ok : forall {U} (prog : icaller U) a u (st : state T) dt a' u' diag new, ab_order a = 1 ->
    proper_components prog -> proper_state st ->
    inner_euler prog (a, u) st dt = ((a', u'), Ok (diag, new)) ->
    exists tend, prog u st dt = (u', Ok (tend, diag)) /\ euler_step dt st tend new /\ proper_state new.
  Proof.
    intros U prog a u st dt a' u' diag new Ho Hpc Hps H. unfold inner_euler in H.
    destruct (ab_call prog (a, u) st dt) as [[a1 u1] [[d0 n0]|e]] eqn:Ec; cbn [bind fst snd] in H; [|discriminate].
    injection H as <- <- <- <-. apply ab_call_ok in Ec as (t0 & t & new0 & _ & Hp & Hc & Hs & -> & _).
    rewrite Ho, perform_step_1 in Hs. rewrite copy_untouched_idem. exists t0. split; auto.
    eapply euler_ok; eauto.
  Qed.

  Lemma inner_euler_order : forall {U} (prog : icaller U) a u (st : state T) dt a' u' r,
    inner_euler prog (a, u) st dt = ((a', u'), r) -> ab_order a' = ab_order a.
  Proof.
    intros U prog a u st dt a' u' r H. unfold inner_euler in H.
    destruct (ab_call prog (a, u) st dt) as [[a1 u1] r1] eqn:Ec. injection H as <- <- <-. eapply ab_order_call; eauto.
  Qed.

  (** ** SSPRungeKutta *)

  Lemma rk3_order : forall {U} (prog : icaller U) a u (st : state T) dt a' u' r,
    rk3 prog (a, u) st dt = ((a', u'), r) -> ab_order a' = ab_order a.
  Proof.
    intros U prog a u st dt a' u' r H. unfold rk3 in H.
    destruct (inner_euler prog (a, u) st dt) as [[a1 u1] r1] eqn:E1. apply inner_euler_order in E1.
    destruct r1 as [[diag st1]|e]; [|injection H as <- <- <-; auto].
    destruct (inner_euler prog (a1, u1) st1 dt) as [[a2 u2] r2] eqn:E2. apply inner_euler_order in E2.
    match type of H with context [match ?m with Ok _ => _ | Err _ => _ end] => destruct m as [st2|e] end;
      [|injection H as <- <- <-; congruence].
    destruct (inner_euler prog (a2, u2) st2 dt) as [[a3 u3] r3] eqn:E3. apply inner_euler_order in E3.
    injection H as <- <- <-; congruence.
  Qed.

  Lemma rk2_order : forall {U} (prog : icaller U) a u (st : state T) dt a' u' r,
    rk2 prog (a, u) st dt = ((a', u'), r) -> ab_order a' = ab_order a.
  Proof.
    intros U prog a u st dt a' u' r H. unfold rk2 in H.
    destruct (inner_euler prog (a, u) st dt) as [[a1 u1] r1] eqn:E1. apply inner_euler_order in E1.
    destruct r1 as [[diag st1]|e]; [|injection H as <- <- <-; auto].
    destruct (inner_euler prog (a1, u1) st1 dt) as [[a2 u2] r2] eqn:E2. apply inner_euler_order in E2.
    injection H as <- <- <-; congruence.
  Qed.

  Lemma ssp_rk_invariant : forall {U} cfg (prog : icaller U) k u (st : state T) dt k' u' r,
    ssp_rk cfg prog (k, u) st dt = ((k', u'), r) -> ab_order (rk_euler k') = ab_order (rk_euler k) /\ rk_stages k' = rk_stages k.
  Proof.
    intros U cfg prog k u st dt k' u' r H. unfold ssp_rk in H.
    destruct ((if Nat.eqb (rk_stages k) 2 then rk2 else rk3) prog (rk_euler k, u) st dt) as [[e u1] r1] eqn:E.
    injection H as <- <- <-. cbn [rk_euler rk_stages]. split; auto.
    destruct (Nat.eqb (rk_stages k) 2); [eapply rk2_order; eauto|eapply rk3_order; eauto].
  Qed.

  Lemma rk_reachable : forall {U} cfg (prog : icaller U) z k u calls k' u', new_rk z = Ok k ->
    after (ssp_rk cfg prog) calls (k, u) = (k', u') -> ab_order (rk_euler k') = 1 /\ Z.of_nat (rk_stages k') = z /\ (z = 2 \/ z = 3)%Z.
  Proof.
    intros U cfg prog z k u calls k' u' Hk H.
    assert (G : ab_order (rk_euler k) = 1 /\ Z.of_nat (rk_stages k) = z /\ (z = 2 \/ z = 3)%Z).
    { unfold new_rk in Hk. destruct (Z.eqb z 2) eqn:E2; [apply Z.eqb_eq in E2|destruct (Z.eqb z 3) eqn:E3; [apply Z.eqb_eq in E3|discriminate]];
        injection Hk as <-; cbn; subst; auto. }
    clear Hk. revert k u G H. unfold after. induction calls as [|[st dt] calls IH]; intros k u G H; cbn [fold_left fst snd] in H.
    - injection H as <- <-. auto.
    - destruct (ssp_rk cfg prog (k, u) st dt) as [[k1 u1] r] eqn:E. cbn [fst] in H.
      apply ssp_rk_invariant in E as [E1 E2]. eapply IH in H; eauto. rewrite E1, E2. auto.
  Qed.

  Lemma combination_copy : forall f (st st' out : state T), combination f st st' out ->
    forall X, dget X (copy_untouched st out) = dget X out.
  Proof.
    intros f st st' out [C1 C2] X. rewrite copy_untouched_get. destruct (dget X out) eqn:E; auto.
    destruct (string_dec X "time") as [->|HX]; [congruence|]. specialize (C2 X HX).
    destruct (dget X st) as [[x|t]|]; auto; [|contradiction]. destruct C2 as (x' & r & _ & Hr & _). congruence.
  Qed.

  Lemma combination_get : forall f (st st' out out' : state T), (forall X, dget X out' = dget X out) ->
    combination f st st' out -> combination f st st' out'.
  Proof.
    intros f st st' out out' H [C1 C2]. split; [rewrite H; auto|]. intros X HX. specialize (C2 X HX). rewrite H. auto.
  Qed.

  Lemma proper_state_get : forall (out out' : state T), (forall X, dget X out' = dget X out) -> NoDup (keys out') ->
    proper_state out -> proper_state out'.
  Proof. intros out out' H N [_ W]. split; auto. intros X a Ha. rewrite H in Ha. eauto. Qed.

  Lemma rk3_ok : forall {U} cfg (prog : icaller U) e u (st : state T) dt s' diag new, ab_order e = 1 ->
    proper_components prog -> proper_state st ->
    ssp_rk cfg prog (mkrk 3 e, u) st dt = (s', Ok (diag, new)) ->
    exists u1 u2 u3 tend1 tend2 tend3 diag1 diag2 diag3 st1 st15 st2 st25,
      prog u st dt = (u1, Ok (tend1, diag1)) /\ euler_step dt st tend1 st1 /\
      prog u1 st1 dt = (u2, Ok (tend2, diag2)) /\ euler_step dt st1 tend2 st15 /\
      combination (fun x y => aadd (amul (aofQ (3 # 4)) x) (amul (aofQ (1 # 4)) y)) st st15 st2 /\
      prog u2 st2 dt = (u3, Ok (tend3, diag3)) /\ euler_step dt st2 tend3 st25 /\
      combination (fun x y => aadd (amul (aofQ (1 # 3)) x) (amul (aofQ (2 # 3)) y)) st st25 new /\
      proper_state new /\ snd s' = u3 /\
      (if ts_tid cfg then insert_differences cfg dt st new diag1 = Ok diag else diag = diag1) /\
      proper_state st1 /\ proper_state st15 /\ proper_state st2 /\ proper_state st25.
  Proof.
    intros U cfg prog e u st dt s' diag new Ho Hpc Hps H. unfold ssp_rk in H. cbn [rk_stages rk_euler Nat.eqb] in H.
    destruct (rk3 prog (e, u) st dt) as [[e3 u3] r] eqn:E. injection H as <- H.
    apply finish_ok in H as (d0 & n0 & -> & Hn & Hd). unfold rk3 in E.
    destruct (inner_euler prog (e, u) st dt) as [[e1 u1] [[dg1 st1]|x1]] eqn:E1; [|discriminate].
    pose proof (inner_euler_order _ _ _ _ _ _ _ _ E1) as O1.
    apply inner_euler_ok in E1 as (t1 & P1 & S1 & W1); auto.
    destruct (inner_euler prog (e1, u1) st1 dt) as [[e2 u2] [[dg2 st15]|x2]] eqn:E2; cbn [bind fst snd] in E; [|discriminate].
    pose proof (inner_euler_order _ _ _ _ _ _ _ _ E2) as O2.
    apply inner_euler_ok in E2 as (t2 & P2 & S2 & W2); auto; [|congruence].
    destruct (multiply (aofQ (3 # 4)) st) as [a|x3] eqn:Ma; cbn [bind] in E; [|discriminate].
    destruct (multiply (aofQ (1 # 4)) st15) as [b|x4] eqn:Mb; cbn [bind] in E; [|discriminate].
    destruct (add_states a b) as [st2|x5] eqn:Mc; [|discriminate].
    destruct (mix_ok _ _ _ _ _ _ _ Hps W2 Ma Mb Mc) as (C2 & W3).
    destruct (inner_euler prog (e2, u2) st2 dt) as [[e3' u3'] [[dg3 st25]|x6]] eqn:E3; cbn [bind fst snd] in E; [|discriminate].
    apply inner_euler_ok in E3 as (t3 & P3 & S3 & W4); auto; [|congruence].
    destruct (multiply (aofQ (1 # 3)) st) as [a'|x7] eqn:Ma'; cbn [bind] in E; [|discriminate].
    destruct (multiply (aofQ (2 # 3)) st25) as [b'|x8] eqn:Mb'; cbn [bind] in E; [|discriminate].
    destruct (add_states a' b') as [out|x9] eqn:Mc'; cbn [bind] in E; [|discriminate].
    destruct (mix_ok _ _ _ _ _ _ _ Hps W4 Ma' Mb' Mc') as (C3 & W5).
    injection E as -> -> -> ->. pose proof (combination_copy _ _ _ _ C3) as Hcp. rewrite <- Hn in Hcp.
    exists u1, u2, u3, t1, t2, t3, d0, dg2, dg3, st1, st15, st2, st25.
    pose proof (combination_get _ _ _ _ _ Hcp C3) as C4.
    assert (W6 : proper_state new).
    { apply (proper_state_get _ _ Hcp); auto. subst new. apply NoDup_copy_untouched. apply W5. }
    repeat match goal with |- _ /\ _ => split end; auto.
  Qed.

  Lemma rk2_ok : forall {U} cfg (prog : icaller U) e u (st : state T) dt s' diag new, ab_order e = 1 ->
    proper_components prog -> proper_state st ->
    ssp_rk cfg prog (mkrk 2 e, u) st dt = (s', Ok (diag, new)) ->
    exists u1 u2 tend1 tend2 diag1 diag2 st1 st2,
      prog u st dt = (u1, Ok (tend1, diag1)) /\ euler_step dt st tend1 st1 /\
      prog u1 st1 dt = (u2, Ok (tend2, diag2)) /\ euler_step dt st1 tend2 st2 /\
      combination (fun x y => amul (aofQ (1 # 2)) (aadd x y)) st st2 new /\
      proper_state new /\ snd s' = u2 /\
      (if ts_tid cfg then insert_differences cfg dt st new diag1 = Ok diag else diag = diag1) /\
      proper_state st1 /\ proper_state st2.
  Proof.
    intros U cfg prog e u st dt s' diag new Ho Hpc Hps H. unfold ssp_rk in H. cbn [rk_stages rk_euler Nat.eqb] in H.
    destruct (rk2 prog (e, u) st dt) as [[e3 u3] r] eqn:E. injection H as <- H.
    apply finish_ok in H as (d0 & n0 & -> & Hn & Hd). unfold rk2 in E.
    destruct (inner_euler prog (e, u) st dt) as [[e1 u1] [[dg1 st1]|x1]] eqn:E1; [|discriminate].
    pose proof (inner_euler_order _ _ _ _ _ _ _ _ E1) as O1.
    apply inner_euler_ok in E1 as (t1 & P1 & S1 & W1); auto.
    destruct (inner_euler prog (e1, u1) st1 dt) as [[e2 u2] [[dg2 st2]|x2]] eqn:E2; cbn [bind fst snd] in E; [|discriminate].
    apply inner_euler_ok in E2 as (t2 & P2 & S2 & W2); auto; [|congruence].
    destruct (add_states st st2) as [s|x5] eqn:Mc; cbn [bind] in E; [|discriminate].
    destruct (multiply (aofQ (1 # 2)) s) as [out|x7] eqn:Ma'; cbn [bind] in E; [|discriminate].
    destruct (half_sum_ok _ _ _ _ _ Hps W2 Mc Ma') as (C3 & W5).
    injection E as -> -> -> ->. pose proof (combination_copy _ _ _ _ C3) as Hcp. rewrite <- Hn in Hcp.
    exists u1, u3, t1, t2, d0, dg2, st1, st2.
    pose proof (combination_get _ _ _ _ _ Hcp C3) as C4.
    assert (W6 : proper_state new).
    { apply (proper_state_get _ _ Hcp); auto. subst new. apply NoDup_copy_untouched. apply W5. }
    repeat match goal with |- _ /\ _ => split end; auto.
  Qed.
End Facts.
