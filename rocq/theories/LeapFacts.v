(** Lemmas about Leapfrog. *)
From Coq Require Import String List Bool Arith ZArith QArith Qcanon Lia.
From Verif Require Import Prelude PreludeFacts ArithM NdArray NdFacts Units DataArrayM GetNp Components Composite Steppers
  SpecUnits UnitsFacts SpecDa DaFacts SpecComposite SpecSteppers SteppersFacts ABFacts RKFacts.
Import ListNotations.
Open Scope string_scope.
Open Scope nat_scope.
Open Scope list_scope.

Section Facts.
  Context {T : Type} {A : Arith T} {R : Registry}.

  Lemma da_iadd_ok : forall (a b r : da T), da_iadd a b = Ok r -> wf_da a -> wf_da b ->
    extends a [] r /\ dims r = dims a /\ incl (dims b) (dims a) /\ sizes_match a b /\
    forall c, in_grid a c -> in_grid b c /\ da_at r c = aadd (da_at a c) (da_at b c).
  Proof.
    intros a b r H Ha Hb. unfold da_iadd in H. destruct (forallb (fun d => mem d (dims a)) (dims b)) eqn:E; [|discriminate].
    assert (Hi : incl (dims b) (dims a)). { intros d Hd. rewrite forallb_forall in E. apply mem_In. auto. }
    apply da_binop_ok in H as (W & At & D & M & L & V); auto.
    assert (Hl : forall d, dim_len r d = dim_len a d).
    { intros d. rewrite L. destruct (dim_len a d) eqn:Ed; auto. apply dim_len_none in Ed; auto. apply dim_len_none; auto. }
    assert (Hd : dims r = dims a).
    { rewrite D. unfold bin_dims. assert (Hf : filter (fun d => negb (mem d (dims a))) (dims b) = []); [|rewrite Hf, app_nil_r; auto].
      clear - Hi. induction (dims b) as [|d l IH]; simpl; auto.
      assert (mem d (dims a) = true) by (apply mem_In, Hi; left; auto). rewrite H. simpl. apply IH. intros x Hx; apply Hi; right; auto. }
    split; [|split; [|split; [|split]]]; auto.
    - split; auto. split; auto. split. { exists []. rewrite app_nil_r; auto. }
      intros d. rewrite Hl. cbn [first_len]. destruct (dim_len a d); auto.
    - intros c Hc. destruct (V c) as (_ & V2 & V3); auto. intros d n Hn. rewrite Hl in Hn. auto.
  Qed.

  Lemma da_iadd_succeeds : forall (a b : da T), wf_da a -> incl (dims b) (dims a) -> sizes_match a b -> exists r, da_iadd a b = Ok r.
  Proof.
    intros a b Ha Hi Hm. unfold da_iadd. assert (E : forallb (fun d => mem d (dims a)) (dims b) = true).
    { apply forallb_forall. intros d Hd. apply mem_In. auto. }
    rewrite E. apply da_binop_succeeds; auto.
  Qed.

  (** ** The loop *)

  Definition leap_quantity (sec nu alpha : T) (old st : state T) (tend : dict (da T)) (X : string) (x' n' : da T) : Prop :=
    exists n w x, leap_one sec nu old st tend X = Ok (n, w) /\ dget X st = Some (VDA x) /\
      da_iadd x (da_lscale alpha w) = Ok x' /\
      (if aeqb alpha (aofQ (1 # 1)) then Ok n else da_iadd n (da_lscale (asub alpha (aofQ (1 # 1))) w)) = Ok n'.

  Lemma leap_one_get : forall sec nu (old st st' : state T) tend X, dget X st' = dget X st ->
    leap_one sec nu old st' tend X = leap_one sec nu old st tend X.
  Proof. intros sec nu old st st' tend X H. unfold leap_one, state_da, dgetE. rewrite H. auto. Qed.

  Lemma leap_loop_ok : forall sec nu alpha (old : state T) tend ks st new st' new', NoDup ks ->
    leap_loop sec nu alpha old tend ks st new = (st', Ok new') ->
    (forall X, ~ In X ks -> dget X st' = dget X st /\ dget X new' = dget X new) /\
    (forall X, In X ks -> exists x' n', leap_quantity sec nu alpha old st tend X x' n' /\
       dget X st' = Some (VDA x') /\ dget X new' = Some (VDA n')) /\
    (NoDup (keys st) -> NoDup (keys st')) /\ (NoDup (keys new) -> NoDup (keys new')).
  Proof.
    intros sec nu alpha old tend ks. induction ks as [|k ks IH]; intros st new st' new' Hnd H; cbn [leap_loop] in H.
    - injection H as <- <-. repeat split; auto. intros X [].
    - inversion Hnd as [|? ? Hni Hnd']; subst.
      destruct (leap_one sec nu old st tend k) as [[n w]|e] eqn:E1; cbn [bind fst snd] in H; [|discriminate].
      destruct (state_da k st) as [x|e] eqn:E2; cbn [bind] in H; [|discriminate].
      destruct (da_iadd x (da_lscale alpha w)) as [x'|e] eqn:E3; cbn [bind] in H; [|discriminate].
      apply state_da_ok in E2.
      destruct (if aeqb alpha (aofQ (1 # 1)) then Ok n else da_iadd n (da_lscale (asub alpha (aofQ (1 # 1))) w)) as [n'|e] eqn:E4; [|discriminate].
      apply IH in H as (I1 & I2 & I3 & I4); auto. split; [|split; [|split]].
      + intros X HX. destruct (I1 X) as (J1 & J2). { intros HX'; apply HX; right; auto. }
        rewrite dget_dset_neq in J1, J2 by (intros ->; apply HX; left; auto). auto.
      + intros X [<-|HX].
        * exists x', n'. split. { exists n, w, x. auto. } destruct (I1 k Hni) as (J1 & J2). rewrite dget_dset_eq in J1, J2. auto.
        * destruct (I2 X HX) as (y' & m' & (m & v & y & G1 & G2 & G3 & G4) & J2 & J3). exists y', m'. split; auto.
          assert (Hne : X <> k) by (intros ->; contradiction).
          rewrite dget_dset_neq in G2 by auto.
          exists m, v, y. split; auto. rewrite <- G1. symmetry. apply leap_one_get. apply dget_dset_neq; auto.
      + intros Hs. apply I3. apply NoDup_dset; auto.
      + intros Hs. apply I4. apply NoDup_dset; auto.
  Qed.

  Lemma leap_one_ok : forall sec nu (old st : state T) tend X n w, leap_one sec nu old st tend X = Ok (n, w) ->
    proper_state old -> proper_state st -> (forall t, dget X tend = Some t -> wf_da t) ->
    exists o x t, dget X old = Some (VDA o) /\ dget X st = Some (VDA x) /\ dget X tend = Some t /\
      wf_da o /\ wf_da x /\ wf_da t /\ extends o [t] n /\ wf_da w /\
      (forall d, In d (dims n) <-> In d (dims o) \/ In d (dims t)) /\
      (forall d, In d (dims w) <-> In d (dims o) \/ In d (dims x) \/ In d (dims t)) /\
      (forall c, in_grid n c -> in_grid o c /\ in_grid t c /\ da_at n c = aadd (da_at o c) (amul (amul (aofQ (2 # 1)) (da_at t c)) sec)) /\
      (forall c, in_grid w c -> in_grid x c /\ in_grid n c /\
         da_at w c = amul (amul (aofQ (1 # 2)) nu) (aadd (asub (da_at o c) (amul (aofQ (2 # 1)) (da_at x c))) (da_at n c))).
  Proof.
    intros sec nu old st tend X n w H [_ Wo] [_ Ws] Wt. unfold leap_one in H.
    apply bind_ok in H as (o & Ho & H). apply bind_ok in H as (t & Ht & H). apply bind_ok in H as (n0 & Hn & H).
    apply bind_ok in H as (x & Hx & H). apply bind_ok in H as (w1 & Hw1 & H). apply bind_ok in H as (w2 & Hw2 & H).
    injection H as <- <-. apply state_da_ok in Ho. apply state_da_ok in Hx. apply dgetE_ok in Ht.
    specialize (Wo _ _ Ho). specialize (Ws _ _ Hx). specialize (Wt _ Ht). exists o, x, t.
    assert (He : extends o [t] n0).
    { eapply bin_extends; [exact Hn|auto|apply wf_da_map, wf_da_map; auto|].
      intros d. cbn [first_len]. unfold da_scale, da_lscale. rewrite !dim_len_map. destruct (dim_len t d); auto. }
    apply da_binop_ok in Hn as (Wn & _ & Dn & _ & _ & Vn); auto; [|apply wf_da_map, wf_da_map; auto].
    apply da_binop_ok in Hw1 as (Ww1 & _ & Dw1 & _ & _ & Vw1); auto; [|apply wf_da_map; auto].
    apply da_binop_ok in Hw2 as (Ww2 & _ & Dw2 & _ & _ & Vw2); auto.
    do 6 (split; auto). split; [exact He|]. split; [apply wf_da_map; auto|].
    assert (In_n : forall d, In d (dims n0) <-> In d (dims o) \/ In d (dims t)).
    { intros d. rewrite Dn, In_bin_dims. simpl. tauto. }
    split; auto. split.
    { intros d. change (dims (da_lscale (amul (aofQ (1 # 2)) nu) w2)) with (dims w2). rewrite Dw2, In_bin_dims, Dw1, In_bin_dims, In_n. simpl. tauto. }
    split.
    - intros c Hc. destruct (Vn c Hc) as (V1 & V2 & V3). unfold da_scale, da_lscale in *. apply in_grid_map in V2. apply in_grid_map in V2.
      split; auto. split; auto. rewrite V3, !da_at_map; auto. apply wf_da_map; auto.
    - intros c Hc. unfold da_lscale in Hc. apply in_grid_map in Hc. destruct (Vw2 c Hc) as (V1 & V2 & V3).
      destruct (Vw1 c V1) as (V4 & V5 & V6). unfold da_lscale in *. apply in_grid_map in V5. split; auto. split; auto.
      rewrite da_at_map, V3, V6, da_at_map; auto.
  Qed.

  Lemma in_grid_incl : forall (a b : da T) c, wf_da b -> in_grid a c -> incl (dims b) (dims a) -> sizes_match a b -> wf_da a -> in_grid b c.
  Proof.
    intros a b c Wb Hc Hi Hm Wa d n Hn. assert (Hd : In d (dims b)) by (apply dim_len_In; eauto).
    apply Hi in Hd. apply dim_len_In in Hd as (m & Em); auto. rewrite <- (Hm _ _ _ Em Hn). auto.
  Qed.

  Lemma leap_quantity_ok : forall sec nu alpha (old st : state T) tend X x' n', leap_quantity sec nu alpha old st tend X x' n' ->
    proper_state old -> proper_state st -> (forall t, dget X tend = Some t -> wf_da t) ->
    exists o x t, dget X old = Some (VDA o) /\ dget X st = Some (VDA x) /\ dget X tend = Some t /\
      extends x [] x' /\ extends o [t] n' /\
      (forall c, in_grid x c -> in_grid o c /\ in_grid t c /\ da_at x' c = fst (leapfrog_values sec nu alpha (da_at o c) (da_at x c) (da_at t c))) /\
      (forall c, in_grid n' c -> in_grid t c /\ (aeqb alpha (aofQ (1 # 1)) = false -> in_grid x c) /\ da_at n' c = snd (leapfrog_values sec nu alpha (da_at o c) (da_at x c) (da_at t c))).
  Proof.
    intros sec nu alpha old st tend X x' n' (n & w & x0 & H1 & H2 & H3 & H4) Wo Ws Wt.
    apply leap_one_ok in H1 as (o & x & t & Ho & Hx & Ht & Wo' & Wx & Wt' & En & Ww & Dn & Dw & Vn & Vw); auto.
    rewrite Hx in H2. injection H2 as <-. exists o, x, t. do 3 (split; auto).
    assert (Wn : wf_da n) by apply En.
    apply da_iadd_ok in H3 as (Ex & Dx & Ix & Mx & Vx); auto; [|apply wf_da_map; auto]. split; auto.
    destruct (aeqb alpha (aofQ (1 # 1))) eqn:Ea.
    - injection H4 as <-. split; auto. split.
      + intros c Hc. destruct (Vx c Hc) as (V1 & V2). unfold da_lscale in *. apply in_grid_map in V1.
        destruct (Vw c V1) as (_ & V3 & V4). destruct (Vn c V3) as (V5 & V6 & V7). do 2 (split; auto).
        unfold leapfrog_values. cbn [fst]. rewrite V2, da_at_map, V4, V7; auto.
      + intros c Hc. destruct (Vn c Hc) as (_ & V6 & V7). split; auto. split; [discriminate|]. unfold leapfrog_values. rewrite Ea. auto.
    - apply da_iadd_ok in H4 as (Fx & Gx & Jx & Kx & Lx); auto; [|apply wf_da_map; auto]. split.
      { destruct En as (E1 & E2 & E3 & E4), Fx as (F1 & F2 & F3 & F4). split; auto. split; [congruence|]. split; [rewrite Gx; auto|].
        intros d. rewrite F4. cbn [first_len]. rewrite E4. cbn [first_len]. destruct (dim_len o d); auto. destruct (dim_len t d); auto. }
      split.
      + intros c Hc. destruct (Vx c Hc) as (V1 & V2). unfold da_lscale in *. apply in_grid_map in V1.
        destruct (Vw c V1) as (_ & V3 & V4). destruct (Vn c V3) as (V5 & V6 & V7). do 2 (split; auto).
        unfold leapfrog_values. cbn [fst]. rewrite V2, da_at_map, V4, V7; auto.
      + intros c Hc. assert (Hcn : in_grid n c).
        { intros d m Hm. destruct Fx as (_ & _ & _ & F4). apply Hc. rewrite F4. cbn [first_len]. rewrite Hm. auto. }
        destruct (Lx c Hcn) as (V1 & V2). unfold da_lscale in *. apply in_grid_map in V1.
        destruct (Vw c V1) as (V0 & V3 & V4). destruct (Vn c V3) as (_ & V6 & V7). split; auto. split; auto.
        unfold leapfrog_values. rewrite Ea. cbn [snd]. rewrite V2, da_at_map, V4, V7; auto.
  Qed.

  (** ** One call *)

  Lemma leap_call_ok : forall {U} (prog : icaller U) l u (st : state T) dt l' u' st' diag new,
    leap_call prog (l, u) st dt = ((l', u'), st', Ok (diag, new)) ->
    exists tend0 tend new0, (lf_dt l = None \/ lf_dt l = Some dt) /\ prog u st dt = (u', Ok (tend0, diag)) /\
      convert_tendencies st tend0 = Ok tend /\
      (match lf_old l with
       | None => (st, step_forward_euler st tend dt)
       | Some old => leap_loop (total_seconds dt) (lf_nu l) (lf_alpha l) old tend (keys tend) st []
       end) = (st', Ok new0) /\
      new = copy_untouched st' new0 /\ l' = mkleap (lf_nu l) (lf_alpha l) (Some dt) (Some st').
  Proof.
    intros U prog l u st dt l' u' st' diag new H. unfold leap_call in H.
    destruct (ensure_timestep (lf_dt l) dt) as [[]|e] eqn:Et; [|discriminate]. apply ensure_timestep_ok in Et.
    destruct (prog u st dt) as [u1 [[tend0 pd]|e]] eqn:Ep; cbn [bind fst snd] in H; [|discriminate].
    destruct (convert_tendencies st tend0) as [tend|e] eqn:Ec; cbn [bind] in H; [|discriminate].
    destruct (match lf_old l with None => (st, step_forward_euler st tend dt) | Some old => _ end) as [st1 [new0|e]] eqn:Es; [|discriminate].
    injection H as <- <- <- <- <-. exists tend0, tend, new0. repeat (split; auto).
  Qed.

  Lemma leapfrog_ok : forall {U} cfg (prog : icaller U) l u (st : state T) dt l' u' st' diag new,
    leapfrog cfg prog (l, u) st dt = ((l', u'), st', Ok (diag, new)) ->
    exists diag0, leap_call prog (l, u) st dt = ((l', u'), st', Ok (diag0, new)) /\
      (if ts_tid cfg then insert_differences cfg dt st' new diag0 = Ok diag else diag = diag0).
  Proof.
    intros U cfg prog l u st dt l' u' st' diag new H. unfold leapfrog in H.
    destruct (leap_call prog (l, u) st dt) as [[[l1 u1] st1] r] eqn:Ec. injection H as <- <- <- H.
    apply finish_ok in H as (d0 & n0 & -> & Hn & Hd). exists d0. split; auto.
    pose proof (leap_call_ok _ _ _ _ _ _ _ _ _ _ Ec) as (t0 & t & n1 & _ & _ & _ & _ & E & _).
    rewrite E, copy_untouched_idem in Hn. rewrite Hn, E. reflexivity.
  Qed.

  Lemma leap_step_ok : forall dt nu alpha (old st : state T) tend0 tend st' new0,
    convert_tendencies st tend0 = Ok tend -> leap_loop (total_seconds dt) nu alpha old tend (keys tend) st [] = (st', Ok new0) ->
    proper_state old -> proper_state st -> proper tend0 ->
    leap_step dt nu alpha old st tend0 st' (copy_untouched st' new0) /\ proper_state st' /\ proper_state (copy_untouched st' new0).
  Proof.
    intros dt nu alpha old st tend0 tend st' new0 Hc Hl Wo Ws [Nt Wt].
    apply convert_ok in Hc as (Hk & Hc).
    assert (Hwt : forall X t, dget X tend = Some t -> wf_da t).
    { intros X t Ht. specialize (Hc X). destruct (dget X tend0) as [t0|] eqn:E0; [|congruence]. destruct Hc as (t' & Hcv & Ht').
      rewrite Ht in Ht'. injection Ht' as <-. apply conv_spec in Hcv as (W & _); eauto. }
    rewrite Hk in Hl. apply leap_loop_ok in Hl as (L1 & L2 & L3 & L4); auto.
    assert (S : leap_step dt nu alpha old st tend0 st' (copy_untouched st' new0)).
    { split; [|split].
      - intros X HX. apply L1; auto.
      - intros X HX. destruct (L1 X HX) as (G1 & G2). rewrite copy_untouched_get, G2. auto.
      - intros X t0 Ht0. destruct (L2 X) as (x' & n' & Q & G1 & G2); [eapply dget_In_keys; eauto|].
        apply leap_quantity_ok in Q as (o & x & t & Ho & Hx & Ht & Ex & En & Vx & Vn); eauto.
        pose proof (Hc X) as HcX. rewrite Ht0 in HcX. destruct HcX as (t' & Hcv & Ht'). rewrite Ht in Ht'. injection Ht' as <-.
        apply conv_spec in Hcv as (W & _ & Lc & Vc); eauto.
        assert (Hg : forall c, in_grid t c -> in_grid t0 c) by (intros c Hcc d m Hd; rewrite <- Lc in Hd; auto).
        exists o, x, x', n'. do 3 (split; auto). split. { rewrite copy_untouched_get, G2. auto. }
        split; auto. split.
        { destruct En as (E1 & E2 & E3 & E4). repeat (split; auto). intros d. rewrite E4. cbn [first_len]. rewrite Lc. auto. }
        split.
        + intros c Hcc. destruct (Vx c Hcc) as (V0 & V1 & V2). do 2 (split; auto). exists (da_at t c). split; auto.
        + intros c Hcc. destruct (Vn c Hcc) as (V1 & V0 & V2). do 2 (split; auto). exists (da_at t c). split; auto. }
    split; auto.
    assert (Ws' : proper_state st').
    { split; [apply L3; apply Ws|]. intros X a Ha. destruct (In_dec_str X (keys tend0)) as [HX|HX].
      - apply In_keys_dget in HX as (t0 & Ht0). destruct S as (_ & _ & S). destruct (S X t0 Ht0) as (o & x & x' & n & _ & _ & G & _ & (W & _) & _).
        congruence.
      - destruct S as (S & _). rewrite S in Ha; auto. eapply Ws; eauto. }
    split; auto. split; [apply NoDup_copy_untouched, L4; constructor|].
    intros X a Ha. destruct (In_dec_str X (keys tend0)) as [HX|HX].
    - apply In_keys_dget in HX as (t0 & Ht0). destruct S as (_ & _ & S). destruct (S X t0 Ht0) as (o & x & x' & n & _ & _ & _ & G & _ & (W & _) & _).
      congruence.
    - destruct S as (_ & S & _). rewrite S in Ha; auto. eapply Ws; eauto.
  Qed.

  (** ** Runs *)

  Lemma leap_inv : forall {U} cfg (prog : icaller U) dt nu alpha u log l u',
    lhistory cfg prog dt (new_leap nu alpha, u) log (l, u') ->
    lf_nu l = nu /\ lf_alpha l = alpha /\
    (lf_dt l = match log with [] => None | _ => Some dt end) /\
    lf_old l = match rev log with [] => None | e :: _ => Some (l_after e) end.
  Proof.
    intros U cfg prog dt nu alpha u log l u' H. remember (new_leap nu alpha, u) as s0 eqn:E0. remember (l, u') as s1 eqn:E1.
    revert l u' E1. induction H as [s|s0 log l0 u1 st u2 tend pdiag l' st' diag new H IH Hp Hc]; intros l u' E1; subst.
    - injection E1 as <- <-. cbn. auto.
    - injection E1 as <- <-. destruct (IH eq_refl _ _ eq_refl) as (I1 & I2 & I3 & I4).
      apply leapfrog_ok in Hc as (d0 & Hc & _). apply leap_call_ok in Hc as (t0 & t & n1 & _ & _ & _ & _ & _ & ->).
      cbn [lf_nu lf_alpha lf_dt lf_old]. rewrite rev_app_distr. cbn [rev app l_after]. repeat (split; auto). destruct log; auto.
  Qed.

  Lemma lhistory_split : forall {U} cfg (prog : icaller U) dt s0 log s,
    lhistory cfg prog dt s0 log s -> forall pre e post, log = pre ++ e :: post ->
    exists l1 u1 l2 u2 pdiag, lhistory cfg prog dt s0 pre (l1, u1) /\
      prog u1 (l_st e) dt = (u2, Ok (l_tend e, pdiag)) /\
      leapfrog cfg prog (l1, u1) (l_st e) dt = ((l2, u2), l_after e, Ok (l_diag e, l_new e)).
  Proof.
    intros U cfg prog dt s0 log s H. induction H as [|s0 log l u st u' tend pdiag l' st' diag new H IH Hp Hc]; intros pre e post E.
    - destruct pre; discriminate.
    - destruct post as [|p post] using rev_ind.
      + apply app_inj_tail in E as [-> <-]. do 5 eexists. cbn [l_st l_tend l_diag l_new l_after]. eauto.
      + clear IHpost. rewrite app_comm_cons, app_assoc in E. apply app_inj_tail in E as [-> _]. eapply IH. reflexivity.
  Qed.

  (** The states left behind by a run of proper states are proper. *)
  Lemma leap_after_proper : forall {U} cfg (prog : icaller U) dt nu alpha u log s,
    lhistory cfg prog dt (new_leap nu alpha, u) log s -> wf_llog log -> forall e, In e log -> proper_state (l_after e).
  Proof.
    intros U cfg prog dt nu alpha u log s H. remember (new_leap nu alpha, u) as s0 eqn:E0.
    induction H as [s|s0 log l u1 st u2 tend pdiag l' st' diag new H IH Hp Hc]; intros Hw e He; subst; [destruct He|].
    assert (Hw' : wf_llog log) by (intros e' He'; apply Hw, in_or_app; auto).
    specialize (IH eq_refl Hw'). apply in_app_or in He as [He|[<-|[]]]; auto. cbn [l_after].
    destruct (Hw (mklentry st tend st' diag new)) as (Ws & Wt); [apply in_or_app; right; left; auto|]. cbn [l_st l_tend] in *.
    apply leap_inv in H as (_ & _ & _ & I4).
    apply leapfrog_ok in Hc as (d0 & Hc & _). apply leap_call_ok in Hc as (t0 & t & n1 & _ & Hp' & Hcv & Hl & _ & _).
    rewrite Hp in Hp'. injection Hp' as <- _. rewrite I4 in Hl. destruct (rev log) as [|p rl] eqn:Er.
    - injection Hl as <- _. auto.
    - eapply leap_step_ok; eauto. apply IH. apply in_rev. rewrite Er. left; auto.
  Qed.

  Lemma leap_formula_lemma : forall {U} cfg (prog : icaller U) dt nu alpha u log s,
    lhistory cfg prog dt (new_leap nu alpha, u) log s -> wf_llog log ->
    (forall e post, log = e :: post -> l_after e = l_st e /\ euler_step dt (l_st e) (l_tend e) (l_new e)) /\
    (forall pre p e post, log = pre ++ p :: e :: post ->
       leap_step dt nu alpha (l_after p) (l_st e) (l_tend e) (l_after e) (l_new e)).
  Proof.
    intros U cfg prog dt nu alpha u log s H Hw. split.
    - intros e post E. pose proof H as H0. eapply (lhistory_split _ _ _ _ _ _ H0 []) in E as E1.
      destruct E1 as (l1 & u1 & l2 & u2 & pd & Hh & Hp & Hc). apply leap_inv in Hh as (_ & _ & _ & I4). cbn [rev] in I4.
      apply leapfrog_ok in Hc as (d0 & Hc & _). apply leap_call_ok in Hc as (t0 & t & n1 & _ & Hp' & Hcv & Hl & Hn & _).
      rewrite Hp in Hp'. injection Hp' as <- _. rewrite I4 in Hl. injection Hl as E2 Hl. split; auto.
      destruct (Hw e) as (Ws & Wt); [rewrite E; left; auto|]. rewrite Hn, <- E2. eapply euler_ok; eauto.
    - intros pre p e post E. pose proof H as H0. assert (E' : log = (pre ++ [p]) ++ e :: post) by (rewrite <- app_assoc; auto).
      eapply (lhistory_split _ _ _ _ _ _ H0) in E' as E1.
      destruct E1 as (l1 & u1 & l2 & u2 & pd & Hh & Hp & Hc). apply leap_inv in Hh as (I1 & I2 & _ & I4).
      rewrite rev_app_distr in I4. cbn [rev app] in I4.
      apply leapfrog_ok in Hc as (d0 & Hc & _). apply leap_call_ok in Hc as (t0 & t & n1 & _ & Hp' & Hcv & Hl & Hn & _).
      rewrite Hp in Hp'. injection Hp' as <- _. rewrite I4, I1, I2 in Hl.
      destruct (Hw e) as (Ws & Wt); [rewrite E'; apply in_or_app; right; left; auto|]. rewrite Hn.
      eapply leap_step_ok; eauto. eapply leap_after_proper; eauto. rewrite E. apply in_or_app; right; left; auto.
  Qed.

  (** ** Success *)

  Lemma leap_loop_succeeds : forall sec nu alpha (old : state T) tend ks st new, NoDup ks ->
    (forall X, In X ks -> exists x' n', leap_quantity sec nu alpha old st tend X x' n') ->
    exists st' new', leap_loop sec nu alpha old tend ks st new = (st', Ok new').
  Proof.
    intros sec nu alpha old tend ks. induction ks as [|k ks IH]; intros st new Hnd H; cbn [leap_loop]; [eauto|].
    inversion Hnd as [|? ? Hni Hnd']; subst.
    destruct (H k) as (x' & n' & n & w & x & H1 & H2 & H3 & H4); [left; auto|].
    rewrite H1. cbn [bind fst snd]. apply state_da_ok in H2. rewrite H2. cbn [bind]. rewrite H3. cbn [bind]. rewrite H4.
    apply IH; auto. intros X HX. destruct (H X) as (y' & m' & m & v & y & G1 & G2 & G3 & G4); [right; auto|].
    assert (Hne : X <> k) by (intros ->; contradiction).
    exists y', m', m, v, y. rewrite dget_dset_neq by auto. split; auto.
    rewrite <- G1. apply leap_one_get. apply dget_dset_neq; auto.
  Qed.

  Lemma leap_quantity_succeeds : forall sec nu alpha (old st : state T) tend X o x t,
    dget X old = Some (VDA o) -> dget X st = Some (VDA x) -> dget X tend = Some t ->
    wf_da o -> wf_da x -> wf_da t -> same_sizes [o; x; t] -> incl (dims o) (dims x) -> incl (dims t) (dims x) ->
    (aeqb alpha (aofQ (1 # 1)) = false -> incl (dims x) (dims o ++ dims t)) ->
    exists x' n', leap_quantity sec nu alpha old st tend X x' n'.
  Proof.
    intros sec nu alpha old st tend X o x t Ho Hx Ht Wo Wx Wt Hm Hio Hit Hal.
    assert (S1 : state_da X old = Ok o) by (apply state_da_ok; auto).
    assert (S2 : state_da X st = Ok x) by (apply state_da_ok; auto).
    set (t2 := da_scale (da_lscale (aofQ (2 # 1)) t) sec).
    assert (Wt2 : wf_da t2) by (apply wf_da_map, wf_da_map; auto).
    destruct (da_binop_succeeds aadd (attrs o) o t2 Wo) as (n & Hn).
    { intros d i j Hi Hj. assert (Hj' : dim_len t d = Some j) by exact Hj. eapply (Hm o t); simpl; eauto. }
    destruct (da_binop_succeeds asub (attrs o) o (da_lscale (aofQ (2 # 1)) x) Wo) as (w1 & Hw1).
    { intros d i j Hi Hj. assert (Hj' : dim_len x d = Some j) by exact Hj. eapply (Hm o x); simpl; eauto. }
    pose proof (da_binop_ok _ _ _ _ _ Hn Wo Wt2) as (Wn & _ & Dn & _ & Ln & _).
    assert (W2x : wf_da (da_lscale (aofQ (2 # 1)) x)) by (apply wf_da_map; auto).
    pose proof (da_binop_ok _ _ _ _ _ Hw1 Wo W2x) as (Ww1 & _ & Dw1 & _ & Lw1 & _).
    change (forall d, dim_len n d = match dim_len o d with Some k => Some k | None => dim_len t d end) in Ln.
    change (forall d, dim_len w1 d = match dim_len o d with Some k => Some k | None => dim_len x d end) in Lw1.
    assert (Key : forall d k, (dim_len o d = Some k \/ dim_len x d = Some k \/ dim_len t d = Some k) -> dim_len x d = Some k).
    { intros d k Hk. assert (Hd : In d (dims x)).
      { destruct Hk as [Hk|[Hk|Hk]].
        - apply Hio, dim_len_In; eauto.
        - apply dim_len_In; eauto.
        - apply Hit, dim_len_In; eauto. }
      apply dim_len_In in Hd as (j & Hj); auto. rewrite Hj. f_equal.
      destruct Hk as [Hk|[Hk|Hk]]; [eapply (Hm x o); simpl; eauto|congruence|eapply (Hm x t); simpl; eauto]. }
    assert (Kn : forall d k, dim_len n d = Some k -> dim_len x d = Some k).
    { intros d k Hk. rewrite Ln in Hk. destruct (dim_len o d) eqn:E; apply Key; [left; congruence|auto]. }
    assert (Kw1 : forall d k, dim_len w1 d = Some k -> dim_len x d = Some k).
    { intros d k Hk. rewrite Lw1 in Hk. destruct (dim_len o d) eqn:E; auto. apply Key; left; congruence. }
    destruct (da_binop_succeeds aadd (attrs w1) w1 n Ww1) as (w2 & Hw2).
    { intros d i j Hi Hj. apply Kw1 in Hi. apply Kn in Hj. congruence. }
    pose proof (da_binop_ok _ _ _ _ _ Hw2 Ww1 Wn) as (Ww2 & _ & Dw2 & _ & Lw2 & _).
    assert (Kw2 : forall d k, dim_len w2 d = Some k -> dim_len x d = Some k).
    { intros d k Hk. rewrite Lw2 in Hk. destruct (dim_len w1 d) eqn:E; auto. apply Kw1. congruence. }
    set (w := da_lscale (amul (aofQ (1 # 2)) nu) w2).
    destruct (da_iadd_succeeds x (da_lscale alpha w) Wx) as (x' & Hx').
    { intros d Hd. change (In d (dims w2)) in Hd. apply dim_len_In in Hd as (k & Hk); auto. apply dim_len_In; eauto. }
    { intros d i j Hi Hj. change (dim_len w2 d = Some j) in Hj. apply Kw2 in Hj. congruence. }
    assert (H1 : leap_one sec nu old st tend X = Ok (n, w)).
    { unfold leap_one. rewrite S1, S2. cbn [bind]. unfold dgetE. rewrite Ht. cbn [bind]. unfold da_add at 1. fold t2. rewrite Hn. cbn [bind].
      unfold da_sub. rewrite Hw1. cbn [bind]. unfold da_add. rewrite Hw2. cbn [bind]. reflexivity. }
    destruct (aeqb alpha (aofQ (1 # 1))) eqn:Ea.
    - exists x', n, n, w, x. rewrite Ea. auto.
    - destruct (da_iadd_succeeds n (da_lscale (asub alpha (aofQ (1 # 1))) w) Wn) as (n' & Hn').
      { intros d Hd. change (In d (dims w2)) in Hd. apply dim_len_In in Hd as (k & Hk); auto. apply Kw2 in Hk.
        assert (Hx0 : In d (dims x)) by (apply dim_len_In; eauto). apply (Hal eq_refl) in Hx0. rewrite Dn. apply In_bin_dims.
        apply in_app_or in Hx0. exact Hx0. }
      { intros d i j Hi Hj. change (dim_len w2 d = Some j) in Hj. apply Kw2 in Hj. apply Kn in Hi. congruence. }
      exists x', n', n, w, x. rewrite Ea. auto.
  Qed.

  Lemma leap_returns : forall {U} cfg (prog : icaller U) dt nu alpha u log p l u1, ts_tid cfg = false ->
    lhistory cfg prog dt (new_leap nu alpha, u) (log ++ [p]) (l, u1) -> wf_llog (log ++ [p]) ->
    forall st u2 tend pdiag, proper_state st -> proper tend -> prog u1 st dt = (u2, Ok (tend, pdiag)) ->
    can_leap alpha (l_after p) st tend ->
    exists l' st' new, leapfrog cfg prog (l, u1) st dt = ((l', u2), st', Ok (pdiag, new)).
  Proof.
    intros U cfg prog dt nu alpha u log p l u1 Htid H Hw st u2 tend pdiag Ws [Nt Wt] Hp Hk.
    assert (Wo : proper_state (l_after p)). { eapply leap_after_proper; eauto. apply in_or_app; right; left; auto. }
    apply leap_inv in H as (I1 & I2 & I3 & I4). rewrite rev_app_distr in I4. cbn [rev app] in I4.
    destruct (convert_succeeds st tend) as (tc & Htc).
    { intros X t Ht. apply Hk. apply dget_NoDup_In; auto. }
    pose proof (convert_ok _ _ _ Htc) as (Kc & Gc).
    destruct (leap_loop_succeeds (total_seconds dt) nu alpha (l_after p) tc (keys tend) st []) as (st' & new & Hl); auto.
    { intros X HX. apply In_keys_dget in HX as (t0 & Ht0). destruct (Hk X t0 Ht0) as (_ & o & x & Ho & Hx & Hm & Hio & Hit & Hal).
      specialize (Gc X). rewrite Ht0 in Gc. destruct Gc as (t & Hcv & Ht). apply conv_spec in Hcv as (W & D & L & _); eauto.
      destruct Wo as [_ Wo], Ws as [_ Ws].
      eapply leap_quantity_succeeds with (o := o) (x := x) (t := t); eauto; try (rewrite D; auto).
      intros a b Ha Hb d n m Hn Hm'.
      assert (C : forall a, In a [o; x; t] -> exists a0, In a0 [o; x; t0] /\ forall d, dim_len a d = dim_len a0 d).
      { intros a0 [<-|[<-|[<-|[]]]]; [exists o|exists x|exists t0]; simpl; auto. }
      apply C in Ha as (a0 & Ha & La). apply C in Hb as (b0 & Hb & Lb). rewrite La in Hn. rewrite Lb in Hm'. eapply (Hm a0 b0); eauto. }
    unfold leapfrog, leap_call. assert (Ht : ensure_timestep (lf_dt l) dt = Ok tt).
    { apply ensure_timestep_ok. rewrite I3. destruct log; auto. }
    rewrite Ht, Hp. cbn [bind fst snd]. rewrite Htc. cbn [bind]. rewrite I4, I1, I2, Kc, Hl.
    unfold finish_step. cbn [bind fst snd]. rewrite Htid. cbn [bind]. eauto.
  Qed.
End Facts.
