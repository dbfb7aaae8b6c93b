(** What a failed step leaves behind: C81. *)
From Coq Require Import String List Bool Arith ZArith QArith Lia.
From Verif Require Import Prelude PreludeFacts ArithM NdArray NdFacts Units DataArrayM GetNp Components Composite Steppers
  SpecUnits UnitsFacts SpecDa DaFacts SpecComposite SpecSteppers SteppersFacts ABFacts RKFacts LeapFacts SpecFailed.
Import ListNotations.
Open Scope string_scope.
Open Scope nat_scope.
Open Scope list_scope.

Section Main.
  Context {T : Type} {A : Arith T} {R : Registry}.

  Lemma ensure_timestep_cases : forall o dt, (o = None \/ o = Some dt) /\ ensure_timestep o dt = Ok tt \/
    (exists d e, o = Some d /\ d <> dt /\ ensure_timestep o dt = Err e).
  Proof.
    intros o dt. destruct (ensure_timestep o dt) as [[]|e] eqn:E; [left; split; auto; apply ensure_timestep_ok; auto|right].
    destruct o as [d|]; [|discriminate E]. exists d, e. split; auto. split; auto. intros ->. cbn in E. rewrite Z.eqb_refl in E. discriminate E.
  Qed.

  (** ** Leapfrog *)

  Lemma leap_loop_any : forall sec nu alpha (old : state T) tend ks st new st' r, NoDup ks ->
    leap_loop sec nu alpha old tend ks st new = (st', r) ->
    exists pre post, ks = pre ++ post /\
      (forall X, In X pre -> exists n w x x', leap_one sec nu old st tend X = Ok (n, w) /\ dget X st = Some (VDA x) /\
         da_iadd x (da_lscale alpha w) = Ok x' /\ dget X st' = Some (VDA x')) /\
      forall X, ~ In X pre -> dget X st' = dget X st.
  Proof.
    intros sec nu alpha old tend ks. induction ks as [|k ks IH]; intros st new st' r Hnd H; cbn [leap_loop] in H.
    { injection H as <- <-. exists [], []. split; auto. split; auto. intros X []. }
    inversion Hnd as [|? ? Hni Hnd']; subst.
    assert (E0 : forall s, s = st -> exists pre post, k :: ks = pre ++ post /\
      (forall X, In X pre -> exists n w x x', leap_one sec nu old st tend X = Ok (n, w) /\ dget X st = Some (VDA x) /\
         da_iadd x (da_lscale alpha w) = Ok x' /\ dget X s = Some (VDA x')) /\ forall X, ~ In X pre -> dget X s = dget X st).
    { intros s ->. exists [], (k :: ks). split; auto. split; auto. intros X []. }
    destruct (leap_one sec nu old st tend k) as [[n w]|e] eqn:E1; cbn [bind fst snd] in H; [|injection H as <- _; auto].
    destruct (state_da k st) as [x|e] eqn:E2; cbn [bind] in H; [|injection H as <- _; auto].
    destruct (da_iadd x (da_lscale alpha w)) as [x'|e] eqn:E3; cbn [bind] in H; [|injection H as <- _; auto].
    apply state_da_ok in E2. clear E0.
    destruct (if aeqb alpha (aofQ (1 # 1)) then Ok n else da_iadd n (da_lscale (asub alpha (aofQ (1 # 1))) w)) as [n'|e] eqn:E4.
    - apply IH in H as (pre & post & Ek & Hp & Hq); auto. exists (k :: pre), post. split; [rewrite Ek; auto|].
      assert (Hk : ~ In k pre) by (intros K; apply Hni; rewrite Ek; apply in_or_app; auto). split.
      + intros X [<-|HX].
        * exists n, w, x, x'. do 3 (split; auto). rewrite (Hq k Hk). apply dget_dset_eq.
        * destruct (Hp X HX) as (n1 & w1 & y & y' & G1 & G2 & G3 & G4). assert (Hne : X <> k) by (intros ->; contradiction).
          rewrite dget_dset_neq in G2 by auto. exists n1, w1, y, y'. split; auto.
          rewrite <- G1. symmetry. apply leap_one_get. apply dget_dset_neq; auto.
      + intros X HX. rewrite Hq by (intros K; apply HX; right; auto). apply dget_dset_neq. intros ->. apply HX. left; auto.
    - injection H as <- _. exists [k], ks. split; auto. split.
      + intros X [<-|[]]. exists n, w, x, x'. do 3 (split; auto). apply dget_dset_eq.
      + intros X HX. apply dget_dset_neq. intros ->. apply HX. left; auto.
  Qed.

  Lemma leap_loop_part : forall dt nu alpha (old st : state T) tend0 tend st' r,
    convert_tendencies st tend0 = Ok tend -> leap_loop (total_seconds dt) nu alpha old tend (keys tend) st [] = (st', r) ->
    proper_state old -> proper_state st -> proper tend0 -> filtered_in_part dt nu alpha old st tend0 st'.
  Proof.
    intros dt nu alpha old st tend0 tend st' r Hc Hl Wo Ws [Nt Wt].
    apply convert_ok in Hc as (Hk & Hc).
    assert (Hwt : forall X t, dget X tend = Some t -> wf_da t).
    { intros X t Ht. specialize (Hc X). destruct (dget X tend0) as [t0|] eqn:E0; [|congruence]. destruct Hc as (t' & Hcv & Ht').
      rewrite Ht in Ht'. injection Ht' as <-. apply conv_spec in Hcv as (W & _); eauto. }
    rewrite Hk in Hl. apply leap_loop_any in Hl as (pre & post & Ek & Hp & Hq); auto. exists pre, post. split; auto. split; auto.
    intros X HX. destruct (Hp X HX) as (n & w & x & x' & H1 & H2 & H3 & H4).
    apply leap_one_ok in H1 as (o & x0 & t & Ho & Hx & Ht & Wo' & Wx & Wt' & En & Ww & Dn & Dw & Vn & Vw); eauto.
    rewrite Hx in H2. injection H2 as ->. pose proof (Hc X) as HcX. destruct (dget X tend0) as [t0|] eqn:Et0; [|congruence].
    destruct HcX as (t' & Hcv & Ht'). rewrite Ht in Ht'. injection Ht' as <-. apply conv_spec in Hcv as (W & _ & Lc & Vc); eauto.
    assert (Hg : forall c, in_grid t c -> in_grid t0 c) by (intros c Hcc d m Hd; rewrite <- Lc in Hd; auto).
    apply da_iadd_ok in H3 as (Ex & Dx & Ix & Mx & Vx); auto; [|apply wf_da_map; auto].
    exists t0, o, x, x'. do 5 (split; auto). intros c Hcc. destruct (Vx c Hcc) as (V1 & V2). unfold da_lscale in *. apply in_grid_map in V1.
    destruct (Vw c V1) as (_ & V3 & V4). destruct (Vn c V3) as (V5 & V6 & V7). exists (da_at t c). split; auto.
    unfold leapfrog_values. cbn [fst]. rewrite V2, da_at_map, V4, V7; auto.
  Qed.

  Theorem main_leap_failed : forall {U} cfg (prog : icaller U) l u (st : state T) dt l' u' st' e,
    proper_components prog -> proper_state st -> (forall old, lf_old l = Some old -> proper_state old) ->
    leapfrog cfg prog (l, u) st dt = ((l', u'), st', Err e) ->
    (l' = l /\ u' = u /\ st' = st /\ exists d, lf_dt l = Some d /\ d <> dt) \/
    (lf_dt l = None \/ lf_dt l = Some dt) /\
      (l' = mkleap (lf_nu l) (lf_alpha l) (Some dt) (lf_old l) /\
         (st' = st \/ exists old tend pd, lf_old l = Some old /\ prog u st dt = (u', Ok (tend, pd)) /\
                        filtered_in_part dt (lf_nu l) (lf_alpha l) old st tend st') \/
       l' = mkleap (lf_nu l) (lf_alpha l) (Some dt) (Some st') /\ ts_tid cfg = true /\
         exists tend pd new, prog u st dt = (u', Ok (tend, pd)) /\
           match lf_old l with
           | None => st' = st /\ euler_step dt st tend new
           | Some old => leap_step dt (lf_nu l) (lf_alpha l) old st tend st' new
           end).
  Proof.
    intros U cfg prog l u st dt l' u' st' e Hpc Hst Hold H. unfold leapfrog in H.
    destruct (leap_call prog (l, u) st dt) as [[[l1 u1] st1] r] eqn:Ec. injection H as -> -> -> H.
    destruct r as [[d n]|e'].
    - right. pose proof (leap_call_ok _ _ _ _ _ _ _ _ _ _ Ec) as (t0 & t & n0 & Hd & Hp & Hcv & Hl & Hn & ->). split; auto. right. split; auto.
      split. { unfold finish_step in H. cbn [bind fst snd] in H. destruct (ts_tid cfg); auto. discriminate H. }
      exists t0, d, n. split; auto. assert (Wt : proper t0) by (eapply Hpc; eauto). destruct (lf_old l) as [old|] eqn:Eo.
      + rewrite Hn. apply (leap_step_ok _ _ _ _ _ _ _ _ _ Hcv Hl); auto.
      + injection Hl as <- Hl. split; auto. rewrite Hn. eapply (euler_ok st t0 t dt n0); eauto.
    - clear H. unfold leap_call in Ec. destruct (ensure_timestep_cases (lf_dt l) dt) as [(Hd & E)|(d & e0 & Ed & Hne & E)]; rewrite E in Ec.
      2:{ injection Ec as <- <- <- _. left. repeat split; auto. exists d; auto. }
      right. split; auto. left. destruct (prog u st dt) as [u2 rp] eqn:Ep.
      destruct rp as [[t0 pd]|e1]; cbn [bind fst snd] in Ec; [|injection Ec as <- <- <- _; auto].
      destruct (convert_tendencies st t0) as [t|e1] eqn:Ecv; cbn [bind] in Ec; [|injection Ec as <- <- <- _; auto].
      destruct (lf_old l) as [old|] eqn:Eo.
      + destruct (leap_loop (total_seconds dt) (lf_nu l) (lf_alpha l) old t (keys t) st []) as [st2 rn] eqn:El.
        destruct rn as [new|e1]; [discriminate Ec|]. injection Ec as <- <- <- _. split; auto. right. exists old, t0, pd. split; auto. split; auto.
        eapply leap_loop_part; eauto.
      + destruct (step_forward_euler st t dt) as [new|e1]; [discriminate Ec|]. injection Ec as <- <- <- _. auto.
  Qed.

  (** Without tendencies in its diagnostics, the object does as if the call had not been. *)
  Theorem main_leap_object : forall {U} cfg (prog : icaller U) l u (st : state T) dt l' u' st' e,
    ts_tid cfg = false -> leapfrog cfg prog (l, u) st dt = ((l', u'), st', Err e) ->
    forall u2 st2, leapfrog cfg prog (l', u2) st2 dt = leapfrog cfg prog (l, u2) st2 dt.
  Proof.
    intros U cfg prog l u st dt l' u' st' e Ht H u2 st2. unfold leapfrog in H.
    destruct (leap_call prog (l, u) st dt) as [[[l1 u1] st1] r] eqn:Ec. injection H as -> -> -> H.
    destruct r as [[d n]|e']; [unfold finish_step in H; cbn [bind fst snd] in H; rewrite Ht in H; discriminate H|]. clear H.
    unfold leap_call in Ec. destruct (ensure_timestep_cases (lf_dt l) dt) as [(Hd & E)|(d & e0 & Ed & Hne & E)]; rewrite E in Ec; [|injection Ec as <- <- <- _; auto].
    assert (El : l' = mkleap (lf_nu l) (lf_alpha l) (Some dt) (lf_old l)).
    { destruct (prog u st dt) as [u3 rp]. destruct (let* td := rp in let* tend := convert_tendencies st (fst td) in Ok (tend, snd td)) as [[tend diag]|e1].
      - destruct (match lf_old l with None => _ | Some old => _ end) as [st3 [new|e1]]; [discriminate Ec|]. injection Ec as <- _ _ _. auto.
      - injection Ec as <- _ _ _. auto. }
    subst l'. unfold leapfrog, leap_call. cbn [lf_dt lf_nu lf_alpha lf_old]. rewrite E. unfold ensure_timestep at 1. rewrite Z.eqb_refl. cbn [negb raise_if].
    reflexivity.
  Qed.

  (** ** AdamsBashforth *)

  Theorem main_ab_failed : forall {U} cfg (prog : icaller U) a u (st : state T) dt a' u' e,
    adams_bashforth cfg prog (a, u) st dt = ((a', u'), Err e) ->
    (a' = a /\ u' = u /\ exists d, ab_dt a = Some d /\ d <> dt) \/
    (ab_dt a = None \/ ab_dt a = Some dt) /\ ab_order a' = ab_order a /\ ab_dt a' = Some dt /\
      (ab_hist a' = ab_hist a \/
       exists tend0 pd tend, prog u st dt = (u', Ok (tend0, pd)) /\ convert_tendencies st tend0 = Ok tend /\
         (ab_hist a' = ab_hist a ++ [tend] \/
          ts_tid cfg = true /\ length (ab_hist a ++ [tend]) = ab_order a /\ ab_hist a' = tl (ab_hist a ++ [tend]))).
  Proof.
    intros U cfg prog a u st dt a' u' e H. unfold adams_bashforth in H. destruct (ab_call prog (a, u) st dt) as [[a1 u1] r] eqn:Ec. injection H as -> -> H.
    unfold ab_call in Ec. destruct (ensure_timestep_cases (ab_dt a) dt) as [(Hd & E)|(d & e0 & Ed & Hne & E)]; rewrite E in Ec.
    2:{ injection Ec as <- <- _. left. repeat split; auto. exists d; auto. }
    right. split; auto. destruct (prog u st dt) as [u2 rp] eqn:Ep.
    destruct rp as [[t0 pd]|e1]; cbn [bind fst snd] in Ec; [|injection Ec as <- <- _; auto].
    destruct (convert_tendencies st t0) as [t|e1] eqn:Ecv; cbn [bind] in Ec; [|injection Ec as <- <- _; auto].
    destruct (perform_step (ab_order a) (ab_hist a ++ [t]) st dt) as [new|e1].
    - injection Ec as <- <- <-. cbn [ab_order ab_dt ab_hist]. split; auto. split; auto. right. exists t0, pd, t. split; auto. split; auto.
      unfold finish_step in H. cbn [bind fst snd] in H. destruct (ts_tid cfg); [|discriminate H].
      destruct (Nat.eqb (length (ab_hist a ++ [t])) (ab_order a)) eqn:El; [|auto]. apply Nat.eqb_eq in El. right. auto.
    - injection Ec as <- <- _. cbn [ab_order ab_dt ab_hist]. split; auto. split; auto. right. exists t0, pd, t. auto.
  Qed.

  (** ** Steppers of order one, and SSPRungeKutta *)

  Definition plain_euler (dt : Z) (a : ab T) : Prop := ab_order a = 1 /\ (ab_dt a = None \/ ab_dt a = Some dt).

  Lemma perform_order_one : forall hist (tend : dict (da T)) st dt, perform_step 1 (hist ++ [tend]) st dt = step_forward_euler st tend dt.
  Proof.
    intros hist tend st dt. unfold perform_step. assert (E : Nat.min 1 (length (hist ++ [tend])) = 1) by (rewrite app_length; cbn [length]; lia).
    rewrite E, rev_app_distr. reflexivity.
  Qed.

  (** Equal results, equal effects on the components. *)
  Definition same_call {S U B} (x y : (S * U) * B) : Prop := snd x = snd y /\ snd (fst x) = snd (fst y).

  Lemma ab_call_same : forall {U} (prog : icaller U) dt a a' u (st : state T), plain_euler dt a -> plain_euler dt a' ->
    same_call (ab_call prog (a, u) st dt) (ab_call prog (a', u) st dt) /\ plain_euler dt (fst (fst (ab_call prog (a, u) st dt))).
  Proof.
    intros U prog dt a a' u st (Ho & Hd) (Ho' & Hd'). unfold ab_call.
    rewrite (proj2 (ensure_timestep_ok (ab_dt a) dt) Hd), (proj2 (ensure_timestep_ok (ab_dt a') dt) Hd').
    destruct (prog u st dt) as [u1 r]. destruct (let* td := r in let* tend := convert_tendencies st (fst td) in Ok (tend, snd td)) as [[tend diag]|e].
    - rewrite Ho, Ho', !perform_order_one. destruct (step_forward_euler st tend dt); cbn [fst snd]; split; split; auto; cbn [ab_order ab_dt fst]; auto.
    - split; split; auto.
  Qed.

  Lemma inner_same : forall {U} (prog : icaller U) dt a a' u (st : state T), plain_euler dt a -> plain_euler dt a' ->
    same_call (inner_euler prog (a, u) st dt) (inner_euler prog (a', u) st dt) /\ plain_euler dt (fst (fst (inner_euler prog (a, u) st dt))).
  Proof.
    intros U prog dt a a' u st Ha Ha'. destruct (ab_call_same prog dt a a' u st Ha Ha') as ((H1 & H2) & H3). unfold inner_euler.
    destruct (ab_call prog (a, u) st dt) as [s1 r1]. destruct (ab_call prog (a', u) st dt) as [s2 r2]. cbn [fst snd] in *. subst r2. split; [split; auto|auto].
  Qed.

  Lemma rk_same : forall {U} cfg (prog : icaller U) dt n a a' u (st : state T), plain_euler dt a -> plain_euler dt a' ->
    same_call (ssp_rk cfg prog (mkrk n a, u) st dt) (ssp_rk cfg prog (mkrk n a', u) st dt) /\
    rk_stages (fst (fst (ssp_rk cfg prog (mkrk n a, u) st dt))) = n /\ plain_euler dt (rk_euler (fst (fst (ssp_rk cfg prog (mkrk n a, u) st dt)))).
  Proof.
    intros U cfg prog dt n a a' u st Ha Ha'. unfold ssp_rk. cbn [rk_stages rk_euler].
    assert (G : same_call ((if Nat.eqb n 2 then rk2 else rk3) prog (a, u) st dt) ((if Nat.eqb n 2 then rk2 else rk3) prog (a', u) st dt) /\
                plain_euler dt (fst (fst ((if Nat.eqb n 2 then rk2 else rk3) prog (a, u) st dt)))).
    { destruct (inner_same prog dt a a' u st Ha Ha') as ((H1 & H2) & H3). destruct (inner_same prog dt a' a u st Ha' Ha) as (_ & H3').
      destruct (Nat.eqb n 2).
      - unfold rk2. destruct (inner_euler prog (a, u) st dt) as [[a1 u1] r1]. destruct (inner_euler prog (a', u) st dt) as [[a1' u1'] r1'].
        cbn [fst snd] in *. subst r1' u1'. destruct r1 as [[diag st1]|e]; [|split; [split; auto|auto]].
        destruct (inner_same prog dt a1 a1' u1 st1 H3 H3') as ((K1 & K2) & K3).
        destruct (inner_euler prog (a1, u1) st1 dt) as [[a2 u2] r2]. destruct (inner_euler prog (a1', u1) st1 dt) as [[a2' u2'] r2'].
        cbn [fst snd] in *. subst r2' u2'. split; [split; auto|auto].
      - unfold rk3. destruct (inner_euler prog (a, u) st dt) as [[a1 u1] r1]. destruct (inner_euler prog (a', u) st dt) as [[a1' u1'] r1'].
        cbn [fst snd] in *. subst r1' u1'. destruct r1 as [[diag st1]|e]; [|split; [split; auto|auto]].
        destruct (inner_same prog dt a1 a1' u1 st1 H3 H3') as ((K1 & K2) & K3). destruct (inner_same prog dt a1' a1 u1 st1 H3' H3) as (_ & K3').
        destruct (inner_euler prog (a1, u1) st1 dt) as [[a2 u2] r2]. destruct (inner_euler prog (a1', u1) st1 dt) as [[a2' u2'] r2'].
        cbn [fst snd] in *. subst r2' u2'.
        destruct (let* dn := r2 in let* a0 := multiply (aofQ (3 # 4)) st in let* b := multiply (aofQ (1 # 4)) (snd dn) in add_states a0 b) as [st2|e];
          [|split; [split; auto|auto]].
        destruct (inner_same prog dt a2 a2' u2 st2 K3 K3') as ((L1 & L2) & L3).
        destruct (inner_euler prog (a2, u2) st2 dt) as [[a3 u3] r3]. destruct (inner_euler prog (a2', u2) st2 dt) as [[a3' u3'] r3'].
        cbn [fst snd] in *. subst r3' u3'. split; [split; auto|auto]. }
    destruct ((if Nat.eqb n 2 then rk2 else rk3) prog (a, u) st dt) as [[a1 u1] r1].
    destruct ((if Nat.eqb n 2 then rk2 else rk3) prog (a', u) st dt) as [[a1' u1'] r1']. destruct G as ((G1 & G2) & G3). cbn [fst snd rk_stages rk_euler] in *.
    subst r1' u1'. split; [split; auto|auto].
  Qed.

  Lemma rk_after : forall {U} cfg (prog : icaller U) dt calls n a u, (forall c, In c calls -> snd c = dt) -> plain_euler dt a ->
    rk_stages (fst (after (ssp_rk cfg prog) calls (mkrk n a, u))) = n /\ plain_euler dt (rk_euler (fst (after (ssp_rk cfg prog) calls (mkrk n a, u)))).
  Proof.
    intros U cfg prog dt calls. induction calls as [|[st d] calls IH]; intros n a u Hc Ha; [auto|]. unfold after. cbn [fold_left fst snd].
    assert (d = dt) as -> by (apply (Hc (st, d)); left; auto).
    destruct (rk_same cfg prog dt n a a u st Ha Ha) as (_ & H1 & H2). destruct (ssp_rk cfg prog (mkrk n a, u) st dt) as [[[n1 a1] u1] r1].
    cbn [fst snd rk_stages rk_euler] in *. subst n1. apply (IH n a1 u1); auto. intros c K. apply Hc. right; auto.
  Qed.

  (** Whatever calls with this timestep an SSPRungeKutta object has had, it does as a new one. *)
  Theorem main_rk_as_new : forall {U} cfg (prog : icaller U) z k0 dt calls u0 k u,
    new_rk z = Ok k0 -> (forall c, In c calls -> snd c = dt) -> after (ssp_rk cfg prog) calls (k0, u0) = (k, u) ->
    forall u2 (st : state T), snd (ssp_rk cfg prog (k, u2) st dt) = snd (ssp_rk cfg prog (k0, u2) st dt) /\
      snd (fst (ssp_rk cfg prog (k, u2) st dt)) = snd (fst (ssp_rk cfg prog (k0, u2) st dt)).
  Proof.
    intros U cfg prog z k0 dt calls u0 k u Hz Hc Ha u2 st.
    assert (H0 : exists n, k0 = mkrk n (mkab 1 None [])).
    { unfold new_rk in Hz. destruct (Z.eqb z 2); [injection Hz as <-; eauto|]. destruct (Z.eqb z 3); [injection Hz as <-; eauto|discriminate]. }
    destruct H0 as (n & ->). assert (P0 : plain_euler dt (mkab 1 None [])) by (split; cbn; auto).
    destruct (rk_after cfg prog dt calls n _ u0 Hc P0) as (H1 & H2). rewrite Ha in H1, H2. cbn [fst] in H1, H2. destruct k as [n' a]. cbn [rk_stages rk_euler] in *. subst n'.
    exact (proj1 (rk_same cfg prog dt n a _ u2 st H2 P0)).
  Qed.

  (** The same for AdamsBashforth of order one. *)
  Theorem main_euler_as_new : forall {U} cfg (prog : icaller U) a0 dt calls u0 a u,
    new_ab (OInt 1) = Ok a0 -> (forall c, In c calls -> snd c = dt) -> after (adams_bashforth cfg prog) calls (a0, u0) = (a, u) ->
    forall u2 (st : state T), snd (adams_bashforth cfg prog (a, u2) st dt) = snd (adams_bashforth cfg prog (a0, u2) st dt) /\
      snd (fst (adams_bashforth cfg prog (a, u2) st dt)) = snd (fst (adams_bashforth cfg prog (a0, u2) st dt)).
  Proof.
    intros U cfg prog a0 dt calls u0 a u Hz Hc Ha u2 st. injection Hz as <-. change (Pos.to_nat 1) with 1 in *. assert (P0 : plain_euler dt (mkab 1 None [])) by (split; cbn; auto).
    assert (G : forall calls a u, (forall c, In c calls -> snd c = dt) -> plain_euler dt a -> plain_euler dt (fst (after (adams_bashforth cfg prog) calls (a, u)))).
    { clear - A. intros calls. induction calls as [|[st d] calls IH]; intros a u Hc Ha; [auto|]. unfold after. cbn [fold_left fst snd].
      assert (d = dt) as -> by (apply (Hc (st, d)); left; auto). destruct (ab_call_same prog dt a a u st Ha Ha) as (_ & H1). unfold adams_bashforth at 2.
      destruct (ab_call prog (a, u) st dt) as [[a1 u1] r1]. cbn [fst] in *. apply (IH a1 u1); auto. intros c K. apply Hc. right; auto. }
    specialize (G calls _ u0 Hc P0). rewrite Ha in G. cbn [fst] in G. destruct (ab_call_same prog dt a _ u2 st G P0) as ((H1 & H2) & _).
    unfold adams_bashforth. destruct (ab_call prog (a, u2) st dt) as [s1 r1]. destruct (ab_call prog (mkab 1 None [], u2) st dt) as [s2 r2]. cbn [fst snd] in *. subst r2. auto.
  Qed.

  (** ** Growing histories *)

  Lemma ab_call_grows : forall {U} (prog : icaller U) dt a u (st : state T) s' x, plain_euler dt a -> 1 <= length (ab_hist a) ->
    ab_call prog (a, u) st dt = (s', Ok x) -> length (ab_hist (fst s')) = Datatypes.S (length (ab_hist a)) /\ plain_euler dt (fst s').
  Proof.
    intros U prog dt a u st s' x (Ho & Hd) Hl H. unfold ab_call in H. rewrite (proj2 (ensure_timestep_ok (ab_dt a) dt) Hd) in H.
    destruct (prog u st dt) as [u1 r]. destruct (let* td := r in let* tend := convert_tendencies st (fst td) in Ok (tend, snd td)) as [[tend diag]|e]; [|discriminate H].
    destruct (perform_step (ab_order a) (ab_hist a ++ [tend]) st dt); [|discriminate H]. injection H as <- _. cbn [fst ab_hist].
    assert (E : Nat.eqb (length (ab_hist a ++ [tend])) (ab_order a) = false) by (apply Nat.eqb_neq; rewrite app_length, Ho; cbn [length]; lia).
    rewrite E, app_length. cbn [length]. split; [lia|split; cbn [ab_order ab_dt]; auto].
  Qed.

  Lemma inner_grows : forall {U} (prog : icaller U) dt a u (st : state T) s' x, plain_euler dt a -> 1 <= length (ab_hist a) ->
    inner_euler prog (a, u) st dt = (s', Ok x) -> length (ab_hist (fst s')) = Datatypes.S (length (ab_hist a)) /\ plain_euler dt (fst s').
  Proof.
    intros U prog dt a u st s' x Ha Hl H. unfold inner_euler in H. destruct (ab_call prog (a, u) st dt) as [s1 [y|e]] eqn:E; [|discriminate H].
    injection H as <- _. eapply ab_call_grows; eauto.
  Qed.

  (** Once there is a tendency left behind, an SSPRungeKutta object keeps all tendencies. *)
  Theorem main_rk_grows : forall {U} cfg (prog : icaller U) dt n a u (st : state T) k' u' x, (n = 2 \/ n = 3) -> plain_euler dt a -> 1 <= length (ab_hist a) ->
    ssp_rk cfg prog (mkrk n a, u) st dt = ((k', u'), Ok x) ->
    rk_stages k' = n /\ plain_euler dt (rk_euler k') /\ length (ab_hist (rk_euler k')) = length (ab_hist a) + n.
  Proof.
    intros U cfg prog dt n a u st k' u' x Hn Ha Hl H. unfold ssp_rk in H. cbn [rk_stages rk_euler] in H.
    destruct ((if Nat.eqb n 2 then rk2 else rk3) prog (a, u) st dt) as [[e u1] r] eqn:E. injection H as <- <- H.
    destruct r as [y|w]; [|unfold finish_step in H; cbn [bind] in H; discriminate H]. cbn [rk_stages rk_euler]. split; auto.
    destruct Hn as [-> | ->]; cbn [Nat.eqb] in E.
    - unfold rk2 in E. destruct (inner_euler prog (a, u) st dt) as [[a1 v1] [[d1 s1]|w1]] eqn:E1; [|discriminate E]. apply inner_grows in E1 as (L1 & P1); auto. cbn [fst] in *.
      destruct (inner_euler prog (a1, v1) s1 dt) as [[a2 v2] [[d2 s2]|w2]] eqn:E2; [|discriminate E]. apply inner_grows in E2 as (L2 & P2); auto; [|lia]. cbn [fst] in *.
      injection E as <- _ _. split; auto. lia.
    - unfold rk3 in E. destruct (inner_euler prog (a, u) st dt) as [[a1 v1] [[d1 s1]|w1]] eqn:E1; [|discriminate E]. apply inner_grows in E1 as (L1 & P1); auto. cbn [fst] in *.
      destruct (inner_euler prog (a1, v1) s1 dt) as [[a2 v2] [[d2 s2]|w2]] eqn:E2; [|discriminate E]. apply inner_grows in E2 as (L2 & P2); auto; [|lia]. cbn [fst snd bind] in *.
      destruct (let* a0 := multiply (aofQ (3 # 4)) st in let* b := multiply (aofQ (1 # 4)) s2 in add_states a0 b) as [st2|w2]; [|discriminate E].
      destruct (inner_euler prog (a2, v2) st2 dt) as [[a3 v3] [[d3 s3]|w3]] eqn:E3; [|discriminate E]. apply inner_grows in E3 as (L3 & P3); auto; [|lia]. cbn [fst] in *.
      injection E as <- _ _. split; auto. lia.
  Qed.
End Main.
