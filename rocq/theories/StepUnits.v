(** Independence of units over whole runs. *)
From Coq Require Import String List Bool Arith ZArith QArith Qcanon Lia.
From Verif Require Import Prelude PreludeFacts ArithM NdArray NdFacts Units DataArrayM GetNp Components Composite Steppers
  SpecUnits UnitsFacts SpecDa DaFacts SpecComposite CompositeMain SpecSteppers SteppersFacts ABFacts RKFacts LeapFacts
  StepAlgebra StepRuns StepExact StepSteady.
Import ListNotations.
Open Scope string_scope.
Open Scope nat_scope.
Open Scope list_scope.

Section Units.
  Context {R : Registry} (Hsane : sane_registry R) (Hps : per_second_law R).

  Lemma latest_In : forall k pre (e e' : entry Qc), In e' (latest k pre e) -> In e' (pre ++ [e]).
  Proof.
    intros k pre e e' H. unfold latest in H. assert (He : In e' (e :: rev pre)).
    { rewrite <- (firstn_skipn k). apply in_or_app; auto. }
    apply in_or_app. destruct He as [->|He]; [right; left; auto|left; apply in_rev; auto].
  Qed.

  Lemma latest_alike : forall (Q : entry Qc -> entry Qc -> Prop) k pre1 pre2 e1 e2, Forall2 Q (pre1 ++ [e1]) (pre2 ++ [e2]) ->
    Forall2 Q (latest k pre1 e1) (latest k pre2 e2).
  Proof.
    intros Q k pre1 pre2 e1 e2 H. unfold latest.
    assert (G : Forall2 Q (e1 :: rev pre1) (e2 :: rev pre2)).
    { rewrite <- (rev_unit pre1 e1), <- (rev_unit pre2 e2). clear - H. induction H; cbn [rev]; [constructor|]. apply Forall2_app; auto. }
    clear H. revert k. induction G as [|a b l l' Hab G IH]; intros [|k]; cbn [firstn]; constructor; auto.
  Qed.

  Lemma tends_alike : forall es1 es2 X ts1 ts2, Forall2 (fun a b => alike_tendencies (e_tend a) (e_tend b)) es1 es2 ->
    tendencies_of es1 X ts1 -> tendencies_of es2 X ts2 -> Forall2 alike ts1 ts2.
  Proof.
    intros es1 es2 X ts1 ts2 H. revert ts1 ts2. induction H as [|a b es1 es2 Hab H IH]; intros ts1 ts2 H1 H2;
      inversion H1 as [|? t1 ? ts1' Ht1 H1']; subst; inversion H2 as [|? t2 ? ts2' Ht2 H2']; subst; constructor; auto.
    specialize (Hab X). rewrite Ht1, Ht2 in Hab. auto.
  Qed.

  Lemma amounts_alike : forall (ts1 ts2 : list (da Qc)) c, Forall2 alike ts1 ts2 -> Forall (fun t => in_grid t c) ts1 ->
    exists vs, Forall2 (fun t v => amount t c = Some v) ts1 vs /\ Forall2 (fun t v => amount t c = Some v) ts2 vs.
  Proof.
    intros ts1 ts2 c H. induction H as [|a b ts1 ts2 (_ & Hab) H IH]; intros Hg; [exists []; split; constructor|].
    inversion Hg; subst. destruct IH as (vs & I1 & I2); auto. destruct (Hab c) as (v & V1 & V2); auto.
    exists (v :: vs). split; constructor; auto.
  Qed.

  (** ** Adams-Bashforth *)

  Lemma ab_alike : forall {U1 U2} cfg1 cfg2 (prog1 : icaller U1) (prog2 : icaller U2) dt n u1 u2 log1 log2 s1 s2, 1 <= n <= 4 ->
    history (adams_bashforth cfg1 prog1) prog1 dt (mkab n None [], u1) log1 s1 -> wf_log log1 ->
    history (adams_bashforth cfg2 prog2) prog2 dt (mkab n None [], u2) log2 s2 -> wf_log log2 ->
    forall pre1 e1 post1 pre2 e2 post2, log1 = pre1 ++ e1 :: post1 -> log2 = pre2 ++ e2 :: post2 ->
    Forall2 (fun a b => alike_tendencies (e_tend a) (e_tend b)) (pre1 ++ [e1]) (pre2 ++ [e2]) ->
    forall X x1 x2, dget X (e_st e1) = Some (VDA x1) -> dget X (e_st e2) = Some (VDA x2) -> alike x1 x2 ->
    same_units X (map e_st (pre1 ++ [e1])) -> same_units X (map e_st (pre2 ++ [e2])) ->
    (forall e', In e' (pre1 ++ [e1]) -> In X (keys (e_tend e'))) ->
    exists r1 r2, dget X (e_new e1) = Some (VDA r1) /\ dget X (e_new e2) = Some (VDA r2) /\ alike r1 r2.
  Proof.
    intros U1 U2 cfg1 cfg2 prog1 prog2 dt n u1 u2 log1 log2 s1 s2 Hn H1 W1 H2 W2 pre1 e1 post1 pre2 e2 post2 E1 E2 Ht X x1 x2 Hx1 Hx2 Hx S1 S2 K1.
    assert (Hlen : length pre1 = length pre2).
    { pose proof (Forall2_len _ _ _ Ht) as L. rewrite !app_length in L. cbn [length] in L. lia. }
    pose proof (latest_alike _ (Nat.min n (S (length pre1))) _ _ _ _ Ht) as Hl.
    assert (Su : forall pre e k, same_units X (map e_st (pre ++ [e])) -> same_units X (map e_st (latest k pre e))).
    { intros pre e k H st st' x x' I1 I2. apply H; apply in_map_iff in I1 as (q & <- & I1); apply in_map_iff in I2 as (q' & <- & I2);
        apply in_map; eapply latest_In; eauto. }
    assert (Kl1 : forall e', In e' (latest (Nat.min n (S (length pre1))) pre1 e1) -> In X (keys (e_tend e'))).
    { intros e' He. apply K1. eapply latest_In; eauto. }
    assert (Kl2 : forall e', In e' (latest (Nat.min n (S (length pre2))) pre2 e2) -> In X (keys (e_tend e'))).
    { rewrite <- Hlen. clear - Hl Kl1. induction Hl as [|a b l l' Hab Hl IH]; intros e' []; [subst|].
      - specialize (Hab X). specialize (Kl1 a (or_introl eq_refl)). apply In_keys_dget in Kl1 as (t & Hg). rewrite Hg in Hab.
        destruct (dget X (e_tend e')) eqn:E; [eapply dget_In_keys; eauto|contradiction].
      - apply IH; auto. intros q Hq. apply Kl1. right; auto. }
    destruct (ab_physical Hsane Hps cfg1 prog1 dt n u1 log1 s1 Hn H1 W1 pre1 e1 post1 E1 X (Su _ _ _ S1) Kl1) as (y1 & ts1 & r1 & Y1 & R1 & T1 & X1 & V1).
    destruct (ab_physical Hsane Hps cfg2 prog2 dt n u2 log2 s2 Hn H2 W2 pre2 e2 post2 E2 X (Su _ _ _ S2) Kl2) as (y2 & ts2 & r2 & Y2 & R2 & T2 & X2 & V2).
    assert (y1 = x1) by congruence. assert (y2 = x2) by congruence. subst y1 y2. exists r1, r2. do 2 (split; auto).
    rewrite <- Hlen in T2, V2. pose proof (tends_alike _ _ _ _ _ Hl T1 T2) as Hts.
    assert (L : forall d, dim_len r1 d = dim_len r2 d).
    { intros d. destruct X1 as (_ & _ & _ & ->), X2 as (_ & _ & _ & ->). apply first_len_alike. auto. }
    split; auto. intros c Hc. assert (Hc2 : in_grid r2 c) by (intros d m Hm; apply Hc; rewrite L; auto).
    destruct Hx as (_ & Hx). destruct (Hx c (in_grid_left _ _ _ _ X1 Hc)) as (v & B1 & B2).
    destruct (ab_textbook cfg1 prog1 dt n u1 log1 s1 Hn H1 W1 pre1 e1 post1 E1 X Kl1) as (y1 & ts1' & r1' & _ & R1' & T1' & _ & V1').
    assert (r1' = r1) by congruence. subst r1'. destruct (V1' c Hc) as (ys & Hys & _).
    destruct (amounts_alike ts1 ts2 c Hts (rates_grid _ _ _ _ _ Hys T1)) as (vs & A1 & A2).
    eexists. split; [eapply V1; eauto|eapply V2; eauto].
  Qed.

  Lemma ab_units_kept : forall {U} cfg (prog : icaller U) dt n u e0 log s, 1 <= n ->
    history (adams_bashforth cfg prog) prog dt (mkab n None [], u) (e0 :: log) s -> wf_log (e0 :: log) -> chained (e0 :: log) ->
    forall X, same_units X (map e_st (e0 :: log)).
  Proof.
    intros U cfg prog dt n u e0 log s Hn H Hw Hch X.
    assert (Main : forall m pre e post x, length pre = m -> e0 :: log = pre ++ e :: post -> dget X (e_st e) = Some (VDA x) ->
              exists x0, dget X (e_st e0) = Some (VDA x0) /\ units_of x = units_of x0).
    { induction m as [|m IH]; intros pre e post x Hm E Hx.
      - destruct pre; [|discriminate]. injection E as <- _. eauto.
      - destruct pre as [|p pre] using rev_ind; [discriminate|]. clear IHpre. rewrite app_length in Hm. cbn [length] in Hm.
        rewrite <- app_assoc in E. cbn [app] in E. rewrite (Hch _ _ _ _ E) in Hx.
        destruct (ab_described cfg prog dt n u _ s Hn H Hw pre p (e :: post) E X) as [D|(x0 & ts & r & D1 & D2 & (_ & D3 & _) & _)].
        + apply (IH pre p (e :: post)); auto; [lia|congruence].
        + destruct (IH pre p (e :: post) x0) as (y & Y1 & Y2); auto; [lia|]. exists y. split; auto.
          assert (r = x) by congruence. subst. rewrite <- Y2. unfold units_of. rewrite D3. auto. }
    intros st st' x x' Hs Hs' Hx Hx'. apply in_map_iff in Hs as (e & <- & He). apply in_map_iff in Hs' as (e' & <- & He').
    apply in_split in He as (p & q & E). apply in_split in He' as (p' & q' & E').
    destruct (Main _ p e q x eq_refl E Hx) as (y & Y1 & Y2). destruct (Main _ p' e' q' x' eq_refl E' Hx') as (y' & Y1' & Y2'). congruence.
  Qed.

  Lemma alike_keys : forall (t1 t2 : dict (da Qc)) X, alike_tendencies t1 t2 -> In X (keys t1) <-> In X (keys t2).
  Proof.
    intros t1 t2 X H. specialize (H X). split; intros Hk; apply In_keys_dget in Hk as (v & Hv); rewrite Hv in H.
    - destruct (dget X t2) eqn:E; [eapply dget_In_keys; eauto|contradiction].
    - destruct (dget X t1) eqn:E; [eapply dget_In_keys; eauto|contradiction].
  Qed.

  Lemma history_snoc_inv : forall {S U} (call : S * U -> state Qc -> Z -> (S * U) * res (stepped Qc)) (prog : icaller U) dt s0 log e s u,
    history call prog dt s0 (log ++ [e]) (s, u) -> exists s1 u1 pdiag, history call prog dt s0 log (s1, u1) /\
      prog u1 (e_st e) dt = (u, Ok (e_tend e, pdiag)) /\ call (s1, u1) (e_st e) dt = ((s, u), Ok (e_diag e, e_new e)).
  Proof.
    intros S U call prog dt s0 log e s u H. inversion H as [s' E1 E2 E3|s0' log' s1 u1 st u' tend pdiag s' diag new H1 H2 H3 E1 E2 E3].
    - destruct log; discriminate.
    - apply app_inj_tail in E2 as [-> <-]. subst. exists s1, u1, pdiag. auto.
  Qed.

  Lemma chained_app : forall {T} (log post : list (entry T)), chained (log ++ post) -> chained log.
  Proof. intros T log post H pre e1 e2 q E. apply (H pre e1 e2 (q ++ post)). rewrite E, <- app_assoc. reflexivity. Qed.

  (** Two runs from physically equal states, with components that give physically
      equal tendencies in physically equal states, stay physically equal. *)
  Lemma ab_runs_alike : forall {U} cfg1 cfg2 (prog1 prog2 : icaller U) dt n u ks log1 log2 a1 v1 a2 v2, 1 <= n <= 4 ->
    (forall u st1 st2 u1 u2 tend1 tend2 diag1 diag2, alike_states st1 st2 ->
       prog1 u st1 dt = (u1, Ok (tend1, diag1)) -> prog2 u st2 dt = (u2, Ok (tend2, diag2)) ->
       u1 = u2 /\ alike_tendencies tend1 tend2 /\ forall X, In X (keys tend1) <-> In X ks) ->
    history (adams_bashforth cfg1 prog1) prog1 dt (mkab n None [], u) log1 (a1, v1) -> wf_log log1 -> chained log1 ->
    history (adams_bashforth cfg2 prog2) prog2 dt (mkab n None [], u) log2 (a2, v2) -> wf_log log2 -> chained log2 ->
    length log1 = length log2 ->
    (forall e1 e2 l1 l2, log1 = e1 :: l1 -> log2 = e2 :: l2 -> alike_states (e_st e1) (e_st e2)) ->
    Forall2 (fun e1 e2 => alike_states (e_st e1) (e_st e2) /\ alike_tendencies (e_tend e1) (e_tend e2) /\
               alike_states (e_new e1) (e_new e2)) log1 log2 /\ v1 = v2 /\
    forall e X, In e log1 -> In X (keys (e_tend e)) <-> In X ks.
  Proof.
    intros U cfg1 cfg2 prog1 prog2 dt n u ks log1. induction log1 as [|e1 log1 IH] using rev_ind;
      intros log2 a1 v1 a2 v2 Hn Hp H1 W1 C1 H2 W2 C2 Hlen H0.
    - destruct log2; [|discriminate]. inversion H1 as [s' E1 E2 E3|? ? ? ? ? ? ? ? ? ? ? ? ? ? E1 E2 E3]; [|destruct log; discriminate].
      inversion H2 as [s'' F1 F2 F3|? ? ? ? ? ? ? ? ? ? ? ? ? ? F1 F2 F3]; [|destruct log; discriminate].
      split; [constructor|]. split; [congruence|]. intros e X [].
    - destruct log2 as [|e2 log2 _] using rev_ind; [rewrite app_length in Hlen; simpl in Hlen; lia|].
      rewrite !app_length in Hlen. cbn [length] in Hlen.
      apply history_snoc_inv in H1 as G1. destruct G1 as (b1 & w1 & d1 & G1 & P1 & Q1).
      apply history_snoc_inv in H2 as G2. destruct G2 as (b2 & w2 & d2 & G2 & P2 & Q2).
      destruct (IH log2 b1 w1 b2 w2) as (I1 & I2 & I3); auto.
      { intros e He. apply W1. apply in_or_app; auto. }
      { eapply chained_app; eauto. }
      { intros e He. apply W2. apply in_or_app; auto. }
      { eapply chained_app; eauto. }
      { lia. }
      { intros x y l l' -> ->. eapply H0; reflexivity. }
      assert (Hst : alike_states (e_st e1) (e_st e2)).
      { destruct log1 as [|p1 log1 _] using rev_ind.
        - destruct log2; [|simpl in Hlen; lia]. eapply H0; reflexivity.
        - destruct log2 as [|p2 log2 _] using rev_ind; [rewrite app_length in Hlen; simpl in Hlen; lia|].
          rewrite <- app_assoc in C1, C2. rewrite (C1 log1 p1 e1 [] eq_refl), (C2 log2 p2 e2 [] eq_refl).
          apply Forall2_app_inv_l in I1 as (l1 & l2 & _ & J & E).
          inversion J as [|? q ? ? (_ & _ & J1) J2]; subst. inversion J2; subst. apply app_inj_tail in E as [_ ->]. auto. }
      subst w2. destruct (Hp _ _ _ _ _ _ _ _ _ Hst P1 P2) as (Hu & Ht & Hk).
      assert (Hks : forall e X, In e (log1 ++ [e1]) -> In X (keys (e_tend e)) <-> In X ks).
      { intros e X He. apply in_app_or in He as [He|[<-|[]]]; auto. }
      split; [|split; auto]. apply Forall2_app; auto. constructor; [|constructor]. split; auto. split; auto.
      assert (HtF : Forall2 (fun a b => alike_tendencies (e_tend a) (e_tend b)) (log1 ++ [e1]) (log2 ++ [e2])).
      { apply Forall2_app; [|constructor; auto]. clear - I1. induction I1 as [|x y l l' (_ & J & _) I IHI]; constructor; auto. }
      assert (Hks2 : forall e X, In e (log2 ++ [e2]) -> In X (keys (e_tend e)) <-> In X ks).
      { intros e X He. clear - HtF Hks He. revert HtF Hks. generalize (log1 ++ [e1]). intros l F Hks. induction F as [|a b l l' Hab F IHF]; [destruct He|].
        destruct He as [<-|He].
        - rewrite <- (alike_keys _ _ X Hab). apply Hks. left; auto.
        - apply IHF; auto. intros q Y Hq. apply Hks. right; auto. }
      intros X. destruct (In_dec_str X ks) as [HX|HX].
      + assert (K1 : forall e', In e' (log1 ++ [e1]) -> In X (keys (e_tend e'))) by (intros; apply Hks; auto).
        pose proof (Hst X) as HsX.
        assert (Hx1 : exists x1, dget X (e_st e1) = Some (VDA x1)).
        { destruct (ab_formula_lemma cfg1 prog1 dt n u _ _ ltac:(lia) H1 W1 log1 e1 [] eq_refl X) as (x & _ & _ & Hx & _); eauto.
          intros e' He'. apply K1. eapply latest_In; eauto. }
        destruct Hx1 as (x1 & Hx1). rewrite Hx1 in HsX. destruct (dget X (e_st e2)) as [[x2|]|] eqn:Hx2; try contradiction.
        assert (Hun : forall cfg prog log e s, history (adams_bashforth cfg prog) prog dt (mkab n None [], u) (log ++ [e]) s ->
                  wf_log (log ++ [e]) -> chained (log ++ [e]) -> same_units X (map e_st (log ++ [e]))).
        { intros cfg prog log e s Q W C. destruct log as [|q log]; cbn [app] in *; apply (ab_units_kept cfg prog dt n u _ _ s); auto; lia. }
        destruct (ab_alike cfg1 cfg2 prog1 prog2 dt n u u _ _ _ _ Hn H1 W1 H2 W2 log1 e1 [] log2 e2 [] eq_refl eq_refl HtF X x1 x2 Hx1 Hx2 HsX
                    (Hun _ _ _ _ _ H1 W1 C1) (Hun _ _ _ _ _ H2 W2 C2) K1) as (r1 & r2 & R1 & R2 & R3).
        rewrite R1, R2. auto.
      + rewrite (ab_untouched cfg1 prog1 dt n u _ _ ltac:(lia) H1 log1 e1 [] eq_refl X), (ab_untouched cfg2 prog2 dt n u _ _ ltac:(lia) H2 log2 e2 [] eq_refl X).
        * apply Hst.
        * intros e' He' Hk'. apply HX. apply latest_In in He'. apply (Hks2 e' X He'). auto.
        * intros e' He' Hk'. apply HX. apply latest_In in He'. apply (Hks e' X He'). auto.
  Qed.

  (** ** Leapfrog *)

  Lemma leap_alike : forall dt nu alpha (before1 before2 st1 st2 : state Qc) tend1 tend2 st1' st2' new1 new2,
    leap_step dt nu alpha before1 st1 tend1 st1' new1 -> leap_step dt nu alpha before2 st2 tend2 st2' new2 ->
    (forall X, same_units X [before1; st1]) -> (forall X, same_units X [before2; st2]) ->
    alike_states before1 before2 -> alike_states st1 st2 -> alike_tendencies tend1 tend2 ->
    alike_states st1' st2' /\ alike_states new1 new2.
  Proof.
    intros dt nu alpha before1 before2 st1 st2 tend1 tend2 st1' st2' new1 new2 (O1 & N1 & H1) (O2 & N2 & H2) U1 U2 Hb Hs Ht.
    assert (G : forall X, (dget X st1' = dget X st1 /\ dget X st2' = dget X st2 /\
                  dget X new1 = dget X st1 /\ dget X new2 = dget X st2) \/
                exists a1 a2 b1 b2, dget X st1' = Some (VDA a1) /\ dget X st2' = Some (VDA a2) /\ dget X new1 = Some (VDA b1) /\
                  dget X new2 = Some (VDA b2) /\ alike a1 a2 /\ alike b1 b2).
    { intros X. specialize (Hb X). specialize (Hs X). specialize (Ht X). specialize (U1 X). specialize (U2 X).
      destruct (dget X tend1) as [t1|] eqn:E1, (dget X tend2) as [t2|] eqn:E2; try contradiction.
      2: { left. repeat split; first [apply O1|apply O2|apply N1|apply N2]; intros Hk; apply In_keys_dget in Hk as (v & Hv); congruence. }
      right. destruct (H1 X t1 E1) as (o1 & x1 & x1' & n1 & Ho1 & Hx1 & Hx1' & Hn1 & Ex1 & En1 & Vx1 & Vn1).
      destruct (H2 X t2 E2) as (o2 & x2 & x2' & n2 & Ho2 & Hx2 & Hx2' & Hn2 & Ex2 & En2 & Vx2 & Vn2).
      exists x1', x2', n1, n2. do 4 (split; auto). rewrite Ho1, Ho2 in Hb. rewrite Hx1, Hx2 in Hs.
      assert (Lx : forall d, dim_len x1' d = dim_len x2' d).
      { intros d. destruct Ex1 as (_ & _ & _ & ->), Ex2 as (_ & _ & _ & ->). apply first_len_alike. auto. }
      assert (Ln : forall d, dim_len n1 d = dim_len n2 d).
      { intros d. destruct En1 as (_ & _ & _ & ->), En2 as (_ & _ & _ & ->). apply first_len_alike. auto. }
      assert (Val : forall c, in_grid o1 c -> in_grid t1 c -> exists w z s1 p1 s2 p2,
                parse s1 = Some p1 /\ parse s2 = Some p2 /\ units_of x1 = Some s1 /\ units_of x2 = Some s2 /\ units_of o1 = Some s1 /\ units_of o2 = Some s2 /\
                base_value p1 (da_at o1 c) = w /\ base_value p2 (da_at o2 c) = w /\
                (forall y, rate st1 X t1 c y -> (y * u_fac p1 = z)%Qc) /\ (forall y, rate st2 X t2 c y -> (y * u_fac p2 = z)%Qc)).
      { intros c Go Gt. destruct (proj2 Hb c Go) as (w & B1 & B2). destruct (proj2 Ht c Gt) as (z & C1 & C2).
        destruct (amount_units _ _ _ B1) as (s1 & p1 & Uo1 & P1 & K1). destruct (amount_units _ _ _ B2) as (s2 & p2 & Uo2 & P2 & K2).
        assert (Us1 : units_of x1 = Some s1) by (rewrite <- Uo1; apply (U1 st1 before1 x1 o1); simpl; auto).
        assert (Us2 : units_of x2 = Some s2) by (rewrite <- Uo2; apply (U2 st2 before2 x2 o2); simpl; auto).
        exists w, z, s1, p1, s2, p2. repeat match goal with |- _ /\ _ => split end; auto; intros y Hy; eapply (rate_amount Hsane Hps); eauto. }
      assert (Vx : forall c s1 p1 s2 p2, in_grid x1 c -> parse s1 = Some p1 -> parse s2 = Some p2 -> units_of x1 = Some s1 -> units_of x2 = Some s2 ->
                base_value p1 (da_at x1 c) = base_value p2 (da_at x2 c)).
      { intros c s1 p1 s2 p2 Gx P1 P2 Q1 Q2. destruct (proj2 Hs c Gx) as (v & A1 & A2). rewrite (amount_of _ c _ _ Q1 P1) in A1.
        rewrite (amount_of _ c _ _ Q2 P2) in A2. congruence. }
      split; split; auto; intros c Hc.
      - assert (Hc2 : in_grid x2' c) by (intros d m Hm; apply Hc; rewrite Lx; auto).
        pose proof (in_grid_left _ _ _ _ Ex1 Hc) as Gx1. pose proof (in_grid_left _ _ _ _ Ex2 Hc2) as Gx2.
        destruct (Vx1 c Gx1) as (Go1 & Gt1 & y1 & Y1 & W1). destruct (Vx2 c Gx2) as (Go2 & Gt2 & y2 & Y2 & W2).
        destruct (Val c Go1 Gt1) as (w & z & s1 & p1 & s2 & p2 & P1 & P2 & Us1 & Us2 & Uo1 & Uo2 & B1 & B2 & Z1 & Z2).
        pose proof (Vx c s1 p1 s2 p2 Gx1 P1 P2 Us1 Us2) as Bx. specialize (Z1 y1 Y1). specialize (Z2 y2 Y2).
        assert (Ur1 : units_of x1' = Some s1) by (unfold units_of; destruct Ex1 as (_ & -> & _); exact Us1).
        assert (Ur2 : units_of x2' = Some s2) by (unfold units_of; destruct Ex2 as (_ & -> & _); exact Us2).
        rewrite (amount_of x1' c s1 p1), (amount_of x2' c s2 p2); auto. eexists. split; [reflexivity|]. f_equal.
        rewrite W1, W2, !(proj1 (leap_values_lin _ _ _ _ _ _)).
        change (aofQ (dt # 1000000)) with (Q2Qc (dt # 1000000)). set (h := Q2Qc (dt # 1000000)).
        transitivity (alpha * nu * base_value p2 (da_at o2 c) + (1 - alpha * nu) * base_value p2 (da_at x2 c) + alpha * nu * h * (y2 * u_fac p2))%Qc.
        + unfold base_value. ring.
        + rewrite B2, <- B1, <- Bx, Z2, <- Z1. unfold base_value. ring.
      - assert (Hc2 : in_grid n2 c) by (intros d m Hm; apply Hc; rewrite Ln; auto).
        pose proof (in_grid_left _ _ _ _ En1 Hc) as Go1.
        destruct (Vn1 c Hc) as (Gt1 & Gx1 & y1 & Y1 & W1). destruct (Vn2 c Hc2) as (Gt2 & _ & y2 & Y2 & W2).
        destruct (Val c Go1 Gt1) as (w & z & s1 & p1 & s2 & p2 & P1 & P2 & Us1 & Us2 & Uo1 & Uo2 & B1 & B2 & Z1 & Z2).
        specialize (Z1 y1 Y1). specialize (Z2 y2 Y2).
        assert (Ur1 : units_of n1 = Some s1) by (unfold units_of; destruct En1 as (_ & -> & _); exact Uo1).
        assert (Ur2 : units_of n2 = Some s2) by (unfold units_of; destruct En2 as (_ & -> & _); exact Uo2).
        rewrite (amount_of n1 c s1 p1), (amount_of n2 c s2 p2); auto. eexists. split; [reflexivity|]. f_equal.
        rewrite W1, W2, !(proj2 (leap_values_lin _ _ _ _ _ _)).
        change (aofQ (dt # 1000000)) with (Q2Qc (dt # 1000000)). set (h := Q2Qc (dt # 1000000)).
        set (b := ((alpha - 1) * nu)%Qc).
        assert (Bx : (b * base_value p2 (da_at x2 c) = b * base_value p1 (da_at x1 c))%Qc).
        { cbn [aeqb aofQ ArithQc] in Gx1. destruct (Qc_eq_bool alpha (Q2Qc (1 # 1))) eqn:Ea.
          - apply Qc_eq_bool_correct in Ea. unfold b. rewrite Ea. change (Q2Qc (1 # 1)) with 1%Qc. ring.
          - rewrite (Vx c s1 p1 s2 p2 (Gx1 eq_refl) P1 P2 Us1 Us2). auto. }
        transitivity ((1 + b) * base_value p2 (da_at o2 c) - b * base_value p2 (da_at x2 c) + (Q2Qc (2 # 1) + b) * h * (y2 * u_fac p2))%Qc.
        + unfold base_value. ring.
        + rewrite B2, <- B1, Bx, Z2, <- Z1. unfold base_value. ring. }
    split; intros X; destruct (G X) as [(G1 & G2 & G3 & G4)|(a1 & a2 & b1 & b2 & G1 & G2 & G3 & G4 & G5 & G6)].
    - rewrite G1, G2. apply Hs.
    - rewrite G1, G2. auto.
    - rewrite G3, G4. apply Hs.
    - rewrite G3, G4. auto.
  Qed.

  Lemma leap_units : forall dt nu alpha (before st : state Qc) tend st' new X x n, leap_step dt nu alpha before st tend st' new ->
    (dget X st' = Some (VDA x) -> exists y, dget X st = Some (VDA y) /\ units_of x = units_of y) /\
    (dget X new = Some (VDA n) -> exists y s, In s [before; st] /\ dget X s = Some (VDA y) /\ units_of n = units_of y).
  Proof.
    intros dt nu alpha before st tend st' new X x n (O & N & H). destruct (dget X tend) as [t|] eqn:E.
    - destruct (H X t E) as (o & x0 & x' & n0 & Ho & Hx0 & Hx' & Hn & (_ & Ex & _) & (_ & En & _) & _). split; intros K.
      + exists x0. split; auto. assert (x' = x) by congruence. subst. unfold units_of. rewrite Ex. auto.
      + exists o, before. split; [left; auto|]. split; auto. assert (n0 = n) by congruence. subst. unfold units_of. rewrite En. auto.
    - assert (Hk : ~ In X (keys tend)) by (intros Hk; apply In_keys_dget in Hk as (v & Hv); congruence). split; intros K.
      + exists x. rewrite O in K; auto.
      + exists n, st. rewrite N in K; auto. split; [right; left|]; auto.
  Qed.

  Lemma lhistory_snoc_inv : forall {U} cfg (prog : icaller U) dt s0 log (e : lentry Qc) l u,
    lhistory cfg prog dt s0 (log ++ [e]) (l, u) -> exists l1 u1 pdiag, lhistory cfg prog dt s0 log (l1, u1) /\
      prog u1 (l_st e) dt = (u, Ok (l_tend e, pdiag)).
  Proof.
    intros U cfg prog dt s0 log e l u H. inversion H as [s' E1 E2 E3|s0' log' l1 u1 st u' tend pdiag l' st' diag new H1 H2 H3 E1 E2 E3].
    - destruct log; discriminate.
    - apply app_inj_tail in E2 as [-> <-]. subst. exists l1, u1, pdiag. auto.
  Qed.

  (** The units of a quantity never change over a chained run. *)
  Lemma leap_units_kept : forall {U} cfg (prog : icaller U) dt (nu alpha : Qc) u e0 log s,
    lhistory cfg prog dt (new_leap nu alpha, u) (e0 :: log) s -> wf_llog (e0 :: log) -> lchained (e0 :: log) ->
    forall X pre e post, e0 :: log = pre ++ e :: post -> forall x,
    dget X (l_st e) = Some (VDA x) \/ dget X (l_after e) = Some (VDA x) \/ dget X (l_new e) = Some (VDA x) ->
    exists x0, dget X (l_st e0) = Some (VDA x0) /\ units_of x = units_of x0.
  Proof.
    intros U cfg prog dt nu alpha u e0 log s H Hw Hch X. destruct (leap_formula_lemma cfg prog dt nu alpha u _ s H Hw) as (F1 & F2).
    assert (Main : forall m pre e post, length pre = m -> e0 :: log = pre ++ e :: post -> forall x,
      dget X (l_st e) = Some (VDA x) \/ dget X (l_after e) = Some (VDA x) \/ dget X (l_new e) = Some (VDA x) ->
      exists x0, dget X (l_st e0) = Some (VDA x0) /\ units_of x = units_of x0).
    { induction m as [|m IH]; intros pre e post Hm E x Hx.
      - destruct pre; [|discriminate]. destruct (F1 e post E) as (A1 & A2). injection E as <- _. rewrite A1 in Hx.
        destruct Hx as [Hx|[Hx|Hx]]; eauto. eapply euler_back; eauto.
      - destruct pre as [|p pre] using rev_ind; [discriminate|]. clear IHpre. rewrite app_length in Hm. cbn [length] in Hm.
        rewrite <- app_assoc in E. cbn [app] in E. pose proof (F2 pre p e post E) as L.
        assert (IHp : forall x, dget X (l_st p) = Some (VDA x) \/ dget X (l_after p) = Some (VDA x) \/ dget X (l_new p) = Some (VDA x) ->
                  exists x0, dget X (l_st e0) = Some (VDA x0) /\ units_of x = units_of x0) by (apply (IH pre p (e :: post)); auto; lia).
        assert (IHs : forall x, dget X (l_st e) = Some (VDA x) -> exists x0, dget X (l_st e0) = Some (VDA x0) /\ units_of x = units_of x0).
        { intros y Hy. rewrite (Hch _ _ _ _ E) in Hy. auto. }
        destruct (leap_units _ _ _ _ _ _ _ _ X x x L) as (K1 & K2). destruct Hx as [Hx|[Hx|Hx]]; auto.
        + destruct (K1 Hx) as (y & Y1 & ->). auto.
        + destruct (K2 Hx) as (y & q & [<-|[<-|[]]] & Y1 & ->); auto. }
    intros pre e post E. eapply Main; eauto.
  Qed.

  Lemma lchained_app : forall {T} (log post : list (lentry T)), lchained (log ++ post) -> lchained log.
  Proof. intros T log post H pre e1 e2 q E. apply (H pre e1 e2 (q ++ post)). rewrite E, <- app_assoc. reflexivity. Qed.

  Lemma leap_runs_alike : forall {U} cfg1 cfg2 (prog1 prog2 : icaller U) dt (nu alpha : Qc) u log1 log2 a1 v1 a2 v2,
    (forall u st1 st2 u1 u2 tend1 tend2 diag1 diag2, alike_states st1 st2 ->
       prog1 u st1 dt = (u1, Ok (tend1, diag1)) -> prog2 u st2 dt = (u2, Ok (tend2, diag2)) ->
       u1 = u2 /\ alike_tendencies tend1 tend2) ->
    lhistory cfg1 prog1 dt (new_leap nu alpha, u) log1 (a1, v1) -> wf_llog log1 -> lchained log1 ->
    lhistory cfg2 prog2 dt (new_leap nu alpha, u) log2 (a2, v2) -> wf_llog log2 -> lchained log2 ->
    length log1 = length log2 ->
    (forall e1 e2 l1 l2, log1 = e1 :: l1 -> log2 = e2 :: l2 -> alike_states (l_st e1) (l_st e2)) ->
    Forall2 (fun e1 e2 => alike_states (l_st e1) (l_st e2) /\ alike_tendencies (l_tend e1) (l_tend e2) /\
               alike_states (l_after e1) (l_after e2) /\ alike_states (l_new e1) (l_new e2)) log1 log2 /\ v1 = v2.
  Proof.
    intros U cfg1 cfg2 prog1 prog2 dt nu alpha u log1. induction log1 as [|e1 log1 IH] using rev_ind;
      intros log2 a1 v1 a2 v2 Hp H1 W1 C1 H2 W2 C2 Hlen H0.
    - destruct log2; [|discriminate]. inversion H1 as [s' E1 E2 E3|? ? ? ? ? ? ? ? ? ? ? ? ? ? ? E1 E2 E3]; [|destruct log; discriminate].
      inversion H2 as [s'' F1 F2 F3|? ? ? ? ? ? ? ? ? ? ? ? ? ? ? F1 F2 F3]; [|destruct log; discriminate].
      split; [constructor|congruence].
    - destruct log2 as [|e2 log2 _] using rev_ind; [rewrite app_length in Hlen; simpl in Hlen; lia|].
      rewrite !app_length in Hlen. cbn [length] in Hlen.
      apply lhistory_snoc_inv in H1 as G1. destruct G1 as (b1 & w1 & d1 & G1 & P1).
      apply lhistory_snoc_inv in H2 as G2. destruct G2 as (b2 & w2 & d2 & G2 & P2).
      destruct (IH log2 b1 w1 b2 w2) as (I1 & I2); auto.
      { intros e He. apply W1. apply in_or_app; auto. }
      { eapply lchained_app; eauto. }
      { intros e He. apply W2. apply in_or_app; auto. }
      { eapply lchained_app; eauto. }
      { lia. }
      { intros x y l l' -> ->. eapply H0; reflexivity. }
      subst w2. destruct (leap_formula_lemma cfg1 prog1 dt nu alpha u _ _ H1 W1) as (F1 & F2).
      destruct (leap_formula_lemma cfg2 prog2 dt nu alpha u _ _ H2 W2) as (F1' & F2').
      destruct log1 as [|p1 log1 _] using rev_ind.
      + destruct log2; [|simpl in Hlen; lia]. cbn [app] in *. assert (Hst : alike_states (l_st e1) (l_st e2)) by (eapply H0; reflexivity).
        destruct (Hp _ _ _ _ _ _ _ _ _ Hst P1 P2) as (Hu & Ht). split; auto. constructor; [|constructor].
        destruct (F1 e1 [] eq_refl) as (A1 & A2). destruct (F1' e2 [] eq_refl) as (B1 & B2). rewrite A1, B1.
        do 3 (split; auto). eapply euler_alike; eauto.
      + destruct log2 as [|p2 log2 _] using rev_ind; [rewrite app_length in Hlen; simpl in Hlen; lia|].
        pose proof I1 as I1'. apply Forall2_app_inv_l in I1' as (l1 & l2 & _ & J & E).
        inversion J as [|? q ? ? (J0 & _ & J1 & J3) J2]; subst. inversion J2; subst. apply app_inj_tail in E as [_ <-].
        assert (Hst : alike_states (l_st e1) (l_st e2)).
        { rewrite <- app_assoc in C1, C2. rewrite (C1 log1 p1 e1 [] eq_refl), (C2 log2 p2 e2 [] eq_refl). auto. }
        destruct (Hp _ _ _ _ _ _ _ _ _ Hst P1 P2) as (Hu & Ht). split; auto. apply Forall2_app; auto. constructor; [|constructor].
        do 2 (split; auto).
        assert (Hun : forall cfg prog log p e s, lhistory cfg prog dt (new_leap nu alpha, u) ((log ++ [p]) ++ [e]) s ->
                  wf_llog ((log ++ [p]) ++ [e]) -> lchained ((log ++ [p]) ++ [e]) -> forall X, same_units X [l_after p; l_st e]).
        { intros cfg prog log p e s Q W C X. rewrite <- app_assoc in Q, W, C. cbn [app] in Q, W, C.
          assert (Hc : exists e0 l0, log ++ p :: [e] = e0 :: l0) by (destruct log; cbn [app]; eauto). destruct Hc as (e0 & l0 & Hc). rewrite Hc in Q, W, C.
          pose proof (leap_units_kept cfg prog dt nu alpha u e0 l0 s Q W C X) as K. rewrite <- Hc in K.
          intros st st' x x' Is Is' Hx Hx'.
          assert (G : forall st x, In st [l_after p; l_st e] -> dget X st = Some (VDA x) -> exists x0, dget X (l_st e0) = Some (VDA x0) /\ units_of x = units_of x0).
          { intros q0 y [<-|[<-|[]]] Hy; [apply (K log p [e] eq_refl)|apply (K (log ++ [p]) e [])]; auto. rewrite <- app_assoc. reflexivity. }
          destruct (G _ _ Is Hx) as (y & Y1 & Y2). destruct (G _ _ Is' Hx') as (y' & Y1' & Y2'). congruence. }
        assert (E1 : (log1 ++ [p1]) ++ [e1] = log1 ++ p1 :: e1 :: []) by (rewrite <- app_assoc; reflexivity).
        assert (E2 : (log2 ++ [p2]) ++ [e2] = log2 ++ p2 :: e2 :: []) by (rewrite <- app_assoc; reflexivity).
        exact (leap_alike _ _ _ _ _ _ _ _ _ _ _ _ _ (F2 _ _ _ _ E1) (F2' _ _ _ _ E2) (Hun _ _ _ _ _ _ H1 W1 C1) (Hun _ _ _ _ _ _ H2 W2 C2) J1 Hst Ht).
  Qed.
End Units.
