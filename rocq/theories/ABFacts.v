(** Lemmas about runs of AdamsBashforth. *)
From Coq Require Import String List Bool Arith ZArith QArith Qcanon Lia.
From Verif Require Import Prelude PreludeFacts ArithM NdArray NdFacts Units DataArrayM GetNp Components Composite Steppers
  SpecUnits UnitsFacts SpecDa DaFacts SpecComposite SpecSteppers SteppersFacts.
Import ListNotations.
Open Scope string_scope.
Open Scope nat_scope.
Open Scope list_scope.

Section Facts.
  Context {T : Type} {A : Arith T} {R : Registry}.

  (** ** Histories *)

  Lemma history_split : forall {S U} (call : S * U -> state T -> Z -> (S * U) * res (stepped T)) (prog : icaller U) dt s0 log s,
    history call prog dt s0 log s -> forall pre e post, log = pre ++ e :: post ->
    exists s1 u1 s2 u2 pdiag, history call prog dt s0 pre (s1, u1) /\
      prog u1 (e_st e) dt = (u2, Ok (e_tend e, pdiag)) /\
      call (s1, u1) (e_st e) dt = ((s2, u2), Ok (e_diag e, e_new e)).
  Proof.
    intros S U call prog dt s0 log s H. induction H as [|s0 log s u st u' tend pdiag s' diag new H IH Hp Hc]; intros pre e post E.
    - destruct pre; discriminate.
    - destruct post as [|p post] using rev_ind.
      + apply app_inj_tail in E as [-> <-]. do 5 eexists. cbn [e_st e_tend e_diag e_new]. eauto.
      + clear IHpost. rewrite app_comm_cons, app_assoc in E. apply app_inj_tail in E as [-> _]. eapply IH. reflexivity.
  Qed.

  Lemma history_prefix : forall {S U} (call : S * U -> state T -> Z -> (S * U) * res (stepped T)) (prog : icaller U) dt s0 pre post s,
    history call prog dt s0 (pre ++ post) s -> exists s1, history call prog dt s0 pre s1.
  Proof.
    intros S U call prog dt s0 pre [|e post] s H.
    - rewrite app_nil_r in H. eauto.
    - eapply history_split in H as (s1 & u1 & _ & _ & _ & H & _); eauto.
  Qed.

  (** ** Calls *)

  Lemma ensure_timestep_ok : forall o dt, ensure_timestep o dt = Ok tt <-> o = None \/ o = Some dt.
  Proof.
    intros [dt0|] dt; unfold ensure_timestep, raise_if.
    - destruct (Z.eqb dt0 dt) eqn:E; simpl; split; intros H; auto.
      + right. apply Z.eqb_eq in E. congruence.
      + discriminate.
      + destruct H as [H|H]; [discriminate|]. injection H as ->. rewrite Z.eqb_refl in E. discriminate.
    - split; auto.
  Qed.

  Lemma ensure_timestep_res : forall o dt, ensure_timestep o dt = Ok tt \/ ensure_timestep o dt = Err EValue.
  Proof. intros [dt0|] dt; simpl; auto. unfold raise_if. destruct (negb _); auto. Qed.

  Lemma ab_call_ok : forall {U} (prog : icaller U) a u (st : state T) dt a' u' diag new,
    ab_call prog (a, u) st dt = ((a', u'), Ok (diag, new)) ->
    exists tend0 tend new0, (ab_dt a = None \/ ab_dt a = Some dt) /\ prog u st dt = (u', Ok (tend0, diag)) /\
      convert_tendencies st tend0 = Ok tend /\
      perform_step (ab_order a) (ab_hist a ++ [tend]) st dt = Ok new0 /\ new = copy_untouched st new0 /\
      a' = mkab (ab_order a) (Some dt)
             (if Nat.eqb (length (ab_hist a ++ [tend])) (ab_order a) then tl (ab_hist a ++ [tend]) else ab_hist a ++ [tend]).
  Proof.
    intros U prog a u st dt a' u' diag new H. unfold ab_call in H.
    destruct (ensure_timestep (ab_dt a) dt) as [[]|e] eqn:Et; [|discriminate]. apply ensure_timestep_ok in Et.
    destruct (prog u st dt) as [u1 [[tend0 pd]|e]] eqn:Ep; cbn [bind fst snd] in H; [|discriminate].
    destruct (convert_tendencies st tend0) as [tend|e] eqn:Ec; cbn [bind] in H; [|discriminate].
    destruct (perform_step (ab_order a) (ab_hist a ++ [tend]) st dt) as [new0|e] eqn:Es; [|discriminate].
    injection H as <- <- <- <-. exists tend0, tend, new0. repeat (split; auto).
  Qed.

  Lemma finish_ok : forall cfg dt (st : state T) r diag new, finish_step cfg dt st r = Ok (diag, new) ->
    exists diag0 new0, r = Ok (diag0, new0) /\ new = copy_untouched st new0 /\
      (if ts_tid cfg then insert_differences cfg dt st new diag0 = Ok diag else diag = diag0).
  Proof.
    intros cfg dt st r diag new H. unfold finish_step in H. apply bind_ok in H as ([d0 n0] & Hr & H). cbn [fst snd] in H.
    apply bind_ok in H as (d1 & Hd & H). injection H as <- <-. exists d0, n0. split; auto. split; auto.
    destruct (ts_tid cfg); auto. congruence.
  Qed.

  Lemma adams_bashforth_ok : forall {U} cfg (prog : icaller U) a u (st : state T) dt s' diag new,
    adams_bashforth cfg prog (a, u) st dt = (s', Ok (diag, new)) ->
    exists diag0, ab_call prog (a, u) st dt = (s', Ok (diag0, new)) /\
      (if ts_tid cfg then insert_differences cfg dt st new diag0 = Ok diag else diag = diag0).
  Proof.
    intros U cfg prog a u st dt s' diag new H. unfold adams_bashforth in H.
    destruct (ab_call prog (a, u) st dt) as [[a1 u1] r] eqn:Ec. injection H as <- H.
    apply finish_ok in H as (d0 & n0 & -> & Hn & Hd). exists d0. split; auto.
    pose proof (ab_call_ok _ _ _ _ _ _ _ _ _ Ec) as (t0 & t & n1 & _ & _ & _ & _ & E & _).
    rewrite E, copy_untouched_idem in Hn. rewrite Hn, E. reflexivity.
  Qed.

  (** The history stored after a run: the converted tendencies of the last calls. *)
  Lemma ab_inv : forall {U} cfg (prog : icaller U) dt n u log a u', 1 <= n ->
    history (adams_bashforth cfg prog) prog dt (mkab n None [], u) log (a, u') ->
    ab_order a = n /\ ab_dt a = match log with [] => None | _ => Some dt end /\
    exists hs, Forall2 (fun e h => convert_tendencies (e_st e) (e_tend e) = Ok h) log hs /\
      rev (ab_hist a) = firstn (n - 1) (rev hs).
  Proof.
    intros U cfg prog dt n u log a u' Hn H. remember (mkab n None [], u) as s0 eqn:E0. remember (a, u') as s1 eqn:E1.
    revert a u' E1. induction H as [s|s0 log s u1 st u2 tend pdiag s' diag new H IH Hp Hc]; intros a u' E1; subst.
    - injection E1 as <- <-. cbn. split; auto. split; auto. exists []. split; auto. rewrite firstn_nil; auto.
    - injection E1 as <- <-. destruct (IH eq_refl _ _ eq_refl) as (I1 & I2 & hs & I3 & I4).
      apply adams_bashforth_ok in Hc as (d0 & Hc & _).
      apply ab_call_ok in Hc as (t0 & t & n1 & _ & Hp' & Ht & _ & _ & ->).
      rewrite Hp in Hp'. injection Hp' as <- _. cbn [ab_order ab_dt ab_hist]. split; auto.
      split. { destruct log; auto. }
      exists (hs ++ [t]). split. { apply Forall2_app; auto. }
      rewrite rev_app_distr. cbn [rev app]. rewrite I1.
      assert (Hl : length (ab_hist s) = Nat.min (n - 1) (length hs)).
      { rewrite <- (rev_length (ab_hist s)), I4, firstn_length, rev_length. lia. }
      destruct (Nat.eqb (length (ab_hist s ++ [t])) n) eqn:E.
      + apply Nat.eqb_eq in E. rewrite app_length in E. simpl in E.
        assert (Hr : rev (ab_hist s ++ [t]) = firstn n (t :: rev hs)).
        { rewrite rev_app_distr. cbn [rev app]. rewrite I4. destruct n; [lia|]. cbn [firstn]. f_equal. f_equal. lia. }
        destruct (ab_hist s ++ [t]) as [|h0 hl] eqn:Eh; [destruct (ab_hist s); discriminate|]. cbn [tl].
        cbn [rev] in Hr. apply (f_equal (firstn (n - 1))) in Hr. rewrite firstn_firstn in Hr.
        replace (Nat.min (n - 1) n) with (n - 1) in Hr by lia. rewrite <- Hr.
        assert (Hlen : length (rev hl) = n - 1).
        { rewrite rev_length. apply (f_equal (@length _)) in Eh. rewrite app_length in Eh. simpl in Eh. lia. }
        rewrite <- Hlen, firstn_app, Nat.sub_diag, firstn_all. cbn [firstn]. rewrite app_nil_r. auto.
      + apply Nat.eqb_neq in E. rewrite app_length in E. simpl in E. rewrite rev_app_distr. cbn [rev app]. rewrite I4.
        assert (length hs < n - 1) by lia. rewrite !firstn_all2; auto; simpl; rewrite ?rev_length; lia.
  Qed.

  (** ** The step *)

  Lemma oldest_of_rev : forall (hist : list (dict (da T))) ks, oldest_keys hist = Ok ks ->
    exists d l, hist = d :: l /\ ks = keys d.
  Proof. intros [|d l] ks H; [discriminate|]. injection H as <-. eauto. Qed.

  Lemma perform_step_ok : forall n hist (st : state T) dt new, length hist <= n -> perform_step n hist st dt = Ok new ->
    exists d l, hist = d :: l /\
      (forall X, In X (keys d) -> exists r, ab_one (length hist) (total_seconds dt) st hist X = Ok r /\ dget X new = Some (VDA r)) /\
      (forall X, ~ In X (keys d) -> dget X new = None).
  Proof.
    intros n hist st dt new Hl H. unfold perform_step in H. replace (Nat.min n (length hist)) with (length hist) in H by lia.
    destruct hist as [|d [|d1 [|d2 [|d3 [|d4 l]]]]]; cbn [length] in *; try discriminate.
    - cbn [rev app nth_error] in H. exists d, []. split; auto. apply for_keys_ok in H as (_ & H1 & H2). split; auto.
    - cbn [oldest_keys bind] in H. do 2 eexists. split; [reflexivity|]. apply for_keys_ok in H as (_ & H1 & H2). split; auto.
    - cbn [oldest_keys bind] in H. do 2 eexists. split; [reflexivity|]. apply for_keys_ok in H as (_ & H1 & H2). split; auto.
    - cbn [oldest_keys bind] in H. do 2 eexists. split; [reflexivity|]. apply for_keys_ok in H as (_ & H1 & H2). split; auto.
  Qed.

  (** What a successful call inside a run starts from. *)
  Lemma ab_entry : forall {U} cfg (prog : icaller U) dt n u log s, 1 <= n ->
    history (adams_bashforth cfg prog) prog dt (mkab n None [], u) log s ->
    forall pre e post, log = pre ++ e :: post ->
    exists hist new0 hs,
      Forall2 (fun e' h => convert_tendencies (e_st e') (e_tend e') = Ok h) (latest (Nat.min n (S (length pre))) pre e) hs /\
      rev hist = hs /\ length hist = Nat.min n (S (length pre)) /\
      perform_step n hist (e_st e) dt = Ok new0 /\ e_new e = copy_untouched (e_st e) new0.
  Proof.
    intros U cfg prog dt n u log s Hn H pre e post E.
    eapply history_split in H as (a & u1 & a2 & u2 & pd & H & Hp & Hc); eauto.
    apply ab_inv in H as (I1 & I2 & hs & I3 & I4); auto.
    apply adams_bashforth_ok in Hc as (d0 & Hc & _).
    apply ab_call_ok in Hc as (t0 & t & new0 & _ & Hp' & Ht & Hs & Hnew & _).
    rewrite Hp in Hp'. injection Hp' as <- _. rewrite I1 in Hs.
    pose proof (Forall2_len _ _ _ I3) as Hlen.
    assert (Hr : rev (ab_hist a ++ [t]) = firstn (Nat.min n (S (length pre))) (t :: rev hs)).
    { rewrite rev_app_distr. cbn [rev app]. rewrite I4. destruct n as [|n]; [lia|].
      replace (Nat.min (S n) (S (length pre))) with (S (Nat.min n (length pre))) by lia. cbn [firstn]. f_equal.
      replace (S n - 1) with n by lia. destruct (Nat.le_gt_cases n (length pre)).
      - replace (Nat.min n (length pre)) with n by lia. auto.
      - replace (Nat.min n (length pre)) with (length pre) by lia. rewrite !firstn_all2; auto; rewrite rev_length; lia. }
    exists (ab_hist a ++ [t]), new0, (rev (ab_hist a ++ [t])). split; [|split; [|split; [|split]]]; auto.
    - rewrite Hr. unfold latest.
      assert (G : Forall2 (fun e' h => convert_tendencies (e_st e') (e_tend e') = Ok h) (e :: rev pre) (t :: rev hs)).
      { constructor; auto. clear - I3. induction I3; cbn [rev]; auto. apply Forall2_app; auto. }
      clear - G. revert G. generalize (Nat.min n (S (length pre))) (e :: rev pre) (t :: rev hs).
      induction n0 as [|k IH]; intros l1 l2 G; cbn [firstn]; auto.
      inversion G; subst; auto.
    - rewrite <- (rev_length (ab_hist a ++ [t])), Hr, firstn_length. cbn [length]. rewrite rev_length. lia.
  Qed.

  (** The formula, for a quantity whose tendency was returned in all the calls used. *)
  Lemma ab_formula_lemma : forall {U} cfg (prog : icaller U) dt n u log s, 1 <= n ->
    history (adams_bashforth cfg prog) prog dt (mkab n None [], u) log s -> wf_log log ->
    forall pre e post, log = pre ++ e :: post ->
    forall X, (forall e', In e' (latest (Nat.min n (S (length pre))) pre e) -> In X (keys (e_tend e'))) ->
    exists x ts r, dget X (e_st e) = Some (VDA x) /\ dget X (e_new e) = Some (VDA r) /\
      tendencies_of (latest (Nat.min n (S (length pre))) pre e) X ts /\ extends x ts r /\
      forall c, in_grid r c -> in_grid x c /\ exists ys, rates_of (latest (Nat.min n (S (length pre))) pre e) X c ys /\
        da_at r c = ab_formula (total_seconds dt) (da_at x c) ys.
  Proof.
    intros U cfg prog dt n u log s Hn H Hw pre e post E X HX.
    destruct (ab_entry cfg prog dt n u log s Hn H pre e post E) as (hist & new0 & hs & F & Hrev & Hlen & Hs & Hnew).
    set (k := Nat.min n (S (length pre))) in *. set (es := latest k pre e) in *.
    assert (Hin : forall e', In e' es -> In e' log).
    { intros e' He. unfold es, latest in He. assert (He2 : In e' (e :: rev pre)).
      { rewrite <- (firstn_skipn k). apply in_or_app; auto. }
      subst log. apply in_or_app. destruct He2 as [->|He2]; [right; left; auto|left; apply in_rev; auto]. }
    assert (Fg : forall e' h, In (e', h) (combine es hs) -> convert_tendencies (e_st e') (e_tend e') = Ok h).
    { clear - F. induction F; simpl; intros e' h []; auto. congruence. }
    apply perform_step_ok in Hs as (d & l & Eh & Hk & _); [|lia].
    assert (Hd : In X (keys d)).
    { assert (In d hs). { rewrite <- Hrev, <- in_rev, Eh. left; auto. }
      clear - F H0 HX. induction F; simpl in *; [contradiction|]. destruct H0 as [->|H0]; [|apply IHF; auto].
      apply convert_ok in H as (-> & _). auto. }
    destruct (Hk X Hd) as (r & Hr & Hg). rewrite Hlen in Hr.
    assert (Hce : forall d0, In d0 hist -> exists e', In e' es /\ convert_tendencies (e_st e') (e_tend e') = Ok d0).
    { intros d0 Hd0. assert (In d0 hs) by (rewrite <- Hrev, <- in_rev; auto).
      clear - F H0. induction F; simpl in *; [contradiction|]. destruct H0 as [->|H0]; eauto.
      destruct IHF as (e' & ? & ?); eauto. }
    apply ab_one_ok in Hr as (x & ts' & Hx & (Fp & Lp) & Hext & Hv).
    2: { intros x Hx. assert (In e log) by (subst log; apply in_or_app; right; left; auto). destruct (Hw e H0) as [[_ Hps] _]. eauto. }
    2: { intros d0 t Hd0 Hgt. destruct (Hce d0 Hd0) as (e' & He' & Hc). apply convert_ok in Hc as (_ & Hc). specialize (Hc X).
         destruct (dget X (e_tend e')) as [t0|] eqn:Et; [|congruence]. destruct Hc as (t' & Hc & Hc').
         rewrite Hgt in Hc'. injection Hc' as <-. apply conv_spec in Hc as (? & _); auto.
         eapply (proj2 (Hw e' (Hin _ He'))); eauto. }
    replace (firstn k (rev hist)) with hs in Fp by (rewrite Hrev, firstn_all2; auto; rewrite <- Hrev, rev_length; lia).
    (* raw tendencies behind the converted ones *)
    assert (Hts : exists ts, tendencies_of es X ts /\ Forall2 (fun t t' => forall d0, dim_len t' d0 = dim_len t d0) ts ts' /\
      forall c, Forall (fun t => in_grid t c) ts' -> rates_of es X c (map (fun t => da_at t c) ts')).
    { assert (Hwe : forall e', In e' es -> proper (e_tend e')) by (intros e' He'; apply Hw; auto).
      clear - F Fp Hwe. revert ts' Fp. induction F as [|e' h es hs Hc F IH]; intros ts' Fp.
      - inversion Fp; subst. exists []. split; [constructor|]. split; [constructor|]. intros; constructor.
      - inversion Fp as [|? t' ? ts1 Hg Fp1]; subst. destruct (IH (fun e1 H1 => Hwe e1 (or_intror H1)) _ Fp1) as (ts & I1 & I2 & I3).
        apply convert_ok in Hc as (_ & Hc). specialize (Hc X). destruct (dget X (e_tend e')) as [t0|] eqn:Et; [|congruence].
        destruct Hc as (t1 & Hc & Hc'). rewrite Hg in Hc'. injection Hc' as <-.
        apply conv_spec in Hc as (W & D & L & V); [|eapply (Hwe e'); [left; auto|eauto]].
        exists (t0 :: ts). split; [constructor; auto|]. split; [constructor; auto|].
        intros c Hc. inversion Hc; subst. cbn [map]. constructor; [|apply I3; auto].
        assert (in_grid t0 c) by (intros d0 m Hd0; rewrite <- L in Hd0; auto). exists t0. auto. }
    destruct Hts as (ts & Ht1 & Ht2 & Ht3). exists x, ts, r. split; auto.
    split. { rewrite Hnew, copy_untouched_get, Hg. auto. }
    split; auto. split.
    - destruct Hext as (X1 & X2 & X3 & X4). split; auto. split; auto. split; auto.
      intros d0. rewrite X4. cbn [first_len]. destruct (dim_len x d0); auto.
      clear - Ht2. induction Ht2; cbn [first_len]; auto. rewrite H. destruct (dim_len x d0); auto.
    - intros c Hc. destruct (Hv c Hc) as (V1 & V2 & V3). split; auto. eexists. split; [apply Ht3; auto|auto].
  Qed.

  (** A quantity without tendency in the oldest call used is carried over. *)
  Lemma ab_untouched : forall {U} cfg (prog : icaller U) dt n u log s, 1 <= n ->
    history (adams_bashforth cfg prog) prog dt (mkab n None [], u) log s ->
    forall pre e post, log = pre ++ e :: post ->
    forall X, (forall e', In e' (latest (Nat.min n (S (length pre))) pre e) -> ~ In X (keys (e_tend e'))) ->
    dget X (e_new e) = dget X (e_st e).
  Proof.
    intros U cfg prog dt n u log s Hn H pre e post E X HX.
    destruct (ab_entry cfg prog dt n u log s Hn H pre e post E) as (hist & new0 & hs & F & Hrev & Hlen & Hs & Hnew).
    apply perform_step_ok in Hs as (d & l & Eh & _ & Hk); [|lia].
    assert (Hd : ~ In X (keys d)).
    { assert (In d hs). { rewrite <- Hrev, <- in_rev, Eh. left; auto. }
      clear - F H0 HX. induction F; simpl in *; [contradiction|]. destruct H0 as [->|H0]; [|apply IHF; auto].
      apply convert_ok in H as (-> & _). auto. }
    rewrite Hnew, copy_untouched_get, (Hk X Hd). auto.
  Qed.

  (** ** Success *)

  Lemma perform_step_succeeds : forall n hist (st : state T) dt d l, 1 <= n <= 4 -> length hist <= n -> hist = d :: l ->
    (forall X, In X (keys d) -> exists r, ab_one (length hist) (total_seconds dt) st hist X = Ok r) ->
    exists new, perform_step n hist st dt = Ok new.
  Proof.
    intros n hist st dt d l Hn Hl -> H. unfold perform_step. replace (Nat.min n (length (d :: l))) with (length (d :: l)) by lia.
    destruct l as [|d1 [|d2 [|d3 [|d4 l]]]]; cbn [length] in *; try lia; cbn [rev app nth_error oldest_keys bind];
      apply for_keys_succeeds; auto.
  Qed.

  Lemma ab_returns : forall {U} cfg (prog : icaller U) dt n u log a u1, 1 <= n <= 4 -> ts_tid cfg = false ->
    history (adams_bashforth cfg prog) prog dt (mkab n None [], u) log (a, u1) -> wf_log log ->
    forall st u2 tend pdiag, proper_state st -> proper tend -> prog u1 st dt = (u2, Ok (tend, pdiag)) ->
    can_step st tend (map e_tend (firstn (n - 1) (rev log))) ->
    exists a' new, adams_bashforth cfg prog (a, u1) st dt = ((a', u2), Ok (pdiag, new)).
  Proof.
    intros U cfg prog dt n u log a u1 Hn Htid H Hw st u2 tend pdiag Ws Wt Hp (Hr & Hk).
    apply ab_inv in H as (I1 & I2 & hs & I3 & I4); [|lia].
    pose proof (Forall2_len _ _ _ I3) as Hlen.
    destruct (convert_succeeds st tend Hr) as (h & Hh).
    set (hist := ab_hist a ++ [h]).
    assert (Hrev : rev hist = h :: firstn (n - 1) (rev hs)). { unfold hist. rewrite rev_app_distr. cbn [rev app]. congruence. }
    assert (Hl : length hist <= n). { rewrite <- (rev_length hist), Hrev. cbn [length]. rewrite firstn_length. lia. }
    (* entries behind the stored tendencies *)
    assert (F : Forall2 (fun d h => exists st0, proper d /\ convert_tendencies st0 d = Ok h)
                  (tend :: map e_tend (firstn (n - 1) (rev log))) (rev hist)).
    { rewrite Hrev. constructor; [eauto|]. assert (F0 : Forall2 (fun e h => proper (e_tend e) /\ convert_tendencies (e_st e) (e_tend e) = Ok h) (rev log) (rev hs)).
      { assert (G : Forall2 (fun e h => proper (e_tend e) /\ convert_tendencies (e_st e) (e_tend e) = Ok h) log hs).
        { clear - I3 Hw. induction I3; constructor; auto. { split; auto. apply Hw; left; auto. } apply IHI3. intros e He; apply Hw; right; auto. }
        clear - G. induction G; cbn [rev]; auto. apply Forall2_app; auto. }
      clear - F0. revert F0. generalize (n - 1) (rev log) (rev hs). induction n0 as [|k IH]; intros l1 l2 G; cbn [firstn map]; auto.
      inversion G as [|e h l1' l2' [P C] G']; subst; cbn [map]; auto. constructor; eauto. }
    assert (Hold : exists d l, hist = d :: l /\ keys d = keys (last (map e_tend (firstn (n - 1) (rev log))) tend)).
    { destruct hist as [|d l]; [symmetry in Hrev; apply app_eq_nil in Hrev || discriminate|].
      exists d, l. split; auto. clear - F. cbn [rev] in F. revert F. generalize (map e_tend (firstn (n - 1) (rev log))) as olds. intros olds.
      revert tend. generalize (rev l) as rl. clear. intros rl tend F.
      apply Forall2_app_inv_r in F as (l1 & l2 & F1 & F2 & E). inversion F2 as [|d0 ? ? ? (st0 & P & C) F3]; subst. inversion F3; subst.
      apply convert_ok in C as (-> & _). destruct olds as [|o olds].
      - destruct l1 as [|? [|? ?]]; try discriminate. injection E as <-. auto.
      - destruct l1 as [|t l1]; [discriminate|]. injection E as <- E. rewrite E. rewrite last_last. auto. }
    destruct Hold as (d & l & Eh & Hkd).
    destruct (perform_step_succeeds n hist st dt d l Hn Hl Eh) as (new & Hnew).
    { intros X HX. rewrite Hkd in HX. destruct (Hk X HX) as (x & ts & Hx & Ft & Hm).
      assert (G : exists ts', Forall2 (fun d t => dget X d = Some t) (rev hist) ts' /\ Forall wf_da ts' /\
                    Forall2 (fun t t' => forall d0, dim_len t' d0 = dim_len t d0) ts ts').
      { clear - F Ft. revert ts Ft. induction F as [|d1 h1 ds hs1 (st0 & P & C) F IH]; intros ts Ft; inversion Ft as [|? t ? ts1 Hg Ft1]; subst.
        - exists []. repeat split; constructor.
        - destruct (IH _ Ft1) as (ts' & J1 & J2 & J3). apply convert_ok in C as (_ & C). specialize (C X). rewrite Hg in C.
          destruct C as (t' & C & Hg'). apply conv_spec in C as (W & _ & L & _); [|eapply P; eauto].
          exists (t' :: ts'). repeat split; constructor; auto. }
      destruct G as (ts' & G1 & G2 & G3).
      assert (Hlt : length ts' = length hist) by (rewrite <- (rev_length hist); symmetry; apply (Forall2_len _ _ _ G1)).
      apply ab_one_succeeds with (x := x) (ts := ts'); auto.
      - rewrite Eh in *. cbn [length] in *. lia.
      - destruct Ws as [_ Ws]. eauto.
      - split; auto. rewrite <- (rev_length hist), firstn_all. auto.
      - assert (Hc : forall t', In t' (x :: ts') -> exists t, In t (x :: ts) /\ forall d0, dim_len t' d0 = dim_len t d0).
        { intros t' [<-|Ht']. { exists x. split; [left; auto|auto]. }
          clear - G3 Ht'. induction G3; simpl in *; [contradiction|]. destruct Ht' as [->|Ht']; eauto.
          destruct IHG3 as (t & [Ht|Ht] & Hd); eauto. }
        intros a1 b1 Ha Hb d0 n1 m1 En Em. apply Hc in Ha as (a0 & Ha & La). apply Hc in Hb as (b0 & Hb & Lb).
        rewrite La in En. rewrite Lb in Em. eapply (Hm a0 b0); eauto. }
    unfold adams_bashforth, ab_call. assert (Ht : ensure_timestep (ab_dt a) dt = Ok tt).
    { apply ensure_timestep_ok. rewrite I2. destruct log; auto. }
    rewrite Ht, Hp. cbn [bind fst snd]. rewrite Hh. cbn [bind]. rewrite I1. fold hist. rewrite Hnew.
    unfold finish_step. cbn [bind fst snd]. rewrite Htid. cbn [bind]. eauto.
  Qed.
End Facts.
