(** Runs of the main loop with a Leapfrog object (C80). *)
From Coq Require Import String List Bool Arith ZArith QArith Lia.
From Verif Require Import Prelude PreludeFacts ArithM NdArray Units DataArrayM GetNp SpecDa Components Composite SpecComposite Steppers SpecSteppers
  SteppersFacts RKFacts LeapFacts Basic MainLoop SpecMainLoop MainLoopFacts MainLoopMain LeapLoop SpecLeapLoop.
Import ListNotations.
Open Scope string_scope.
Open Scope nat_scope.
Open Scope list_scope.

Section Main.
  Context {T : Type} {A : Arith T} {R : Registry} {U V : Type}.

  (** ** One call *)

  Lemma leap_loop_time : forall sec nu alpha (old : state T) tend ks st new st' r t, leap_loop sec nu alpha old tend ks st new = (st', r) ->
    has_time t st -> has_time t st'.
  Proof.
    intros sec nu alpha old tend ks. induction ks as [|k ks IH]; intros st new st' r t H Ht; cbn [leap_loop] in H; [injection H as <- _; auto|].
    destruct (leap_one sec nu old st tend k) as [[n w]|e]; cbn [bind fst snd] in H; [|injection H as <- _; auto].
    destruct (state_da k st) as [x|e] eqn:Ex; cbn [bind] in H; [|injection H as <- _; auto].
    destruct (da_iadd x (da_lscale alpha w)) as [x'|e]; cbn [bind] in H; [|injection H as <- _; auto].
    assert (Hne : "time" <> k). { intros <-. unfold state_da, dgetE in Ex. unfold has_time in Ht. rewrite Ht in Ex. discriminate Ex. }
    assert (Ht1 : has_time t (dset k (VDA x') st)) by (unfold has_time; rewrite dget_dset_neq; auto).
    destruct (if aeqb alpha (aofQ (1 # 1)) then Ok n else da_iadd n (da_lscale (asub alpha (aofQ (1 # 1))) w)); [eapply IH; eauto|injection H as <- _; auto].
  Qed.

  Lemma leapfrog_time : forall cfg (prog : icaller U) s (st : state T) dt s' st' r t, leapfrog cfg prog s st dt = (s', st', r) -> has_time t st -> has_time t st'.
  Proof.
    intros cfg prog [l u] st dt s' st' r t H Ht. unfold leapfrog, leap_call in H.
    destruct (ensure_timestep _ _); [|injection H as _ <- _; auto]. destruct (prog u st dt) as [u1 rp].
    destruct (let* td := rp in _) as [[tend diag]|e]; [|injection H as _ <- _; auto].
    destruct (lf_old l) as [old|]; [|destruct (step_forward_euler st tend dt); injection H as _ <- _; auto].
    destruct (leap_loop _ _ _ _ _ _ _ _) as [st1 rn] eqn:E. apply leap_loop_time with (t := t) in E; auto.
    destruct rn; injection H as _ <- _; auto.
  Qed.

  (** The tendencies behind a successful call. *)
  Lemma leapfrog_called : forall cfg (prog : icaller U) l u (st : state T) dt l' u' st' d new, leapfrog cfg prog (l, u) st dt = ((l', u'), st', Ok (d, new)) ->
    exists tend pd, prog u st dt = (u', Ok (tend, pd)).
  Proof.
    intros cfg prog l u st dt l' u' st' d new H. apply leapfrog_ok in H as (d0 & H & _). apply leap_call_ok in H as (t0 & t & n0 & _ & H & _). eauto.
  Qed.

  (** ** The passes of the loop *)

  Lemma passes_nil : forall (qs : list (process (T:=T) V)) dt st r, (forall s', r = Some (Ok s') -> s' = st) -> passes qs dt st [] [] r.
  Proof. intros qs dt st r H. repeat split; auto; intros; try (destruct k; discriminate); discriminate. Qed.

  Lemma passes_one : forall (qs : list (process (T:=T) V)) dt (e : lentry T) ds next w r, in_turn dt qs (l_new e) ds next -> r = Some (Err w) ->
    passes qs dt (l_st e) [e] [update_all (l_diag e :: ds) (l_after e)] r.
  Proof.
    intros qs dt e ds next w r Ht ->. split; auto. split; [intros e' E; injection E as <-; auto|]. split; [|discriminate].
    intros [|k] e' S He HS; [|destruct k; discriminate He]. injection He as <-. injection HS as <-. exists ds, next. split; auto. split; [apply (completed_update (_ :: ds))|].
    intros s' [(e' & E & _)|(_ & E)]; discriminate E.
  Qed.

  Lemma main_leap_passes : forall n cfg (prog : icaller U) (qs : list (process (T:=T) V)) store stop dt s v (st : state T) s' v' log r s0 pre,
    lhistory cfg prog dt s0 pre s -> leap_main_loop n cfg prog qs store stop dt s v st = ((s', v', log), r) ->
    exists es s1, lhistory cfg prog dt s0 (pre ++ es) s1 /\ passes qs dt st es log r /\ ((r = None \/ exists fin, r = Some (Ok fin)) -> s' = s1).
  Proof.
    induction n as [|n IH]; intros cfg prog qs store stop dt s v st s' v' log r s0 pre Hh H; cbn [leap_main_loop] in H.
    { injection H as <- _ <- <-. exists [], s. rewrite app_nil_r. split; auto. split; auto. apply passes_nil. discriminate. }
    destruct (state_time st) as [t|e]; [|injection H as <- _ <- <-; exists [], s; rewrite app_nil_r; split; auto; split; [apply passes_nil; discriminate|intros [K|(? & K)]; discriminate K]].
    destruct (t <? stop)%Z; [|injection H as <- _ <- <-; exists [], s; rewrite app_nil_r; split; auto; split; auto; apply passes_nil; congruence].
    destruct (leapfrog cfg prog s st dt) as [[s1 st'] [[d new]|e]] eqn:El;
      [|injection H as <- _ <- <-; exists [], s; rewrite app_nil_r; split; auto; split; [apply passes_nil; discriminate|intros [K|(? & K)]; discriminate K]].
    destruct s as [l u]. destruct s1 as [l1 u1]. destruct (leapfrog_called _ _ _ _ _ _ _ _ _ _ _ El) as (tend & pd & Hp).
    destruct (run_processes qs v new dt) as [v1 [[ds next]|e]] eqn:Er.
    2:{ injection H as <- _ <- <-. exists [], (l, u). rewrite app_nil_r. split; auto. split; [apply passes_nil; discriminate|intros [K|(? & K)]; discriminate K]. }
    apply run_in_turn in Er. set (e := mklentry st tend st' d new). change (in_turn dt qs (l_new e) ds next) in Er.
    assert (Hh1 : lhistory cfg prog dt s0 (pre ++ [e]) (l1, u1)) by (eapply lhistory_snoc; eauto).
    change (update_all (d :: ds) st') with (update_all (l_diag e :: ds) (l_after e)) in H. set (S1 := update_all (l_diag e :: ds) (l_after e)) in *.
    destruct (store v1 S1) as [v2 [x|w]].
    2:{ injection H as <- _ <- <-. exists [e], (l1, u1). split; auto. split; [eapply passes_one; eauto|intros [K|(? & K)]; discriminate K]. }
    destruct (state_time S1) as [t1|w] eqn:Et.
    2:{ injection H as <- _ <- <-. exists [e], (l1, u1). split; auto. split; [eapply passes_one; eauto|intros [K|(? & K)]; discriminate K]. }
    destruct (leap_main_loop n cfg prog qs store stop dt (l1, u1) v2 (dset "time" (VTime (t1 + dt)) next)) as [[[s3 v3] log'] r'] eqn:Em.
    injection H as <- _ <- <-. destruct (IH _ _ _ _ _ _ _ _ _ _ _ _ _ _ _ Hh1 Em) as (es & s4 & Hh2 & (Hl & H0 & Hk & He) & Hs).
    exists (e :: es), s4. rewrite <- app_assoc in Hh2. split; auto. split; auto. split; [cbn [length]; congruence|].
    split; [intros e' E; injection E as <-; auto|]. split; [|discriminate].
    intros [|k] e' S Hn HS.
    - injection Hn as <-. injection HS as <-. exists ds, next. split; auto. split; [apply (completed_update (_ :: ds))|].
      intros q Hq. assert (q = dset "time" (VTime (t1 + dt)) next) as ->.
      { destruct Hq as [(e' & E & ->)|[E1 E2]]; [apply H0; auto|]. apply He; auto. destruct log'; [auto|discriminate E1]. }
      exists t1. split; [apply state_time_iff; auto|]. reflexivity.
    - destruct (Hk k e' S Hn HS) as (ds' & next' & Ht & Hcc & Hq). exists ds', next'. split; [auto|]. split; [auto|].
      intros q Hq'. apply Hq. destruct Hq' as [E|[E1 E2]]; [left; auto|right; split; auto].
  Qed.

  (** ** Proper states *)

  Lemma leap_new_proper : forall cfg (prog : icaller U) dt nu alpha u log e s, lhistory cfg prog dt (new_leap nu alpha, u) (log ++ [e]) s -> wf_llog (log ++ [e]) ->
    proper_state (l_new e).
  Proof.
    intros cfg prog dt nu alpha u log e s H Hw. pose proof (leap_formula_lemma cfg prog dt nu alpha u _ _ H Hw) as (F1 & F2).
    assert (Hwe : proper_state (l_st e) /\ proper (l_tend e)) by (apply Hw, in_or_app; right; left; auto). destruct Hwe as ((Ns & Ws) & Nt & Wt).
    assert (Hnd : NoDup (keys (l_new e))).
    { destruct (lhistory_split _ _ _ _ _ _ H log e []) as (l1 & u1 & l2 & u2 & pd & Hh & Hp & Hc); auto.
      apply leapfrog_ok in Hc as (d0 & Hc & _). apply leap_call_ok in Hc as (t0 & t & n0 & _ & Hp' & Hcv & Hl & Hn & _). rewrite Hn.
      rewrite Hp in Hp'. injection Hp' as <- _. pose proof (convert_ok _ _ _ Hcv) as (Hk & _).
      destruct (lf_old l1) as [old|].
      - apply NoDup_copy_untouched. eapply leap_loop_ok; [|exact Hl|constructor]. rewrite Hk. auto.
      - injection Hl as E Hl. rewrite <- E. eapply euler_ok; eauto. split; auto. split; auto. }
    split; auto. intros X a Ha. destruct (dget X (l_tend e)) as [t|] eqn:Et.
    - destruct log as [|p log _] using rev_ind.
      + destruct (F1 e [] eq_refl) as (_ & _ & K). destruct (K X t Et) as (x & r & _ & Hr & (Wr & _) & _). congruence.
      + specialize (F2 log p e []). rewrite <- app_assoc in F2. destruct (F2 eq_refl) as (_ & _ & K).
        destruct (K X t Et) as (o & x & x' & n & _ & _ & _ & Hn & _ & (Wn & _) & _). congruence.
    - apply dget_none in Et. assert (E : dget X (l_new e) = dget X (l_st e)).
      { destruct log as [|p log _] using rev_ind; [apply (F1 e [] eq_refl); auto|]. specialize (F2 log p e []). rewrite <- app_assoc in F2. apply (F2 eq_refl); auto. }
      rewrite E in Ha. eauto.
  Qed.

  Lemma in_turn_preserves : forall dt (qs : list (process (T:=T) V)) P s ds next, in_turn dt qs s ds next -> Forall (preserves dt P) qs -> P s -> P next.
  Proof.
    intros dt qs P s ds next H. induction H as [|p ps s w w' d s1 ds next Hp H IH]; intros F Hs; auto.
    inversion F; subst. apply IH; auto. eapply H2; eauto.
  Qed.
  (** ** Runs *)

  Lemma leap_run_proper : forall cfg (prog : icaller U) (qs : list (process (T:=T) V)) dt nu alpha u st es log r s,
    lhistory cfg prog dt (new_leap nu alpha, u) es s -> passes qs dt st es log r ->
    proper_state st -> proper_components prog -> Forall (preserves dt proper_state) qs -> wf_llog es.
  Proof.
    intros cfg prog qs dt nu alpha u st es log r s H (Hl & H0 & Hk & _) Hst Hc Hq.
    assert (G : forall m, m <= length es -> wf_llog (firstn m es)).
    { induction m as [|m IH]; intros Hm; [intros e []|].
      assert (Hnth : exists e, nth_error es m = Some e). { destruct (nth_error es m) eqn:E; [eauto|]. apply nth_error_None in E. lia. }
      destruct Hnth as (e & He). destruct (nth_error_split _ _ He) as (p1 & p2 & E & Hlen).
      assert (E1 : firstn (Datatypes.S m) es = p1 ++ [e]).
      { rewrite E, <- Hlen. replace (Datatypes.S (length p1)) with (length p1 + 1) by lia. rewrite firstn_app_2. reflexivity. }
      assert (E2 : firstn m es = p1). { rewrite E, <- Hlen. replace (length p1) with (length p1 + 0) by lia. rewrite firstn_app_2. cbn [firstn]. apply app_nil_r. }
      specialize (IH ltac:(lia)). rewrite E2 in IH. rewrite E1. intros e' He'. apply in_app_or in He' as [He'|[<-|[]]]; auto.
      destruct (lhistory_split _ _ _ _ _ _ H p1 e p2 E) as (l1 & u1 & l2 & u2 & pd & Hh & Hp & _). split; [|eapply Hc; eauto].
      destruct m as [|m]; [rewrite (H0 e He); auto|].
      destruct p1 as [|p p1 _] using rev_ind; [cbn [length] in Hlen; lia|]. rewrite app_length in Hlen. cbn [length] in Hlen.
      assert (Hp1 : nth_error es m = Some p). { rewrite E, <- app_assoc. rewrite nth_error_app2 by lia. replace (m - length p1) with 0 by lia. reflexivity. }
      assert (HS : exists S, nth_error log m = Some S). { destruct (nth_error log m) eqn:K; [eauto|]. apply nth_error_None in K. lia. }
      destruct HS as (S & HS). destruct (Hk m p S Hp1 HS) as (ds & next & Ht & _ & Hn). destruct (Hn (l_st e)) as (t & _ & ->); [left; eauto|].
      pose proof (leap_new_proper _ _ _ _ _ _ _ _ _ Hh IH) as Hnew. destruct (in_turn_preserves _ _ _ _ _ _ Ht Hq Hnew) as (N & W).
      split; [apply NoDup_dset; auto|]. intros X a Ha. destruct (String.eqb_spec X "time") as [->|Hne]; [rewrite dget_dset_eq in Ha; discriminate Ha|].
      rewrite dget_dset_neq in Ha by auto. eauto. }
    specialize (G (length es) (le_n _)). rewrite firstn_all in G. exact G.
  Qed.

  (** The run as a whole. *)
  Theorem main_leap_run : forall n cfg (prog : icaller U) (qs : list (process (T:=T) V)) store stop dt nu alpha u v st s' v' log r,
    proper_state st -> proper_components prog -> Forall (preserves dt proper_state) qs ->
    leap_main_loop n cfg prog qs store stop dt (new_leap nu alpha, u) v st = ((s', v', log), r) ->
    exists es, passes qs dt st es log r /\
      (forall e post, es = e :: post -> l_after e = l_st e /\ euler_step dt (l_st e) (l_tend e) (l_new e)) /\
      (forall pre p e post, es = pre ++ p :: e :: post -> leap_step dt nu alpha (l_after p) (l_st e) (l_tend e) (l_after e) (l_new e)) /\
      (forall e, In e es -> exists u1 u2 pd, prog u1 (l_st e) dt = (u2, Ok (l_tend e, pd))).
  Proof.
    intros n cfg prog qs store stop dt nu alpha u v st s' v' log r Hst Hc Hq H.
    destruct (main_leap_passes _ _ _ _ _ _ _ _ _ _ _ _ _ _ _ [] (lhistory_nil _ _ _ _) H) as (es & s1 & Hh & Hp & _). cbn [app] in Hh.
    exists es. split; auto. pose proof (leap_run_proper _ _ _ _ _ _ _ _ _ _ _ _ Hh Hp Hst Hc Hq) as Hw.
    destruct (leap_formula_lemma cfg prog dt nu alpha u _ _ Hh Hw) as (F1 & F2). split; auto. split; auto.
    intros e He. apply in_split in He as (p1 & p2 & E). destruct (lhistory_split _ _ _ _ _ _ Hh p1 e p2 E) as (l1 & u1 & l2 & u2 & pd & _ & K & _). eauto.
  Qed.

  Lemma leap_leaves : forall cfg (prog : icaller U) dt, (forall u st u' t d, prog u st dt = (u', Ok (t, d)) -> ~ In "time" (keys d)) ->
    forall s (st : state T) s' st' d new, leapfrog cfg prog s st dt = (s', st', Ok (d, new)) -> ~ In "time" (keys d).
  Proof.
    intros cfg prog dt Hp [l u] st s' st' d new H. unfold leapfrog in H.
    destruct (leap_call prog (l, u) st dt) as [[[l1 u1] st1] r] eqn:Ec. injection H as _ _ H. apply (finish_leaves_time _ _ _ _ _ _ H).
    intros d0 n0 ->. apply leap_call_ok in Ec as (t0 & t & n1 & _ & K & _). eauto.
  Qed.

  (** The clock. *)
  Theorem main_leap_clock : forall n cfg (prog : icaller U) (qs : list (process (T:=T) V)) store stop dt s v st s' v' log r t0,
    has_time t0 st -> (forall u st u' t d, prog u st dt = (u', Ok (t, d)) -> ~ In "time" (keys d)) -> Forall leaves_time qs ->
    leap_main_loop n cfg prog qs store stop dt s v st = ((s', v', log), r) ->
    (forall k S, nth_error log k = Some S -> has_time (t0 + Z.of_nat k * dt) S /\ (t0 + Z.of_nat k * dt < stop)%Z) /\
    (forall fin, r = Some (Ok fin) -> has_time (t0 + Z.of_nat (length log) * dt) fin /\ (stop <= t0 + Z.of_nat (length log) * dt)%Z) /\
    (r = None -> length log = n).
  Proof.
    induction n as [|n IH]; intros cfg prog qs store stop dt s v st s' v' log r t0 Ht Hl Hq H; cbn [leap_main_loop] in H.
    { injection H as _ _ <- <-. repeat split; intros; try discriminate; destruct k; discriminate. }
    rewrite (proj2 (state_time_iff st t0) Ht) in H. destruct (t0 <? stop)%Z eqn:E.
    2:{ injection H as _ _ <- <-. apply Z.ltb_ge in E. split; [intros [|k] S HS; discriminate|]. split; [|discriminate].
        intros fin HF. injection HF as <-. cbn [length]. replace (t0 + Z.of_nat 0 * dt)%Z with t0 by lia. auto. }
    apply Z.ltb_lt in E.
    destruct (leapfrog cfg prog s st dt) as [[s1 st'] [[d new]|e]] eqn:El; [|injection H as _ _ <- <-; split; [intros [|k] S HS; discriminate|split; discriminate]].
    destruct (run_processes qs v new dt) as [v1 [[ds next]|e]] eqn:Er; [|injection H as _ _ <- <-; split; [intros [|k] S HS; discriminate|split; discriminate]].
    apply run_in_turn in Er. destruct (completed_update (d :: ds) st') as [_ [Hc _]]. set (S1 := update_all (d :: ds) st') in *.
    assert (H1 : has_time t0 S1).
    { unfold has_time. rewrite Hc; [eapply leapfrog_time; eauto|]. intros d' [<-|Hd']; [eapply leap_leaves; eauto|]. eapply (in_turn_no_time _ _ _ _ _ Er Hq); auto. }
    assert (H0 : has_time (t0 + Z.of_nat 0 * dt) S1 /\ (t0 + Z.of_nat 0 * dt < stop)%Z).
    { replace (t0 + Z.of_nat 0 * dt)%Z with t0 by lia. auto. }
    destruct (store v1 S1) as [v2 [x|e]].
    2:{ injection H as _ _ <- <-. split; [|split; discriminate]. intros [|k] S HS; [|destruct k; discriminate]. injection HS as <-. auto. }
    rewrite (proj2 (state_time_iff _ _) H1) in H.
    destruct (leap_main_loop n cfg prog qs store stop dt s1 v2 (dset "time" (VTime (t0 + dt)) next)) as [[[s3 v3] log'] r'] eqn:Em.
    injection H as _ _ <- <-. eapply (IH _ _ _ _ _ _ _ _ _ _ _ _ _ (t0 + dt)%Z) in Em as (K1 & K2 & K3); auto; [|unfold has_time; apply dget_dset_eq].
    split; [|split].
    - intros [|k] S HS; [injection HS as <-; auto|]. apply K1 in HS.
      replace (t0 + Z.of_nat (Datatypes.S k) * dt)%Z with (t0 + dt + Z.of_nat k * dt)%Z by lia. auto.
    - intros fin HF. apply K2 in HF. cbn [length].
      replace (t0 + Z.of_nat (Datatypes.S (length log')) * dt)%Z with (t0 + dt + Z.of_nat (length log') * dt)%Z by lia. auto.
    - intros HN. cbn [length]. f_equal. auto.
  Qed.

  (** Termination, as [main_terminates]. *)
  Theorem main_leap_terminates : forall n cfg (prog : icaller U) (qs : list (process (T:=T) V)) store stop dt s v st t0,
    has_time t0 st -> (forall u st u' t d, prog u st dt = (u', Ok (t, d)) -> ~ In "time" (keys d)) -> Forall leaves_time qs ->
    (stop <= t0 + Z.of_nat n * dt)%Z -> snd (leap_main_loop (Datatypes.S n) cfg prog qs store stop dt s v st) <> None.
  Proof.
    intros n cfg prog qs store stop dt s v st t0 Ht Hl Hq Hs K.
    destruct (leap_main_loop (Datatypes.S n) cfg prog qs store stop dt s v st) as [[[s' v'] log] r] eqn:E. cbn [snd] in K. subst r.
    destruct (main_leap_clock _ _ _ _ _ _ _ _ _ _ _ _ _ _ _ Ht Hl Hq E) as (K1 & _ & K3). specialize (K3 eq_refl).
    destruct (nth_error log n) as [S1|] eqn:En; [apply K1 in En; lia|]. apply nth_error_None in En. lia.
  Qed.

  (** A run continued with the same objects is one run. *)
  Theorem main_leap_two_runs : forall cfg (prog : icaller U) (qs : list (process (T:=T) V)) store stop stop1 dt m n s v st s1 v1 log1 st1, (stop1 <= stop)%Z ->
    leap_main_loop n cfg prog qs store stop1 dt s v st = ((s1, v1, log1), Some (Ok st1)) ->
    forall s2 v2 log2 r, leap_main_loop m cfg prog qs store stop dt s1 v1 st1 = ((s2, v2, log2), r) ->
    leap_main_loop (length log1 + m) cfg prog qs store stop dt s v st = ((s2, v2, log1 ++ log2), r).
  Proof.
    intros cfg prog qs store stop stop1 dt m n. induction n as [|n IH]; intros s v st s1 v1 log1 st1 Hs H s2 v2 log2 r H2; cbn [leap_main_loop] in H; [discriminate|].
    destruct (state_time st) as [t|e] eqn:Et; [|discriminate]. destruct (t <? stop1)%Z eqn:El.
    2:{ injection H as <- <- <- <-. exact H2. }
    destruct (leapfrog cfg prog s st dt) as [[s3 st'] [[d new]|e]] eqn:Ef; [|discriminate].
    destruct (run_processes qs v new dt) as [v3 [[ds next]|e]] eqn:Er; [|discriminate].
    destruct (store v3 (update_all (d :: ds) st')) as [v4 [x|e]] eqn:Es; [|discriminate].
    destruct (state_time (update_all (d :: ds) st')) as [t1|e] eqn:Et1; [|discriminate].
    destruct (leap_main_loop n cfg prog qs store stop1 dt s3 v4 (dset "time" (VTime (t1 + dt)) next)) as [[[s5 v5] log'] r'] eqn:Em.
    injection H as <- <- <- ->. cbn [length plus leap_main_loop]. rewrite Et. apply Z.ltb_lt in El. rewrite (proj2 (Z.ltb_lt t stop)) by lia.
    rewrite Ef, Er, Es, Et1. rewrite (IH _ _ _ _ _ _ _ Hs Em _ _ _ _ H2). reflexivity.
  Qed.

  (** Quantities are kept when no process loses any. *)
  Theorem main_leap_nothing_lost : forall n cfg (prog : icaller U) (qs : list (process (T:=T) V)) store stop dt s v st s' v' log r,
    Forall keeps_quantities qs -> leap_main_loop n cfg prog qs store stop dt s v st = ((s', v', log), r) ->
    forall X, In X (keys st) -> (forall S, In S log -> In X (keys S)) /\ (forall fin, r = Some (Ok fin) -> In X (keys fin)).
  Proof.
    induction n as [|n IH]; intros cfg prog qs store stop dt s v st s' v' log r Hq H X HX; cbn [leap_main_loop] in H.
    { injection H as _ _ <- <-. split; [intros S []|discriminate]. }
    destruct (state_time st) as [t|e]; [|injection H as _ _ <- <-; split; [intros S []|discriminate]].
    destruct (t <? stop)%Z; [|injection H as _ _ <- <-; split; [intros S []|intros fin E; injection E as <-; auto]].
    destruct (leapfrog cfg prog s st dt) as [[s3 st'] [[d new]|e]] eqn:Ef; [|injection H as _ _ <- <-; split; [intros S []|discriminate]].
    destruct (run_processes qs v new dt) as [v3 [[ds next]|e]] eqn:Er; [|injection H as _ _ <- <-; split; [intros S []|discriminate]].
    destruct (main_keeps_leapfrog _ _ _ _ _ _ _ _ _ Ef X HX) as (K1 & K2). apply run_in_turn in Er.
    assert (K3 : In X (keys next)).
    { refine (in_turn_preserves dt _ (fun s => In X (keys s)) _ _ _ Er _ K2). apply Forall_forall. intros p Hp w s0 w' d0 n0 K E.
      rewrite Forall_forall in Hq. exact (Hq p Hp _ _ _ _ _ _ E X K). }
    assert (K4 : In X (keys (update_all (d :: ds) st'))).
    { destruct (completed_update (d :: ds) st') as (C1 & _). apply C1. auto. }
    destruct (store v3 (update_all (d :: ds) st')) as [v4 [x|e]].
    2:{ injection H as _ _ <- <-. split; [intros S [<-|[]]; auto|discriminate]. }
    destruct (state_time (update_all (d :: ds) st')) as [t1|e].
    2:{ injection H as _ _ <- <-. split; [intros S [<-|[]]; auto|discriminate]. }
    destruct (leap_main_loop n cfg prog qs store stop dt s3 v4 (dset "time" (VTime (t1 + dt)) next)) as [[[s5 v5] log'] r'] eqn:Em.
    injection H as _ _ <- <-. destruct (IH _ _ _ _ _ _ _ _ _ _ _ _ _ Hq Em X) as (I1 & I2); [apply In_keys_dset; auto|].
    split; auto. intros S [<-|HS]; auto.
  Qed.
End Main.
