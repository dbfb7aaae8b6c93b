(** Taking up a run that died: the main theorems (C88). *)
From Coq Require Import String List Bool Arith ZArith QArith Lia.
From Verif Require Import Prelude PreludeFacts ArithM NdArray Units DataArrayM GetNp Restore Tracers Components SpecComponents SpecCalls Composite Steppers SteppersFacts ABFacts RKFacts Basic MainLoop NetCDF
  SpecNetCDF NetCDFRestart CallFacts ComponentsMain CompositeFacts NestedFacts SpecMainLoop SpecResume ResumeFacts ResumeMain SpecDies DiesFacts.
From Verif Require SpecLocal LocalMain MainLoopFacts.
Import ListNotations.
Open Scope string_scope.
Open Scope nat_scope.
Open Scope list_scope.

Section Main.
  Context {T : Type} {A : Arith T} {N : NcLib T}.

  (** The run goes on from the last state stored, or from the one that was being stored. *)
  Theorem main_taken_up : forall {U} (Fit : U -> Prop) Ds (ps : list (process (T:=T) U)) L f stop dt n fs u st fs1 u1 log1 fs2,
    Forall (memoryless Fit (concat Ds) dt) ps -> Forall2 (diagnoses dt) ps Ds -> ~ In "time" (concat Ds) -> Fit u -> tidy (concat Ds) st -> plain_fit N ->
    main_loop n (map beside ps) (to_restart f) stop dt (fs, u) st = (((fs1, u1), log1), None) -> 0 < n ->
    (forall X, In X (snd (fst (main_loop (S n) ps quiet stop dt u st))) -> restartable L X) ->
    (fs2 = fs1 \/ exists X, nth_error (snd (fst (main_loop (S n) ps quiet stop dt u st))) n = Some X /\ crash_points f false X fs1 fs2) ->
    exists k d st2 X, (S k = n \/ k = n) /\ current f fs2 = Some d /\ NetCDF.load f [(f, d)] = Ok st2 /\
      nth_error (snd (fst (main_loop (S n) ps quiet stop dt u st))) k = Some X /\ same_state X st2 /\
      forall m u2, Fit u2 ->
      let whole := main_loop (k + m) ps quiet stop dt u st in
      let taken_up := main_loop m ps quiet stop dt u2 st2 in
      Forall2 same_state (skipn k (snd (fst whole))) (snd (fst taken_up)) /\ same_end (concat Ds) (snd whole) (snd taken_up).
  Proof.
    intros U Fit Ds ps L f stop dt n fs u st fs1 u1 log1 fs2 Hp Hd Ht Hu Hn P H Hpos Hrs Hdie.
    destruct (run_to_restart f ps stop dt n fs u st fs1 u1 log1 H) as (Hq & Hlen & Hlast).
    assert (Hpre : forall k, k < n -> nth_error (snd (fst (main_loop (S n) ps quiet stop dt u st))) k = nth_error log1 k).
    { clear - Hq Hlen. revert u st log1 Hq Hlen. induction n as [|n IH]; intros u st log1 Hq Hlen k Hk; [lia|].
      cbn [main_loop] in Hq. remember (S n) as n1 eqn:En1. cbn [main_loop]. destruct (state_time st) as [t|e]; [|discriminate].
      destruct (t <? stop)%Z; [|discriminate]. destruct (run_processes ps u st dt) as [ua [[ds next]|e]]; [|discriminate]. cbn [quiet] in *.
      destruct (state_time (update_all ds st)) as [t1|e]; [|discriminate].
      destruct (main_loop n ps quiet stop dt ua (dset "time" (VTime (t1 + dt)) next)) as [[wc log] rc] eqn:Ec. injection Hq as <- <- ->.
      subst n1. pose proof (IH ua _ log Ec ltac:(simpl in Hlen; lia)) as I.
      destruct (main_loop (S n) ps quiet stop dt ua (dset "time" (VTime (t1 + dt)) next)) as [[wd logd] rd]. cbn [fst snd] in *.
      destruct k as [|k]; [reflexivity|]. cbn [nth_error]. apply I. lia. }
    assert (Hne : log1 <> []) by (intros ->; simpl in Hlen; lia).
    destruct (Hlast Hne) as (front & S1 & fsp & El & Hr).
    assert (Hk1 : nth_error (snd (fst (main_loop (S n) ps quiet stop dt u st))) (length front) = Some S1).
    { rewrite Hpre by (rewrite <- Hlen, El, app_length; simpl; lia). rewrite El, nth_error_app2 by lia. rewrite Nat.sub_diag. reflexivity. }
    assert (Hfin : exists k d Sk, (S k = n \/ k = n) /\ current f fs2 = Some d /\ saved f false Sk d /\
      nth_error (snd (fst (main_loop (S n) ps quiet stop dt u st))) k = Some Sk).
    { assert (Hfr : S (length front) = n) by (rewrite <- Hlen, El, app_length; simpl; lia).
      destruct Hdie as [->|(S2 & Hk2 & Hcr)].
      - destruct (main_restart_stored f false S1 fsp fs1 Hr) as (_ & (d & Hs & Hf) & _).
        exists (length front), d, S1. split; [left; exact Hfr|]. split; [unfold current; rewrite Hf; reflexivity|]. split; [exact Hs|exact Hk1].
      - pose proof (rh_start f false fsp) as R0. pose proof (rh_store f false fsp [] fsp S1 (Ok tt) fs1 R0 Hr) as R1.
        pose proof (rh_crash f false fsp _ fs1 S2 fs2 R1 Hcr) as R2.
        destruct (main_restart_history f false fsp _ fs2 R2 [] S1 [(S2, false)] eq_refl) as (Sx & d & Hx & Hs & Hc).
        destruct Hx as [->|(b & [E|[]])].
        + exists (length front), d, S1. auto.
        + injection E as -> _. exists n, d, Sx. auto. }
    destruct Hfin as (k & d & Sk & Hk & Hc & Hs & Hnk).
    assert (HR : restartable L Sk) by (apply Hrs; eapply nth_error_In; exact Hnk).
    destruct (load_saved L f Sk d P HR Hs) as (st2 & Hl & Hsame).
    exists k, d, st2, Sk. split; [exact Hk|]. split; [exact Hc|]. split; [exact Hl|]. split; [exact Hnk|]. split; [exact Hsame|].
    intros m u2 Hu2. cbn zeta. destruct (pass_of Fit Ds ps stop dt Hp Hd Ht k (S n) u st Sk Hu Hn Hnk) as (uk & stk & Huk & Ha & Hm).
    destruct (Hm m) as (Hm1 & Hm2). rewrite Hm1, Hm2. apply (agreeing_runs Fit Ds ps stop dt Hp Hd Ht m uk u2 stk st2 Huk Hu2).
    destruct Ha as (N1 & [_ N2] & Ha). destruct Hsame as (_ & N3 & Hsame). split; [exact N1|].
    split; [split; [exact N3|intros X t HX; rewrite <- Hsame; auto]|].
    intros X HX. rewrite <- Hsame. apply Ha. exact HX.
  Qed.

  (** A monitor that stores every state does not change the run. *)
  Theorem main_beside_restart : forall {U} f (ps : list (process (T:=T) U)) stop dt n fs u st fs1 u1 log,
    main_loop n (map beside ps) (to_restart f) stop dt (fs, u) st = (((fs1, u1), log), None) ->
    main_loop n ps quiet stop dt u st = ((u1, log), None) /\ length log = n.
  Proof. intros U f ps stop dt n fs u st fs1 u1 log H. destruct (run_to_restart f ps stop dt n fs u st fs1 u1 log H) as (H1 & H2 & _). auto. Qed.

  (** ** Objects that keep nothing *)
  Context {R : Registry}.

  Lemma agree_copy : forall D (st st' new new' : state T), agree_but D st st' -> agree_but D new new' ->
    agree_but D (copy_untouched st new) (copy_untouched st' new').
  Proof.
    assert (C : forall D (st new : state T), tidy D st -> tidy D new -> tidy D (copy_untouched st new)).
    { intros D st new (H1 & H2) (K1 & K2). split; [apply NoDup_copy_untouched; auto|]. intros X t HX. rewrite copy_untouched_get.
      specialize (K2 X t HX). destruct (dget X new); auto. }
    intros D st st' new new' (H1 & H2 & H3) (K1 & K2 & K3). split; [apply C; auto|]. split; [apply C; auto|].
    intros X HX. rewrite !copy_untouched_get, (K3 X HX), (H3 X HX). reflexivity.
  Qed.

  Lemma agree_insert : forall D cfg dt (st st' new new' : state T) diag, (forall X, In X (keys (ts_out cfg)) -> ~ In X D) -> agree_but D st st' -> agree_but D new new' ->
    insert_differences cfg dt st new diag = insert_differences cfg dt st' new' diag.
  Proof.
    intros D cfg dt st st' new new' diag Ho (_ & _ & H) (_ & _ & K). unfold insert_differences. revert diag Ho. induction (ts_out cfg) as [|np l IH]; intros diag Ho; cbn [foldM]; auto.
    assert (E : insert_one cfg dt st new diag np = insert_one cfg dt st' new' diag np).
    { assert (Hx : ~ In (fst np) D) by (apply Ho; left; reflexivity). unfold insert_one, dgetE. rewrite (H _ Hx), (K _ Hx). reflexivity. }
    rewrite E. destruct (insert_one cfg dt st' new' diag np); cbn [bind]; auto. apply IH. intros X HX. apply Ho. right; exact HX.
  Qed.

  Lemma euler_no_time : forall (st : state T) tend dt new D, step_forward_euler st tend dt = Ok new -> forall X t, In X D -> dget X new <> Some (VTime t).
  Proof.
    intros st tend dt new D H X t _ E. apply for_keys_ok in H as (Hk & Hi & Ho).
    destruct (in_dec string_dec X (keys tend)) as [K|K]; [destruct (Hi X K) as (v & _ & E'); congruence|rewrite (Ho X K) in E; discriminate E].
  Qed.

  (** AdamsBashforth of order one. *)
  Theorem main_euler_memoryless : forall {U} Fit D cfg (prog : icaller (T:=T) U) dt, heedless Fit D prog -> (forall X, In X (keys (ts_out cfg)) -> ~ In X D) ->
    memoryless (fun w => euler_object dt (fst w) /\ Fit (snd w)) D dt (adams_bashforth cfg prog).
  Proof.
    intros U Fit D cfg prog dt [Hp Hk] Ho [a u] [a' u'] st st' [[Ha Hd] Fu] [[Ha' Hd'] Fu'] Hs. cbn [fst snd] in *. unfold adams_bashforth, ab_call.
    assert (E : ensure_timestep (ab_dt a) dt = Ok tt) by (apply ensure_timestep_ok; auto).
    assert (E' : ensure_timestep (ab_dt a') dt = Ok tt) by (apply ensure_timestep_ok; auto).
    rewrite E, E'. destruct (Hp u u' st st' dt Fu Fu' Hs) as (F1 & F1' & Hr). destruct (prog u st dt) as [u1 r] eqn:Ep. destruct (prog u' st' dt) as [u1' r'] eqn:Ep'. cbn [fst snd] in F1, F1', Hr. subst r'.
    destruct r as [[t d]|e]; cbn [bind fst snd].
    - destruct (Hk _ _ _ _ _ _ Ep) as (Nt & Hkt). pose proof Hs as (_ & _ & Hs3).
      assert (Ec : convert_tendencies st t = convert_tendencies st' t).
      { apply mapM_ext_in. intros [k x] Hx. unfold convert_one. assert (Hkd : ~ In k D) by (apply Hkt; apply (in_map fst) in Hx; exact Hx).
        unfold dgetE. rewrite (Hs3 k Hkd). reflexivity. }
      rewrite <- Ec. destruct (convert_tendencies st t) as [tend|e] eqn:Et; cbn [bind].
      + assert (Ee : step_forward_euler st tend dt = step_forward_euler st' tend dt).
        { apply mapM_ext_in. intros k Hx. rewrite (convert_keys _ _ _ Et) in Hx. unfold euler_one, state_da, dgetE. rewrite (Hs3 k (Hkt k Hx)). reflexivity. }
        rewrite Ha, Ha', !perform_step_1. rewrite <- Ee. destruct (step_forward_euler st tend dt) as [new|e] eqn:En.
        * cbn [fst snd]. split; [split; [split; cbn; auto|auto]|]. split; [split; [split; cbn; auto|auto]|].
          assert (Nn : NoDup (keys new)) by (apply for_keys_ok in En as (-> & _); rewrite (convert_keys _ _ _ Et); exact Nt).
          assert (Hc : agree_but D (copy_untouched st new) (copy_untouched st' new)) by (apply agree_copy; [exact Hs|apply agree_refl; split; [exact Nn|exact (euler_no_time _ _ _ _ D En)]]).
          pose proof (agree_copy D _ _ _ _ Hs Hc) as Hcc.
          unfold finish_step. cbn [bind fst snd]. destruct (ts_tid cfg); cbn [bind].
          -- rewrite <- (agree_insert D cfg dt st st' _ _ d Ho Hs Hcc).
             destruct (insert_differences cfg dt st (copy_untouched st (copy_untouched st new)) d); cbn [bind same_but]; auto.
          -- cbn [same_but]. auto.
        * cbn [fst snd]. split; [split; [split; cbn; auto|auto]|]. split; [split; [split; cbn; auto|auto]|]. exact I.
      + cbn [fst snd]. split; [split; [split; cbn; auto|auto]|]. split; [split; [split; cbn; auto|auto]|]. exact I.
    - split; [split; [split; cbn; auto|auto]|]. split; [split; [split; cbn; auto|auto]|]. exact I.
  Qed.

  (** A process next to an object of which it knows nothing. *)
  Theorem main_beside_memoryless : forall {S U} (Fs : S -> Prop) (Fit : U -> Prop) D dt (p : process (T:=T) U), memoryless Fit D dt p ->
    memoryless (fun w => Fs (fst w) /\ Fit (snd w)) D dt (beside p).
  Proof.
    intros S U Fs Fit D dt p Hp [s u] [s' u'] st st' [H1 H2] [H1' H2'] Hs. cbn [fst snd] in *. unfold beside. cbn [fst snd].
    destruct (Hp u u' st st' H2 H2' Hs) as (K1 & K2 & K3). destruct (p u st dt) as [u1 r]. destruct (p u' st' dt) as [u1' r']. cbn [fst snd] in *. auto.
  Qed.

  Lemma agree_inputs : forall D names (st st' : state T), (forall X, In X names -> ~ In X D) -> agree_but D st st' -> agree_on names st st'.
  Proof. intros D names st st' Hn (_ & _ & H) X HX. apply H. apply Hn. exact HX. Qed.

  (** A Stepper whose array_call computes the same whatever it remembers. *)
  Theorem main_stepper_memoryless : forall {U} D g c (ac : U -> dict (rval T) -> Z -> U * res (dict (nd T) * dict (nd T))) dt,
    (forall u u' raw, snd (ac u raw dt) = snd (ac u' raw dt)) ->
    (forall X, In X ("time" :: keys (s_inp c) ++ read_tracers g (s_packer c)) -> ~ In X D) ->
    memoryless (fun _ => True) D dt (stepper_process g c ac).
  Proof.
    intros U D g c ac dt Hac Hin u u' st st' _ _ Hs. split; [exact I|]. split; [exact I|]. unfold stepper_process.
    assert (E : snd (stepper_call g c ac u st dt) = snd (stepper_call g c ac u' st' dt)).
    { rewrite <- (proj2 (proj2 calls_ext) U g c ac u' st st' dt).
      - unfold stepper_call. destruct (let* _ := raise_if (negb (s_init c)) ERuntime in raw_state g (s_inp c) (s_packer c) st) as [raw|e]; [|reflexivity].
        specialize (Hac u u' raw). destruct (ac u raw dt) as [u1 r]. destruct (ac u' raw dt) as [u1' r']. cbn [snd] in *. subst r'. reflexivity.
      - eapply agree_inputs; [|exact Hs]. intros X HX. apply Hin. right. apply in_app_iff. left; exact HX.
      - eapply agree_inputs; [|exact Hs]. intros X [<-|[]]. apply Hin. left; reflexivity.
      - eapply agree_inputs; [|exact Hs]. intros X HX. apply Hin. right. apply in_app_iff. right; exact HX. }
    pose proof (main_stepper_keeps_nothing g c ac dt u u st st eq_refl) as K. unfold stepper_process in K.
    destruct (stepper_call g c ac u st dt) as [u1 r]. destruct (stepper_call g c ac u' st' dt) as [u1' r']. cbn [fst snd] in *. subst r'.
    destruct Hs as ([Ns _] & _ & _). destruct (K (same_refl _ Ns)) as (_ & K2). destruct r as [[d new]|e]; cbn [bind same_but same_result fst snd] in *; [|exact I].
    split; [reflexivity|]. apply agree_refl. split; [apply K2|]. intros X t _. apply as_state_no_time.
  Qed.

  Lemma loop_forgets : forall {U} (st : state T) (cs : list (caller (T:=T) U)), (forall c, In c cs -> forall u u', snd (c u st) = snd (c u' st)) ->
    forall u u' tend diag, snd (composite_loop cs u st tend diag) = snd (composite_loop cs u' st tend diag).
  Proof.
    intros U st cs. induction cs as [|c cs IH]; intros Hc u u' tend diag; cbn [composite_loop]; [reflexivity|].
    pose proof (Hc c (or_introl eq_refl) u u') as E. destruct (c u st) as [u1 r]. destruct (c u' st) as [u1' r']. cbn [snd] in E. subst r'.
    destruct (let* td := r in let* tend' := update_dict_by_adding_another tend (fst td) in Ok (tend', dupdate diag (snd td))) as [[t d]|e]; [|reflexivity].
    apply IH. intros c0 H0. apply Hc. right. exact H0.
  Qed.

  (** Several components of which each computes the same whatever it remembers. *)
  Theorem main_components_heedless : forall {U} names D g (cs : list (tcomp * (Z -> U -> dict (rval T) -> U * res (dict (nd T) * dict (nd T))))),
    (forall ca, In ca cs -> SpecLocal.uses names g (fst ca)) -> (forall ca, In ca cs -> forall dt u u' raw, snd (snd ca dt u raw) = snd (snd ca dt u' raw)) ->
    (forall X, In X names -> ~ In X D) -> heedless (fun _ => True) D (SpecLocal.called g cs).
  Proof.
    intros U names D g cs Hu Hac Hn. destruct (LocalMain.main_local_components names g cs Hu) as [Hr Hc]. split.
    - intros u u' st st' dt _ _ Hs. split; [exact I|]. split; [exact I|].
      rewrite <- (Hr u' st st' dt) by (eapply agree_inputs; eassumption).
      unfold SpecLocal.called, implicit_composite_call, tendency_composite_call. apply loop_forgets. intros c Hin v v'.
      rewrite map_map in Hin. apply in_map_iff in Hin as (ca & <- & Hin). unfold tendency_call.
      destruct (let* _ := raise_if (negb (t_init (fst ca))) ERuntime in raw_state g (t_inp (fst ca)) (t_packer (fst ca)) st) as [raw|e]; [|reflexivity].
      specialize (Hac ca Hin dt v v' raw). destruct (snd ca dt v raw) as [u1 r]. destruct (snd ca dt v' raw) as [u1' r']. cbn [snd] in *. subst r'. reflexivity.
    - intros u st dt u' t d E. destruct (Hc u st dt u' t d E) as [K1 K2]. split; [exact K2|]. intros X HX. apply Hn. apply K1. exact HX.
  Qed.

  (** ** Which diagnostics there are *)
  Theorem main_stepper_diagnoses : forall {U} g c (ac : U -> dict (rval T) -> Z -> U * res (dict (nd T) * dict (nd T))) dt,
    diagnoses dt (stepper_process g c ac) (keys (s_diag c)).
  Proof.
    intros U g c ac dt u st u' d new H. unfold stepper_process, stepper_call in H.
    destruct (let* _ := raise_if (negb (s_init c)) ERuntime in raw_state g (s_inp c) (s_packer c) st) as [raw|e]; [|discriminate].
    destruct (ac u raw dt) as [u1 r]. injection H as _ H. apply bind_ok in H as ([d0 n0] & H & H'). injection H' as <- <-.
    apply bind_ok in H as ([rd rn] & _ & H). unfold stepper_finish in H.
    apply bind_ok in H as ((tr & rn') & _ & H). apply bind_ok in H as (_ & _ & H). apply bind_ok in H as (_ & _ & H).
    apply bind_ok in H as (rd' & _ & H). apply bind_ok in H as (dg & Hdg & H). apply bind_ok in H as (nw & _ & H). injection H as <- _. cbn [fst].
    split; [eapply restore_NoDup; exact Hdg|eapply MainLoopFacts.restore_keys; exact Hdg].
  Qed.

  Theorem main_beside_diagnoses : forall {S U} dt (p : process (T:=T) U) D, diagnoses dt p D -> diagnoses dt (beside (S:=S) p) D.
  Proof.
    intros S U dt p D Hp [s u] st w d new H. unfold beside in H. cbn [fst snd] in H. destruct (p u st dt) as [u1 r] eqn:E. injection H as _ ->. eapply Hp; exact E.
  Qed.

  Lemma loop_diagnoses : forall {U} (st : state T) (cDs : list (caller (T:=T) U * list string)),
    (forall c D, In (c, D) cDs -> forall u u' t d, c u st = (u', Ok (t, d)) -> forall X, In X (keys d) <-> In X D) ->
    forall u tend diag u' t d, composite_loop (map fst cDs) u st tend diag = (u', Ok (t, d)) -> NoDup (keys diag) ->
      NoDup (keys d) /\ forall X, In X (keys d) <-> In X (keys diag) \/ In X (concat (map snd cDs)).
  Proof.
    intros U st cDs. induction cDs as [|[c D] cDs IH]; intros Hc u tend diag u' t d H Hn; cbn [map composite_loop concat fst snd] in *.
    - injection H as _ _ <-. split; [exact Hn|]. intros X. cbn. tauto.
    - destruct (c u st) as [u1 r] eqn:E. destruct r as [[t1 d1]|e]; cbn [bind fst snd] in H; [|discriminate].
      destruct (update_dict_by_adding_another tend t1) as [tend'|e]; cbn [bind] in H; [|discriminate].
      destruct (IH (fun c0 D0 H0 => Hc c0 D0 (or_intror H0)) _ _ _ _ _ _ H (nodup_dupdate _ _ Hn)) as (K1 & K2). split; [exact K1|].
      intros X. rewrite K2, In_keys_dupdate, in_app_iff, <- (Hc c D (or_introl eq_refl) _ _ _ _ E X). tauto.
  Qed.

  (** A time stepper of components none of which returns tendencies among its diagnostics. *)
  Lemma called_diagnoses : forall {U} g (cs : list (tcomp * (Z -> U -> dict (rval T) -> U * res (dict (nd T) * dict (nd T))))) dt st,
    (forall ca, In ca cs -> t_tid (fst ca) = false /\ t_added (fst ca) = []) ->
    forall u u' t d, SpecLocal.called g cs u st dt = (u', Ok (t, d)) -> NoDup (keys d) /\ forall X, In X (keys d) <-> In X (concat (map (fun ca => keys (t_diag (fst ca))) cs)).
  Proof.
    intros U g cs dt st Hcs u u' t d H. unfold SpecLocal.called, implicit_composite_call, tendency_composite_call in H. rewrite map_map in H.
    pose proof (loop_diagnoses st (map (fun ca => ((fun u st => tendency_call g (fst ca) (snd ca dt) u st), keys (t_diag (fst ca)))) cs)) as L.
    rewrite !map_map in L. cbn [fst snd] in L. edestruct L as (K1 & K2); [|exact H|constructor|].
    - intros c D Hin v v' t0 d0 E X. apply in_map_iff in Hin as (ca & Hca & Hin). injection Hca as <- <-. destruct (Hcs ca Hin) as (H1 & H2).
      unfold tendency_call in E. destruct (let* _ := raise_if (negb (t_init (fst ca))) ERuntime in raw_state g (t_inp (fst ca)) (t_packer (fst ca)) st) as [raw|e]; [|discriminate].
      destruct (snd ca dt v raw) as [u1 r]. injection E as _ E. apply bind_ok in E as (out & _ & E). unfold tendency_finish in E.
      apply bind_ok in E as ((tr & rt) & _ & E). apply bind_ok in E as (_ & _ & E). apply bind_ok in E as (_ & _ & E).
      apply bind_ok in E as (td & _ & E). apply bind_ok in E as (dg & E2 & E). rewrite H1 in E. injection E as _ <-. rewrite H2 in E2. eapply MainLoopFacts.restore_keys; exact E2.
    - split; [exact K1|]. intros X. rewrite K2. cbn. tauto.
  Qed.

  Theorem main_euler_diagnoses : forall {U} cfg g (cs : list (tcomp * (Z -> U -> dict (rval T) -> U * res (dict (nd T) * dict (nd T))))) dt,
    ts_tid cfg = false -> (forall ca, In ca cs -> t_tid (fst ca) = false /\ t_added (fst ca) = []) ->
    diagnoses dt (adams_bashforth cfg (SpecLocal.called g cs)) (concat (map (fun ca => keys (t_diag (fst ca))) cs)).
  Proof.
    intros U cfg g cs dt Hc Hcs [a u] st w d new H. unfold adams_bashforth in H.
    assert (G : forall u u' t d, SpecLocal.called g cs u st dt = (u', Ok (t, d)) -> NoDup (keys d) /\ forall X, In X (keys d) <-> In X (concat (map (fun ca => keys (t_diag (fst ca))) cs))).
    { exact (called_diagnoses g cs dt st Hcs). }
    destruct (ab_call (SpecLocal.called g cs) (a, u) st dt) as [w1 r] eqn:Er. injection H as _ H. unfold finish_step in H. rewrite Hc in H.
    apply bind_ok in H as ([d1 n1] & -> & H). injection H as <- _. cbn [fst]. unfold ab_call in Er.
    destruct (ensure_timestep (ab_dt a) dt) as [z|e]; [|discriminate]. destruct (SpecLocal.called g cs u st dt) as [u1 r1] eqn:E.
    destruct r1 as [[t1 dg]|e]; cbn [bind fst snd] in Er; [|discriminate]. destruct (G _ _ _ _ E) as (G1 & G2).
    destruct (convert_tendencies st t1) as [tend|e]; cbn [bind] in Er; [|discriminate].
    destruct (perform_step (ab_order a) (ab_hist a ++ [tend]) st dt) as [nw|e]; [|discriminate]. injection Er as _ <- _. auto.
  Qed.
End Main.
