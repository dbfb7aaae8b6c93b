(** Taking up a run that died (C88). *)
From Coq Require Import String List Bool Arith ZArith QArith Lia.
From Verif Require Import Prelude PreludeFacts ArithM NdArray Units DataArrayM GetNp Restore Tracers Components SpecComponents Composite Steppers Basic MainLoop NetCDF
  SpecNetCDF NetCDFRestart CallFacts ComponentsMain CompositeFacts NestedFacts SpecMainLoop SpecResume ResumeFacts ResumeMain SpecDies.
Import ListNotations.
Open Scope string_scope.
Open Scope nat_scope.
Open Scope list_scope.

Section Facts.
  Context {T : Type} {A : Arith T}.

  Lemma agree_refl : forall D (st : state T), tidy D st -> agree_but D st st.
  Proof. intros D st H. split; [exact H|]. split; [exact H|]. auto. Qed.

  Lemma tidy_dset : forall D k v (st : state T), ~ In k D -> tidy D st -> tidy D (dset k v st).
  Proof.
    intros D k v st Hk (N & H). split; [apply NoDup_dset; auto|]. intros X t HX.
    rewrite dget_dset_neq; [auto|]. intros ->. auto.
  Qed.

  Lemma agree_dset : forall D k v (st st' : state T), ~ In k D -> agree_but D st st' -> agree_but D (dset k v st) (dset k v st').
  Proof.
    intros D k v st st' Hk (N1 & N2 & H). split; [apply tidy_dset; auto|]. split; [apply tidy_dset; auto|].
    intros X HX. destruct (String.eqb_spec X k) as [->|Hne]; [rewrite !dget_dset_eq; reflexivity|rewrite !dget_dset_neq by auto; auto].
  Qed.

  Lemma agree_time : forall D (st st' : state T), ~ In "time" D -> agree_but D st st' -> state_time st = state_time st'.
  Proof. intros D st st' Ht (_ & _ & H). unfold state_time, dgetE. rewrite (H "time" Ht). reflexivity. Qed.

  Lemma keys_as_state : forall (d : dict (da T)), keys (as_state d) = keys d.
  Proof. intros d. unfold as_state, keys. rewrite map_map. reflexivity. Qed.

  Lemma NoDup_update_all : forall ds (st : state T), NoDup (keys st) -> NoDup (keys (update_all ds st)).
  Proof.
    unfold update_all. induction ds as [|d ds IH]; intros st H; simpl; [exact H|]. apply IH. apply nodup_dupdate. exact H.
  Qed.

  Lemma as_state_no_time : forall (d : dict (da T)) X t, dget X (as_state d) <> Some (VTime t).
  Proof.
    intros d X t H. apply dget_In in H. unfold as_state in H. apply in_map_iff in H as ([k a] & E & _). discriminate E.
  Qed.

  Lemma tidy_update_all : forall D ds (st : state T), Forall (fun d => NoDup (keys d)) ds -> tidy D st -> tidy D (update_all ds st).
  Proof.
    unfold update_all. intros D. induction ds as [|d ds IH]; intros st F H; simpl; [exact H|]. inversion F as [|? ? Hd Hds]; subst.
    apply IH; [exact Hds|]. destruct H as (N & H). split; [apply nodup_dupdate; exact N|]. intros X t HX.
    rewrite dget_dupdate by (rewrite keys_as_state; exact Hd). destruct (dget X (as_state d)) as [v|] eqn:E; [|auto].
    rewrite <- E. apply as_state_no_time.
  Qed.

  (** A quantity agrees afterwards if it did before or is among the diagnostics. *)
  Lemma update_agrees : forall ds (st st' : state T) X, NoDup (keys st) -> NoDup (keys st') -> Forall (fun d => NoDup (keys d)) ds ->
    (dget X st = dget X st' \/ exists d, In d ds /\ In X (keys d)) -> dget X (update_all ds st) = dget X (update_all ds st').
  Proof.
    unfold update_all. induction ds as [|d ds IH]; intros st st' X N1 N2 F H; simpl.
    - destruct H as [H|(d & [] & _)]. exact H.
    - inversion F as [|? ? Hd Hds]; subst.
      assert (Nd : NoDup (keys (as_state d))) by (rewrite keys_as_state; exact Hd).
      apply IH; [apply nodup_dupdate; exact N1|apply nodup_dupdate; exact N2|exact Hds|].
      rewrite !dget_dupdate by exact Nd. destruct (dget X (as_state d)) as [v|] eqn:E; [left; reflexivity|].
      destruct H as [H|(d' & [<-|Hd'] & HX)]; [left; exact H| |right; eauto].
      exfalso. rewrite <- keys_as_state in HX. apply In_keys_dget in HX as (v & Hv). congruence.
  Qed.

  Lemma update_leaves : forall ds (st : state T) X, Forall (fun d => NoDup (keys d)) ds -> (forall d, In d ds -> ~ In X (keys d)) -> dget X (update_all ds st) = dget X st.
  Proof.
    unfold update_all. induction ds as [|d ds IH]; intros st X F H; simpl; [reflexivity|]. inversion F as [|? ? Hd Hds]; subst.
    rewrite IH; [|exact Hds|intros d' Hd'; apply H; right; exact Hd'].
    rewrite dget_dupdate by (rewrite keys_as_state; exact Hd). destruct (dget X (as_state d)) as [v|] eqn:E; [|reflexivity].
    exfalso. apply (H d (or_introl eq_refl)). rewrite <- keys_as_state. apply dget_In in E. apply (in_map fst) in E. exact E.
  Qed.

  (** ** Processes in turn *)
  Lemma memoryless_all : forall {U} (Fit : U -> Prop) D dt ps, Forall (memoryless (T:=T) Fit D dt) ps -> forall u u' st st', Fit u -> Fit u' -> agree_but D st st' ->
    Fit (fst (run_processes ps u st dt)) /\ Fit (fst (run_processes ps u' st' dt)) /\
    match snd (run_processes ps u st dt), snd (run_processes ps u' st' dt) with
    | Ok (ds, s), Ok (ds', s') => ds = ds' /\ agree_but D s s'
    | Err _, Err _ => True
    | _, _ => False
    end.
  Proof.
    intros U Fit D dt ps Hf. induction Hf as [|p ps Hp Hf IH]; intros u u' st st' Hu Hu' Hs; cbn [run_processes fst snd]; auto.
    destruct (Hp u u' st st' Hu Hu' Hs) as (H1 & H1' & H2). destruct (p u st dt) as [u1 r]. destruct (p u' st' dt) as [u1' r']. cbn [fst snd] in *.
    destruct r as [[d s]|e]; destruct r' as [[d' s']|e']; cbn [same_but fst snd] in *; try contradiction; [|auto]. destruct H2 as [<- H2].
    specialize (IH u1 u1' s s' H1 H1' H2). destruct (run_processes ps u1 s dt) as [u2 q]. destruct (run_processes ps u1' s' dt) as [u2' q']. cbn [fst snd] in *.
    destruct IH as (I1 & I1' & I2). split; auto. split; auto. destruct q as [[ds x]|e]; destruct q' as [[ds' x']|e']; cbn [bind fst snd] in *; try contradiction; auto.
    destruct I2 as [-> I2]. auto.
  Qed.

  Lemma diagnoses_all : forall {U} dt ps Ds, Forall2 (diagnoses (T:=T) (U:=U) dt) ps Ds -> forall u st u' ds next, run_processes ps u st dt = (u', Ok (ds, next)) ->
    Forall (fun d => NoDup (keys d)) ds /\ forall X, (exists d, In d ds /\ In X (keys d)) <-> In X (concat Ds).
  Proof.
    intros U dt ps Ds F. induction F as [|p D ps Ds Hp F IH]; intros u st u' ds next H; cbn [run_processes] in H.
    - injection H as _ <- _. split; [constructor|]. intros X. split; [intros (d & [] & _)|intros []].
    - destruct (p u st dt) as [u1 [[d s]|e]] eqn:E; [|discriminate]. destruct (run_processes ps u1 s dt) as [u2 r] eqn:Er.
      destruct r as [[ds' x]|e]; cbn [bind fst snd] in H; [|discriminate]. injection H as _ <- _.
      destruct (Hp u st u1 d s E) as (Nd & Hd). destruct (IH _ _ _ _ _ Er) as (I1 & I2). split; [constructor; auto|].
      intros X. simpl. rewrite in_app_iff, <- I2, <- Hd. split.
      + intros (d' & [<-|Hd'] & HX); [left; exact HX|right; eauto].
      + intros [HX|(d' & Hd' & HX)]; [exists d; auto|exists d'; auto].
  Qed.

  (** ** Two runs from states that agree but for the diagnostics *)
  Lemma agreeing_runs : forall {U} (Fit : U -> Prop) Ds ps stop dt, Forall (memoryless (T:=T) Fit (concat Ds) dt) ps -> Forall2 (diagnoses dt) ps Ds -> ~ In "time" (concat Ds) ->
    forall m u u' st st', Fit u -> Fit u' -> agree_but (concat Ds) st st' ->
    let run := main_loop m ps quiet stop dt u st in let run' := main_loop m ps quiet stop dt u' st' in
    Forall2 same_state (snd (fst run)) (snd (fst run')) /\ same_end (concat Ds) (snd run) (snd run').
  Proof.
    intros U Fit Ds ps stop dt Hp Hd Ht m. induction m as [|m IH]; intros u u' st st' Hu Hu' Hs; cbn [main_loop].
    - split; [constructor|exact I].
    - rewrite <- (agree_time _ _ _ Ht Hs). destruct (state_time st) as [t|e]; [|split; [constructor|exact I]].
      destruct (t <? stop)%Z; [|split; [constructor|exact Hs]].
      destruct (memoryless_all Fit _ dt ps Hp u u' st st' Hu Hu' Hs) as (H1 & H1' & H2).
      destruct (run_processes ps u st dt) as [u1 r] eqn:Er. destruct (run_processes ps u' st' dt) as [u1' r'].
      cbn [fst snd] in *. destruct r as [[ds next]|e]; destruct r' as [[ds' next']|e']; try contradiction; [|split; [constructor|exact I]].
      destruct H2 as [<- H2]. destruct (diagnoses_all dt ps Ds Hd _ _ _ _ _ Er) as (Nd & HD).
      assert (Hu1 : same_state (update_all ds st) (update_all ds st')).
      { destruct Hs as ([N1 _] & [N2 _] & Hs). split; [apply NoDup_update_all; exact N1|]. split; [apply NoDup_update_all; exact N2|].
        intros X. apply update_agrees; auto. destruct (in_dec string_dec X (concat Ds)) as [Hi|Hi]; [right; apply HD; exact Hi|left; auto]. }
      cbn [quiet]. rewrite <- (same_time _ _ Hu1). destruct (state_time (update_all ds st)) as [t1|e]; [|split; [constructor; [exact Hu1|constructor]|exact I]].
      pose proof (IH u1 u1' _ _ H1 H1' (agree_dset _ "time" (VTime (t1 + dt)) _ _ Ht H2)) as K. cbn zeta in K.
      destruct (main_loop m ps quiet stop dt u1 (dset "time" (VTime (t1 + dt)) next)) as [[wc log] rc].
      destruct (main_loop m ps quiet stop dt u1' (dset "time" (VTime (t1 + dt)) next')) as [[wc' log'] rc']. cbn [fst snd] in *.
      destruct K as (K1 & K2). split; auto.
  Qed.

  (** The pass that completed the k-th state. *)
  Lemma pass_of : forall {U} (Fit : U -> Prop) Ds ps stop dt, Forall (memoryless (T:=T) Fit (concat Ds) dt) ps -> Forall2 (diagnoses dt) ps Ds -> ~ In "time" (concat Ds) ->
    forall k n u st S, Fit u -> tidy (concat Ds) st -> nth_error (snd (fst (main_loop n ps quiet stop dt u st))) k = Some S ->
    exists uk stk, Fit uk /\ agree_but (concat Ds) stk S /\
      forall m, skipn k (snd (fst (main_loop (k + m) ps quiet stop dt u st))) = snd (fst (main_loop m ps quiet stop dt uk stk)) /\
                snd (main_loop (k + m) ps quiet stop dt u st) = snd (main_loop m ps quiet stop dt uk stk).
  Proof.
    intros U Fit Ds ps stop dt Hp Hd Ht k. induction k as [|k IH]; intros n u st S Hu Hn Hk.
    - exists u, st. split; [exact Hu|]. split.
      + destruct n as [|n]; cbn [main_loop] in Hk; [discriminate|]. destruct (state_time st) as [t|e]; [|discriminate].
        destruct (t <? stop)%Z; [|discriminate]. destruct (run_processes ps u st dt) as [u1 [[ds next]|e]] eqn:Er; [|discriminate].
        destruct (diagnoses_all dt ps Ds Hd _ _ _ _ _ Er) as (Nd & HD).
        assert (E : S = update_all ds st).
        { cbn [quiet] in Hk. destruct (state_time (update_all ds st)) as [t1|e]; [|simpl in Hk; congruence].
          destruct (main_loop n ps quiet stop dt u1 (dset "time" (VTime (t1 + dt)) next)) as [[wc log] rc]. simpl in Hk. congruence. }
        subst S. split; [exact Hn|]. split; [apply tidy_update_all; [exact Nd|exact Hn]|]. intros X HX. symmetry. apply update_leaves; [exact Nd|].
        intros d Hdd HXd. apply HX. apply HD. eauto.
      + intros m. split; reflexivity.
    - destruct n as [|n]; cbn [main_loop] in Hk; [discriminate|]. destruct (state_time st) as [t|e] eqn:Et; [|discriminate].
      destruct (t <? stop)%Z eqn:El; [|discriminate].
      pose proof (memoryless_all Fit _ dt ps Hp u u st st Hu Hu (agree_refl _ _ Hn)) as Hm.
      destruct (run_processes ps u st dt) as [u1 [[ds next]|e]] eqn:Er; [|discriminate].
      cbn [fst snd] in Hm. destruct Hm as (Hu1 & _ & _ & (Hnn & _)).
      cbn [quiet] in Hk. destruct (state_time (update_all ds st)) as [t1|e] eqn:E1; [|destruct k; discriminate].
      destruct (main_loop n ps quiet stop dt u1 (dset "time" (VTime (t1 + dt)) next)) as [[wc log] rc] eqn:Ec. cbn [fst snd nth_error] in Hk.
      destruct (IH n u1 (dset "time" (VTime (t1 + dt)) next) S Hu1 (tidy_dset _ _ _ _ Ht Hnn)) as (uk & stk & Huk & Ha & Hm).
      { rewrite Ec. exact Hk. }
      exists uk, stk. split; [exact Huk|]. split; [exact Ha|]. intros m. destruct (Hm m) as (Hm1 & Hm2).
      cbn [Nat.add main_loop]. rewrite Et, El, Er. cbn [quiet]. rewrite E1.
      destruct (main_loop (k + m) ps quiet stop dt u1 (dset "time" (VTime (t1 + dt)) next)) as [[wd logd] rd]. cbn [fst snd skipn] in *. auto.
  Qed.

  (** ** With a restart file *)
  Context {N : NcLib T}.

  Lemma beside_all : forall {M U} (ps : list (process (T:=T) U)) dt (w : M) u st,
    run_processes (map beside ps) (w, u) st dt = ((w, fst (run_processes ps u st dt)), snd (run_processes ps u st dt)).
  Proof.
    intros M U ps dt w. induction ps as [|p ps IH]; intros u st; cbn [map run_processes]; [reflexivity|].
    unfold beside at 1. cbn [fst snd]. destruct (p u st dt) as [u1 [[d s]|e]]; [|reflexivity]. rewrite IH.
    destruct (run_processes ps u1 s dt) as [u2 r]. reflexivity.
  Qed.

  (** As long as the stores return, the monitor changes nothing. *)
  Lemma run_to_restart : forall {U} f (ps : list (process (T:=T) U)) stop dt n fs u st fs1 u1 log,
    main_loop n (map beside ps) (to_restart f) stop dt (fs, u) st = (((fs1, u1), log), None) ->
    main_loop n ps quiet stop dt u st = ((u1, log), None) /\ length log = n /\
    (log <> [] -> exists front S fsp, log = front ++ [S] /\ restart_store f false S fsp = (Ok tt, fs1)).
  Proof.
    intros U f ps stop dt n. induction n as [|n IH]; intros fs u st fs1 u1 log H; cbn [main_loop] in *.
    - injection H as <- <- <-. split; [reflexivity|]. split; [reflexivity|]. intros E. contradiction E; reflexivity.
    - destruct (state_time st) as [t|e]; [|discriminate]. destruct (t <? stop)%Z; [|discriminate].
      rewrite beside_all in H. destruct (run_processes ps u st dt) as [ua [[ds next]|e]]; cbn [fst snd] in H; [|discriminate].
      cbn [quiet]. destruct (to_restart f (fs, ua) (update_all ds st)) as [[fsb ub] q] eqn:Es. destruct q as [[]|e]; [|discriminate].
      unfold to_restart in Es. cbn [fst snd] in Es. destruct (restart_store f false (update_all ds st) fs) as [q fsc] eqn:Er. injection Es as -> <- ->.
      destruct (state_time (update_all ds st)) as [t1|e]; [|discriminate].
      destruct (main_loop n (map beside ps) (to_restart f) stop dt (fsb, ua) (dset "time" (VTime (t1 + dt)) next)) as [[[fsd ud] logd] rd] eqn:Ed.
      injection H as -> -> <- ->. destruct (IH _ _ _ _ _ _ Ed) as (I1 & I2 & I3). rewrite I1. split; [reflexivity|]. split; [simpl; congruence|].
      intros _. destruct logd as [|x logd].
      + exists [], (update_all ds st), fs. split; [reflexivity|].
        destruct n as [|n]; [|discriminate I2]. simpl in Ed. congruence.
      + destruct (I3 ltac:(discriminate)) as (front & S & fsp & E & Hr). exists (update_all ds st :: front), S, fsp. rewrite E. split; [reflexivity|exact Hr].
  Qed.

  Lemma load_saved : forall L f (S : state T) d, plain_fit N -> restartable L S -> saved f false S d -> exists st2, NetCDF.load f [(f, d)] = Ok st2 /\ same_state S st2.
  Proof.
    intros L f S d P (G & Hn & Hnm & Hx & Hd) Hs.
    assert (Hr : exists fs', restart_store f false S [] = (Ok tt, fs') /\ dget f fs' = Some d).
    { unfold restart_store. unfold saved in Hs. rewrite Hs. eexists. split; [reflexivity|].
      pose proof (main_restart_stored f false S [] (clean f (install f (backup f [(new_name f, d)])))) as K.
      unfold restart_store in K. rewrite Hs in K. destruct (K eq_refl) as (_ & (d' & Hs' & Hd') & _). unfold saved in Hs'. rewrite Hs in Hs'. congruence. }
    destruct Hr as (fs' & Hr & Hf). destruct (main_restart_round_trip L f S [] fs' P G Hn Hnm Hx Hd Hr) as (st2 & Hl & Nd & Hg).
    exists st2. split.
    - unfold NetCDF.load in *. rewrite Hf in Hl. cbn [dget]. rewrite String.eqb_refl. exact Hl.
    - split; [apply G|]. split; [exact Nd|]. intros X. symmetry. apply Hg.
  Qed.
End Facts.
