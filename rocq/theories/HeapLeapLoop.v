(** Runs of a model with a Leapfrog object in memory (C99): proofs. *)
From Coq Require Import String List Bool Arith ZArith QArith Lia.
From Verif Require Import Prelude PreludeFacts ArithM NdArray Units DataArrayM Heap GetNp Components Composite Steppers SpecSteppers SteppersFacts Basic Tracers
  SpecHeap MainLoop LeapLoop HeapLoop SpecHeapLoop HeapFacts HeapComposite HeapSteppers HeapLeap HeapLoopMain.
Import ListNotations.
Open Scope string_scope.
Open Scope nat_scope.
Open Scope list_scope.

Section Leap.
  Context {T : Type} {A : Arith T} {R : Registry}.

  #[local] Opaque alloc.

  (** The arrays of the new state are new, and there is one for each tendency. *)
  Lemma h_leap_loop_fresh : forall sec nu alpha old tend st ks (h : heap T) new h' new',
    h_leap_loop sec nu alpha old tend ks h st new = (h', Ok new') ->
    length h <= length h' /\ (forall c, state_cells new' c -> state_cells new c \/ length h <= c < length h') /\
    (forall k, In k ks \/ In k (keys new) -> In k (keys new')).
  Proof.
    intros sec nu alpha old tend st ks. induction ks as [|k ks IH]; intros h new h' new' H; cbn [h_leap_loop] in H.
    - injection H as <- <-. split; auto. split; auto. intros k [[]|K]; auto.
    - destruct (leap_one sec nu (load_state h old) (load_state h st) (load_dict h tend) k) as [[n w]|e]; cbn [bind fst snd] in H; [|discriminate H].
      destruct (h_state_da k st) as [x|e]; cbn [bind] in H; [|discriminate H].
      destruct (da_iadd (load h x) (da_lscale alpha w)) as [x'|e]; cbn [bind] in H; [|discriminate H].
      destruct (if aeqb alpha (aofQ (1 # 1)) then Ok n else da_iadd n (da_lscale (asub alpha (aofQ (1 # 1))) w)) as [n'|e]; [|discriminate H].
      rewrite alloc_eq in H. apply IH in H as (L & C & Kk).
      pose proof (grown_length _ _ (grown_alloc (write h x x') n')) as L1.
      assert (L0 : length (write h x x') = length h) by (unfold write; apply length_store).
      split. lia. split.
      + intros c K. apply C in K as [K|K]; [|right; lia].
        apply dset_cells in K as [(a & E & K)|K]; auto. injection E as <-. right. apply alloc_cells in K. lia.
      + intros j K. apply Kk. rewrite keys_dset. destruct (dmem k new) eqn:Em.
        * destruct K as [[<-|K]|K]; auto. right. unfold dmem in Em. destruct (dget k new) eqn:E; [|discriminate Em]. apply dget_In in E. apply (in_map fst) in E. exact E.
        * destruct K as [[<-|K]|K]; auto; right; apply in_or_app; auto. right. left. reflexivity.
  Qed.

  Lemma named_copy : forall st new0 K c, (forall k, In k K -> In k (keys new0)) -> named_cells (h_copy_untouched st new0) K c -> state_cells new0 c.
  Proof.
    intros st new0 K c HK (k & a & Hk & Ha & Hc). apply In_copy_untouched_strong in Ha as [Ha|(_ & N)].
    - exists k, a. auto.
    - exfalso. apply N. auto.
  Qed.

  Section Step.
    Context {UH UV : Type} (I : invariant (T:=T) UH UV) (HIs : stable I).
    Context (prog : hicaller (T:=T) UH) (vprog : icaller (T:=T) UV) (Hp : stays_apart I prog vprog).
    Variable K : list string.
    Hypothesis HK : tendencies_of K vprog.

    Lemma leap_call_fresh : forall h l u v st dt l' u' h' r, leap_ready I h l u v st ->
      h_leap_call prog (l, u) h st dt = ((l', u', h'), r) ->
      changed_in (named_cells st K) h h' /\
      match r with
      | Ok (d, new) => exists n new0, new = h_copy_untouched st new0 /\ length h <= n /\ (forall c, cells_of d c -> c < n) /\
          (forall c, state_cells new0 c -> n <= c < length h') /\ (forall k, In k K -> In k (keys new0))
      | Err _ => True
      end.
    Proof.
      intros h l u v st dt l' u' h' r (HI & Hs & Hsep & Hps & Hold) H. unfold h_leap_call in H.
      destruct (ensure_timestep (hlf_dt l) dt) as [[]|e].
      2: { injection H as <- <- <- <-. split; auto. apply changed_refl. }
      destruct (prog u h st dt) as [[u1 h1] r1] eqn:Ep.
      destruct (Hp (state_cells st) h u v st dt u1 h1 r1 HI Hs Hs ltac:(intros []) Ep) as (G1 & (v1 & V1 & _) & O1).
      destruct r1 as [[t diag]|e].
      2: { injection H as <- <- <- <-. split; auto. apply grown_changed; auto. }
      destruct O1 as (Ht & Hd & _). pose proof (HK _ _ _ _ _ _ Hps V1) as Hkeys. rewrite keys_load_dict in Hkeys.
      destruct (h_convert h1 st t) as [h2 r2] eqn:Ec.
      assert (Hs1 : state_in h1 st) by (apply (state_in_grown h); auto).
      destruct (h_convert_spec t h1 st h2 r2 Ht Hs1 Ec) as (G2 & V2 & C2).
      pose proof (grown_trans _ _ _ G1 G2) as G12.
      destruct r2 as [tend|e].
      2: { injection H as <- <- <- <-. split; auto. apply grown_changed; auto. }
      destruct C2 as (_ & Hkt & _).
      pose proof (grown_length _ _ G12) as L12. pose proof (grown_length _ _ G2) as L2.
      assert (Hd2 : forall c, cells_of diag c -> c < length h2) by (intros c Kc; apply Hd in Kc; lia).
      destruct (hlf_old l) as [old|].
      - destruct (h_leap_loop (total_seconds dt) (hlf_nu l) (hlf_alpha l) old tend (keys tend) h2 st []) as [h3 rn] eqn:El.
        pose proof (h_leap_loop_changed _ _ _ _ _ _ _ _ _ _ _ El) as Cl.
        assert (C03 : changed_in (named_cells st K) h h3).
        { apply (changed_trans _ _ _ _ _ _ (grown_changed (named_cells st K) _ _ G12) Cl). intros c _ [Kc|(k & a & Hk & Kc)]; auto.
          exists k, a. split; auto. apply Hkeys. rewrite <- Hkt. auto. }
        destruct rn as [new0|e]; injection H as <- <- <- <-; split; auto.
        apply h_leap_loop_fresh in El as (_ & Cf & Kf). exists (length h2), new0. split; auto. split; auto. split; auto. split.
        + intros c Kc. apply Cf in Kc as [(k & a & [] & _)|Kc]; auto.
        + intros k Hk. apply Kf. left. rewrite Hkt. apply Hkeys. auto.
      - destruct (alloc_result h2 (step_forward_euler (load_state h2 st) (load_dict h2 tend) dt)) as [h3 rn] eqn:El.
        apply alloc_result_spec in El as (G3 & V3 & C3).
        assert (C03 : changed_in (named_cells st K) h h3) by (apply grown_changed; exact (grown_trans _ _ _ G12 G3)).
        destruct rn as [new0|e]; injection H as <- <- <- <-; split; auto.
        exists (length h2), new0. split; auto. split; auto. split; auto. split; auto.
        intros k Hk. cbn [res_map] in V3. apply for_keys_ok in V3 as (Ek & _). rewrite keys_load_state, keys_load_dict, Hkt in Ek.
        rewrite Ek. apply Hkeys. auto.
    Qed.

    Lemma leap_fresh : forall cfg h l u v st dt l' u' h' r, leap_ready I h l u v st ->
      h_leapfrog cfg prog (l, u) h st dt = ((l', u', h'), r) ->
      changed_in (named_cells st K) h h' /\
      match r with
      | Ok (d, new) => (forall c, named_cells new K c -> length h <= c < length h') /\ avoids (cells_of d) (named_cells new K)
      | Err _ => True
      end.
    Proof.
      intros cfg h l u v st dt l' u' h' r Hr H. unfold h_leapfrog in H.
      destruct (h_leap_call prog (l, u) h st dt) as [[[l1 u1] h1] r1] eqn:E1.
      destruct (leap_call_fresh h l u v st dt l1 u1 h1 r1 Hr E1) as (C1 & F1).
      destruct (leap_call_behaves I HIs prog vprog Hp h l u v st dt l1 u1 h1 r1 Hr E1) as (_ & vl1 & v1 & _ & O1).
      destruct (h_finish cfg dt h1 st r1) as [h2 r2] eqn:E2. injection H as <- <- <- <-.
      destruct Hr as (HI & Hs & Hsep & Hps & Hold).
      assert (Hs1 : state_in h1 st) by (intros c Kc; apply Hs in Kc; destruct C1; lia).
      apply h_finish_spec in E2 as (G2 & V2 & O2); auto.
      2: { destruct r1 as [[d new]|e]; auto. destruct O1 as (_ & _ & _ & _ & _ & _ & Hd & _ & new0 & -> & Hn & _). split; auto.
           intros c Kc. apply copy_untouched_cells in Kc as [Kc|Kc]; auto. }
      split. { apply (changed_trans _ _ _ _ _ _ C1 (grown_changed (named_cells st K) _ _ G2)). intros c _ [Kc|Kc]; auto. }
      destruct r2 as [[d' new']|e]; auto. destruct O2 as (d & new & -> & Hd' & Hn' & -> & Hc).
      destruct F1 as (n & new0 & -> & Ln & Fd & Fn & Fk). rewrite h_copy_idem. apply grown_length in G2.
      assert (Fc : forall c, named_cells (h_copy_untouched st new0) K c -> n <= c < length h1).
      { intros c Kc. apply Fn. exact (named_copy _ _ _ _ Fk Kc). }
      split. { intros c Kc. apply Fc in Kc. lia. }
      intros c Kc Kn. apply Fc in Kn. apply Hc in Kc as [Kc|Kc]; [apply Fd in Kc; lia|lia].
    Qed.

    (** What a call that failed left in the object. *)
    Lemma h_leap_call_failed : forall l u h st dt l' u' h' e, h_leap_call prog (l, u) h st dt = ((l', u', h'), Err e) ->
      l' = (if match ensure_timestep (hlf_dt l) dt with Ok _ => true | Err _ => false end then mkhleap (hlf_nu l) (hlf_alpha l) (Some dt) (hlf_old l) else l).
    Proof.
      intros l u h st dt l' u' h' e H. unfold h_leap_call in H. destruct (ensure_timestep (hlf_dt l) dt) as [x|e0]; [|injection H as <- _ _ _; auto].
      destruct (prog u h st dt) as [[u1 h1] [[t d]|e1]]; [|injection H as <- _ _ _; auto].
      destruct (h_convert h1 st t) as [h2 [tend|e1]]; [|injection H as <- _ _ _; auto].
      destruct (match hlf_old l with None => _ | Some old => _ end) as [h3 [new|e1]]; [discriminate H|injection H as <- _ _ _; auto].
    Qed.

    Lemma leap_call_failed : forall (l : leap T) (u : UV) st dt s' st' e, leap_call vprog (l, u) st dt = (s', st', Err e) ->
      fst s' = (if match ensure_timestep (lf_dt l) dt with Ok _ => true | Err _ => false end then mkleap (lf_nu l) (lf_alpha l) (Some dt) (lf_old l) else l).
    Proof.
      intros l u st dt s' st' e H. unfold leap_call in H. destruct (ensure_timestep (lf_dt l) dt) as [x|e0]; [|injection H as <- _ _; auto].
      destruct (vprog u st dt) as [u1 r1].
      destruct (let* td := r1 in let* tend := convert_tendencies st (fst td) in Ok (tend, snd td)) as [[tend d]|e1]; [|injection H as <- _ _; auto].
      destruct (match lf_old l with None => _ | Some old => _ end) as [st1 [new|e1]]; [discriminate H|injection H as <- _ _; auto].
    Qed.

    (** The object is the object of the run on values after a failure, too. *)
    Lemma leap_object : forall cfg h l u v st dt l' u' h' r vl' v' x, leap_ready I h l u v st -> old_apart l st K ->
      h_leapfrog cfg prog (l, u) h st dt = ((l', u', h'), r) ->
      leapfrog cfg vprog (load_leap h l, v) (load_state h st) dt = ((vl', v'), load_state h' st, x) -> vl' = load_leap h' l'.
    Proof.
      intros cfg h l u v st dt l' u' h' r vl' v' x Hr Ho H Hv. unfold h_leapfrog in H. unfold leapfrog in Hv.
      destruct (h_leap_call prog (l, u) h st dt) as [[[l1 u1] h1] r1] eqn:E1.
      destruct (leap_call_fresh h l u v st dt l1 u1 h1 r1 Hr E1) as (C1 & _).
      destruct (leap_call_behaves I HIs prog vprog Hp h l u v st dt l1 u1 h1 r1 Hr E1) as (_ & vl1 & v1 & V1 & O1).
      destruct (h_finish cfg dt h1 st r1) as [h2 r2] eqn:E2. injection H as <- <- <- <-. rewrite V1 in Hv. injection Hv as <- _ _ _.
      destruct Hr as (HI & Hs & Hsep & Hps & Hold).
      assert (Hs1 : state_in h1 st) by (intros c Kc; apply Hs in Kc; destruct C1; lia).
      apply h_finish_spec in E2 as (G2 & V2 & O2); auto.
      2: { destruct r1 as [[d new]|e]; auto. destruct O1 as (_ & _ & _ & _ & _ & _ & Hd & _ & new0 & -> & Hn & _). split; auto.
           intros c Kc. apply copy_untouched_cells in Kc as [Kc|Kc]; auto. }
      destruct r1 as [[d new]|e].
      - destruct O1 as (-> & -> & _). unfold load_leap. cbn [hlf_nu hlf_alpha hlf_dt hlf_old]. rewrite (load_state_grown h1 h2); auto.
      - apply h_leap_call_failed in E1. cbn [load_stepped] in V1. apply leap_call_failed in V1. cbn [fst] in V1.
        change (lf_dt (load_leap h l)) with (hlf_dt l) in V1. rewrite V1, E1. clear V1 E1.
        assert (Eo : forall old, hlf_old l = Some old -> load_state h2 old = load_state h old).
        { intros old E. rewrite E in Hold. destruct Hold as (Ho1 & _). unfold old_apart in Ho. rewrite E in Ho.
          assert (C2 : changed_in (named_cells st K) h h2).
          { apply (changed_trans _ _ _ _ _ _ C1 (grown_changed (named_cells st K) _ _ G2)). intros c _ [Kc|Kc]; auto. }
          apply (load_changed_state _ _ _ _ C2); auto. }
        destruct (ensure_timestep (hlf_dt l) dt) as [y|e0]; unfold load_leap; cbn [hlf_nu hlf_alpha hlf_dt hlf_old lf_nu lf_alpha lf_old];
          destruct (hlf_old l) as [old|] eqn:E; auto; rewrite (Eo old) by auto; reflexivity.
    Qed.

    Lemma leap_old_is : forall cfg h l u st dt l' u' h' d new, h_leapfrog cfg prog (l, u) h st dt = ((l', u', h'), Ok (d, new)) -> hlf_old l' = Some st.
    Proof.
      intros cfg h l u st dt l' u' h' d new H. unfold h_leapfrog in H. destruct (h_leap_call prog (l, u) h st dt) as [[[l1 u1] h1] r1] eqn:E1.
      destruct (h_finish cfg dt h1 st r1) as [h2 r2] eqn:E2. injection H as <- <- <- ->.
      destruct r1 as [[d1 new1]|e]; [|exfalso; unfold h_finish in E2; discriminate E2].
      unfold h_leap_call in E1. destruct (ensure_timestep (hlf_dt l) dt) as [x|e0]; [|discriminate E1].
      destruct (prog u h st dt) as [[u2 h3] [[t dd]|e1]]; [|discriminate E1].
      destruct (h_convert h3 st t) as [h4 [tend|e1]]; [|discriminate E1].
      destruct (match hlf_old l with None => _ | Some old => _ end) as [h5 [new2|e1]]; [|discriminate E1]. injection E1 as <- _ _ _ _. reflexivity.
    Qed.

    Lemma leap_ready_grown : forall h h' l u v st, leap_ready I h l u v st -> grown h h' -> leap_ready I h' l u v st.
    Proof.
      intros h h' l u v st (HI & Hs & Hsep & Hps & Hold) G. split. { exact (stable_grown I HIs _ _ _ _ _ HI G). }
      split. { exact (state_in_grown _ _ _ G Hs). } split; auto. split. { rewrite (load_state_grown h h') by auto. auto. }
      destruct (hlf_old l) as [old|]; auto. destruct Hold as (Ho1 & Ho2 & Ho3). split. { exact (state_in_grown _ _ _ G Ho1). } split; auto.
      rewrite (load_state_grown h h') by auto. auto.
    Qed.

    Lemma In_time : forall t (st : hstate) k a, In (k, HDA a) (dset "time" (HTime t) st) -> In (k, HDA a) st.
    Proof. intros t st k a H. apply In_dset_inv in H as [(_ & E)|H]; [discriminate E|exact H]. Qed.

    Lemma leap_ready_time : forall h l u v st t, leap_ready I h l u v st -> leap_ready I h l u v (dset "time" (HTime t) st).
    Proof.
      intros h l u v st t (HI & Hs & (Hn & Hc & Hd) & (Hp1 & Hp2) & Hold).
      split. { apply (HIs (state_cells st) _ h h u v HI). apply changed_refl. intros c _ Kc. exact (time_cells _ _ _ Kc). }
      split. { intros c Kc. apply Hs. exact (time_cells _ _ _ Kc). }
      split. { split. apply NoDup_dset; auto. split. intros k a Ka. apply (Hc k). exact (In_time _ _ _ _ Ka).
               intros k j a b Ka Kb N. apply (Hd k j); auto; eapply In_time; eauto. }
      split. { rewrite load_state_dset. split. apply NoDup_dset; auto. intros k a Ka. destruct (String.eqb_spec k "time") as [->|N].
               - rewrite dget_dset_eq in Ka. discriminate Ka.
               - rewrite dget_dset_neq in Ka by auto. eauto. }
      destruct (hlf_old l) as [old|]; auto. destruct Hold as (Ho1 & Ho2 & Ho3). split; auto. split; auto.
      intros k j a b Ka Kb N. apply (Ho2 k j); auto. exact (In_time _ _ _ _ Ka).
    Qed.

    Context {WH WV : Type} (J : invariant (T:=T) WH WV) (HJs : stable J).
    Variables (hstore : hmonitor T WH) (store : WV -> state T -> WV * res unit).
    Hypothesis Hmon : monitor_like J hstore store.

    (** C99: the whole run. *)
    Lemma main_heap_leap_run : forall n cfg stop dt h l u v m vm st l' u' m' h' log r,
      leap_ready I h l u v st -> J (named_cells st K) h m vm ->
      h_leap_main_loop n cfg prog [] hstore stop dt (l, u) m h st = (((l', u'), m', h', log), r) ->
      changed_in (named_cells st K) h h' /\
      (exists vl' v' vm', leap_main_loop n cfg vprog [] store stop dt (load_leap h l, v) vm (load_state h st) =
                            (((vl', v'), vm', map (load_state h') log), load_end h' r) /\
         J no_cells h' m' vm' /\ I no_cells h' u' v' /\ (old_apart l st K -> vl' = load_leap h' l') /\
         forall last, r = Some (Ok last) -> vl' = load_leap h' l' /\ leap_ready I h' l' u' v' last) /\
      (forall S, In S log -> state_in h' S).
    Proof.
      induction n as [|n IH]; intros cfg stop dt h l u v m vm st l' u' m' h' log r HL HJ H; cbn [h_leap_main_loop leap_main_loop] in *;
        assert (I0 : I no_cells h u v) by (apply (HIs (state_cells st) _ h h u v (proj1 HL)); [apply changed_refl|intros c _ []]).
      - injection H as <- <- <- <- <- <-. split. apply changed_refl. split; [|intros S []].
        exists (load_leap h l), v, vm. split; auto. split; [|split; [exact I0|split; [auto|intros s E; discriminate E]]]. apply (HJs _ _ h h m vm HJ). apply changed_refl. intros c _ [].
      - rewrite h_time_load. destruct (h_state_time st) as [t|e].
        2: { injection H as <- <- <- <- <- <-. split. apply changed_refl. split; [|intros S []].
             exists (load_leap h l), v, vm. split; auto. split; [|split; [exact I0|split; [auto|intros s E; discriminate E]]]. apply (HJs _ _ h h m vm HJ). apply changed_refl. intros c _ []. }
        destruct (t <? stop)%Z.
        2: { injection H as <- <- <- <- <- <-. split. apply changed_refl. split; [|intros S []].
             exists (load_leap h l), v, vm. split; auto. split; [|split; [exact I0|split; [auto|intros s E; injection E as <-; auto]]]. apply (HJs _ _ h h m vm HJ). apply changed_refl. intros c _ []. }
        destruct (h_leapfrog cfg prog (l, u) h st dt) as [[[l1 u1] h1] r1] eqn:E1.
        destruct (main_leap_memory I HIs prog vprog Hp cfg h l u v st dt l1 u1 h1 r1 HL E1) as (_ & vl1 & v1 & V1 & O1).
        destruct (leap_fresh cfg h l u v st dt l1 u1 h1 r1 HL E1) as (C1 & F1). pose proof (fun Ho => leap_object cfg h l u v st dt l1 u1 h1 r1 vl1 v1 _ HL Ho E1 V1) as Ob. rewrite V1.
        destruct r1 as [[d new]|e]; cbn [load_stepped].
        2: { injection H as <- <- <- <- <- <-. split; auto. split; [|intros S []].
             exists vl1, v1, vm. split; auto. split; [|split; [|split; [exact Ob|intros s E; discriminate E]]].
             - apply (HJs _ _ h h1 m vm HJ C1). intros c _ [].
             - apply (HIs _ _ h1 h1 u1 v1 O1). apply changed_refl. intros c _ []. }
        destruct O1 as (-> & HL1 & Hd & _). destruct F1 as (Fn & Fd). cbn [h_run_processes run_processes] in *.
        assert (HJ1 : J (named_cells new K) h1 m vm).
        { apply (HJs _ _ h h1 m vm HJ C1). intros c Lc Kc. apply Fn in Kc. lia. }
        assert (Hs1 : state_in h1 st). { destruct HL as (_ & Hs & _). intros c Kc. apply Hs in Kc. destruct C1. lia. }
        assert (Si : state_in h1 (h_update_all [d] st)).
        { intros c Kc. apply update_all_cells in Kc as [Kc|(d' & [<-|[]] & Kc)]; auto. }
        assert (Sx : avoids (state_cells (h_update_all [d] st)) (named_cells new K)).
        { intros c Kc Kn. apply update_all_cells in Kc as [Kc|(d' & [<-|[]] & Kc)]; [|exact (Fd c Kc Kn)].
          apply Fn in Kn. destruct HL as (_ & Hs & _). apply Hs in Kc. lia. }
        assert (Sv : update_all [load_dict h1 d] (load_state h1 st) = load_state h1 (h_update_all [d] st)) by (rewrite load_update_all; reflexivity).
        rewrite Sv. set (st1 := h_update_all [d] st) in *.
        destruct (hstore m h1 st1) as [[m2 h2] r2] eqn:E2.
        destruct (Hmon (named_cells new K) h1 m vm st1 m2 h2 r2 HJ1 ltac:(intros c Kc; apply Fn in Kc; lia) Si Sx E2) as (G2 & vm2 & V2 & J2). rewrite V2.
        assert (C2 : changed_in (named_cells st K) h h2).
        { apply (changed_trans _ _ _ _ _ _ C1 (grown_changed (named_cells st K) _ _ G2)). intros c _ [Kc|Kc]; auto. }
        assert (J2' : J no_cells h2 m2 vm2). { apply (HJs _ _ h2 h2 m2 vm2 J2). apply changed_refl. intros c _ []. }
        pose proof (state_in_grown _ _ _ G2 Si) as Si2.
        assert (Sl2 : load_state h2 st1 = load_state h1 st1) by (apply load_state_grown; auto).
        assert (I2 : I no_cells h2 u1 v1). { apply (HIs _ _ h1 h2 u1 v1 (proj1 HL1) (grown_changed _ _ _ G2)). intros c _ []. }
        assert (Ll : load_leap h2 l1 = load_leap h1 l1).
        { unfold load_leap. destruct (hlf_old l1) as [old|] eqn:Eo; auto. rewrite (load_state_grown h1 h2); auto.
          destruct HL1 as (_ & _ & _ & _ & Ho). rewrite Eo in Ho. apply Ho. }
        destruct r2 as [x|e].
        2: { injection H as <- <- <- <- <- <-. split; auto. split.
             - exists (load_leap h1 l1), v1, vm2. cbn [map load_end]. rewrite Sl2. split; auto. split; auto. split; auto. split; [symmetry; exact Ll|intros s E; discriminate E].
             - intros S [<-|[]]; auto. }
        rewrite h_time_load. destruct (h_state_time st1) as [t1|e].
        2: { injection H as <- <- <- <- <- <-. split; auto. split.
             - exists (load_leap h1 l1), v1, vm2. cbn [map load_end]. rewrite Sl2. split; auto. split; auto. split; auto. split; [symmetry; exact Ll|intros s E; discriminate E].
             - intros S [<-|[]]; auto. }
        destruct (h_leap_main_loop n cfg prog [] hstore stop dt (l1, u1) m2 h2 (dset "time" (HTime (t1 + dt)) new)) as [[[[[l3 u3] m3] h3] log3] r3] eqn:E3.
        injection H as <- <- <- <- <- <-.
        pose proof (leap_ready_time h2 l1 u1 v1 new (t1 + dt) (leap_ready_grown _ _ _ _ _ _ HL1 G2)) as HL2.
        assert (Nn : forall c, named_cells (dset "time" (HTime (t1 + dt)) new) K c -> named_cells new K c).
        { intros c (k & a & Hk & Ha & Hc). exists k, a. split; auto. split; auto. exact (In_time _ _ _ _ Ha). }
        assert (J2n : J (named_cells (dset "time" (HTime (t1 + dt)) new) K) h2 m2 vm2).
        { apply (HJs _ _ h2 h2 m2 vm2 J2). apply changed_refl. intros c _ Kc. exact (Nn c Kc). }
        destruct (IH cfg stop dt h2 l1 u1 v1 m2 vm2 _ l3 u3 m3 h3 log3 r3 HL2 J2n E3) as (C3 & (vl3 & v3 & vm3 & V3 & J3 & I3 & Q3 & F3) & L3).
        assert (Ln : load_state h2 new = load_state h1 new). { apply load_state_grown; auto. destruct HL1 as (_ & Ho & _). exact Ho. }
        rewrite load_state_dset in V3. cbn [load_val] in V3. rewrite Ll, Ln in V3. rewrite V3.
        assert (C3n : changed_in (named_cells new K) h2 h3) by (apply (changed_weaken _ _ _ _ C3); intros c _ Kc; auto).
        assert (Oa : old_apart l1 (dset "time" (HTime (t1 + dt)) new) K).
        { unfold old_apart. rewrite (leap_old_is cfg h l u st dt l1 u1 h1 d new E1). intros c Kc Kn. apply Nn, Fn in Kn. destruct HL as (_ & Hs & _). apply Hs in Kc. lia. }
        split. { apply (changed_trans _ _ _ _ _ _ C2 C3n). intros c Lc [Kc|Kc]; auto. apply Fn in Kc. lia. }
        split.
        + exists vl3, v3, vm3. split; [|split; [exact J3|split; [exact I3|split; [intros _; apply Q3; exact Oa|exact F3]]]]. cbn [map]. do 3 f_equal. rewrite <- Sl2. symmetry. apply (load_changed_state _ _ _ _ C3n); auto.
        + intros S [<-|Kl]; auto. intros c Kc. apply Si2 in Kc. destruct C3. lia.
    Qed.
  End Step.
End Leap.
