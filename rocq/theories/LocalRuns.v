(** Stepper objects and runs with Leapfrog, with quantities that no component reads (C82). *)
From Coq Require Import String List Bool Arith Lia ZArith QArith Qcanon.
From Verif Require Import Prelude PreludeFacts ArithM NdArray NdFacts Units DataArrayM Tracers Components CallFacts ComponentsMain Composite Steppers Basic MainLoop LeapLoop SpecComponents SpecCalls SpecSteppers SteppersFacts RKFacts MainLoopFacts SpecLocal LocalFacts LocalRK LocalMain.
Import ListNotations.
Open Scope string_scope.
Open Scope nat_scope.
Open Scope list_scope.

Section LocalRuns.
  Context {T : Type} {A : Arith T} {R : Registry}.
  Implicit Types st new : state T.

  (** A Stepper returns the very same, with all it names. *)
  Lemma main_local_stepper : forall {U} names g (c : scomp) (ac : U -> dict (rval T) -> Z -> U * res (dict (nd T) * dict (nd T))) (u : U) st st' dt,
    In "time" names -> incl (keys (s_inp c)) names -> incl (read_tracers g (s_packer c)) names -> agree_on names st st' ->
    stepper_process g c ac u st dt = stepper_process g c ac u st' dt.
  Proof.
    intros U names g c ac u st st' dt Ht Hi Hr H. unfold stepper_process.
    rewrite (proj2 (proj2 (@calls_ext T A R)) U g c ac u st st' dt); [reflexivity| | |].
    - intros n Hn. apply H, Hi; auto.
    - intros n [<-|[]]. apply H; auto.
    - intros n Hn. apply H, Hr; auto.
  Qed.

  Lemma main_local_process_stepper : forall {U} (P : state T -> Prop) names g (c : scomp) (ac : U -> dict (rval T) -> Z -> U * res (dict (nd T) * dict (nd T))) dt,
    In "time" names -> incl (keys (s_inp c)) names -> incl (read_tracers g (s_packer c)) names ->
    (forall u st d new, snd (stepper_process g c ac u st dt) = Ok (d, new) -> P new) ->
    respects P eq names dt (stepper_process g c ac).
  Proof.
    intros U P names g c ac dt Ht Hi Hr HP u u' st st' <- _ _ H. rewrite (main_local_stepper names g c ac u st st' dt Ht Hi Hr H).
    split; [reflexivity|]. split; [apply same_result_refl|]. intros d new [E|E]; eapply HP; exact E.
  Qed.

  (** The main loop with a Leapfrog object as its first process. *)
  Lemma local_leap_loop : forall {U V} (P : state T -> Prop) (rel : V -> V -> Prop) names cfg (prog : icaller U) (qs : list (process (T:=T) V)) store stop dt,
    reads names prog -> changes names prog -> incl (keys (ts_out cfg)) names -> In "time" names ->
    (forall p, In p qs -> respects P rel names dt p) -> (forall t st, P st -> P (dset "time" (VTime t) st)) ->
    (forall s st d new, P st -> snd (leapfrog cfg prog s st dt) = Ok (d, new) -> P new) ->
    (forall v v' S S', rel v v' -> agree_on names S S' -> rel (fst (store v S)) (fst (store v' S')) /\ snd (store v S) = snd (store v' S')) ->
    forall n l l' u v v' st st', leap_agree names l l' -> rel v v' -> P st -> P st' -> agree_on names st st' ->
    let run := leap_main_loop n cfg prog qs store stop dt (l, u) v st in
    let run' := leap_main_loop n cfg prog qs store stop dt (l', u) v' st' in
    snd (fst (fst (fst run))) = snd (fst (fst (fst run'))) /\ rel (snd (fst (fst run))) (snd (fst (fst run'))) /\
    Forall2 (agree_on names) (snd (fst run)) (snd (fst run')) /\ same_end names (snd run) (snd run').
  Proof.
    intros U V P rel names cfg prog qs store stop dt Hr Hc Hk Ht Hp HPt HPl Hs n. induction n as [|n IH]; intros l l' u v v' st st' Hl Hv HP HP' H; cbn zeta; cbn [leap_main_loop].
    { cbn. auto. }
    assert (Tm : forall (s s' : state T), agree_on names s s' -> state_time s = state_time s') by (intros s s' K; unfold state_time, dgetE; rewrite (K "time" Ht); auto).
    rewrite <- (Tm st st' H). destruct (state_time st) as [t|e]; [|cbn; auto]. destruct (t <? stop)%Z; [|cbn; auto].
    pose proof (HPl (l, u) st) as HL. pose proof (HPl (l', u) st') as HL'.
    destruct (leapfrog cfg prog (l, u) st dt) as [[[l1 u1] st1] r1] eqn:E. destruct (leapfrog cfg prog (l', u) st' dt) as [[[l1' u1'] st1'] r1'] eqn:E'.
    destruct (leapfrog_agree names cfg prog l l' u st st' dt _ _ _ _ _ _ Hr Hc Hk Hl H E E') as (F1 & F2 & F3 & F4). cbn [fst snd] in F1, F2, HL, HL'. subst u1'.
    destruct r1 as [[d new]|e], r1' as [[d' new']|e']; cbn in F4; try contradiction; [|subst e'; cbn; auto]. destruct F4 as [<- Fn].
    destruct (run_processes_agree P rel names dt qs Hp v v' new new' Hv (HL _ _ HP eq_refl) (HL' _ _ HP' eq_refl) Fn) as [K1 K2].
    destruct (run_processes qs v new dt) as [w1 r]. destruct (run_processes qs v' new' dt) as [w1' r']. cbn [fst snd] in *.
    destruct r as [[ds nx]|e], r' as [[ds' nx']|e']; try contradiction; [|subst e'; cbn; auto].
    destruct K2 as (<- & Kn & Pn & Pn'). pose proof (update_all_agree names (d :: ds) st1 st1' F3) as Hu.
    destruct (Hs w1 w1' _ _ K1 Hu) as [S1 S2].
    destruct (store w1 (update_all (d :: ds) st1)) as [w2 rs]. destruct (store w1' (update_all (d :: ds) st1')) as [w2' rs']. cbn [fst snd] in *. subst rs'.
    destruct rs as [[]|e]; [|cbn; auto]. rewrite <- (Tm _ _ Hu). destruct (state_time (update_all (d :: ds) st1)) as [t1|e]; [|cbn; auto].
    assert (Hn : agree_on names (dset "time" (VTime (t1 + dt)) nx) (dset "time" (VTime (t1 + dt)) nx')).
    { intros X HX. destruct (string_dec X "time") as [->|N]; [rewrite !dget_dset_eq; auto|rewrite !dget_dset_neq; auto]. }
    destruct (IH l1 l1' u1 w2 w2' _ _ F1 S1 (HPt (t1 + dt)%Z nx Pn) (HPt (t1 + dt)%Z nx' Pn') Hn) as (I0 & I1 & I2 & I3). cbn zeta in I0, I1, I2, I3.
    destruct (leap_main_loop n cfg prog qs store stop dt (l1, u1) w2 (dset "time" (VTime (t1 + dt)) nx)) as [[[s3 w3] log] r3].
    destruct (leap_main_loop n cfg prog qs store stop dt (l1', u1) w2' (dset "time" (VTime (t1 + dt)) nx')) as [[[s3' w3'] log'] r3']. cbn [fst snd] in *. auto.
  Qed.

  Lemma main_local_leap_loop : forall {U V} (P : state T -> Prop) (rel : V -> V -> Prop) names cfg (prog : icaller U) (qs : list (process (T:=T) V)) store stop dt nu alpha (u : U),
    reads names prog -> changes names prog -> incl (keys (ts_out cfg)) names -> In "time" names ->
    (forall p, In p qs -> respects P rel names dt p) -> (forall t st, P st -> P (dset "time" (VTime t) st)) ->
    (forall s st d new, P st -> snd (leapfrog cfg prog s st dt) = Ok (d, new) -> P new) ->
    (forall v v' S S', rel v v' -> agree_on names S S' -> rel (fst (store v S)) (fst (store v' S')) /\ snd (store v S) = snd (store v' S')) ->
    forall n v v' st st', rel v v' -> P st -> P st' -> agree_on names st st' ->
    let run := leap_main_loop n cfg prog qs store stop dt (new_leap nu alpha, u) v st in
    let run' := leap_main_loop n cfg prog qs store stop dt (new_leap nu alpha, u) v' st' in
    snd (fst (fst (fst run))) = snd (fst (fst (fst run'))) /\ rel (snd (fst (fst run))) (snd (fst (fst run'))) /\
    Forall2 (agree_on names) (snd (fst run)) (snd (fst run')) /\ same_end names (snd run) (snd run').
  Proof.
    intros U V P rel names cfg prog qs store stop dt nu alpha u Hr Hc Hk Ht Hp HPt HPl Hs n v v' st st' Hv HP HP' H.
    eapply local_leap_loop; eauto. cbn. repeat split; auto.
  Qed.
End LocalRuns.
