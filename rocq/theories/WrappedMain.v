(** Wrapped components in SSPRungeKutta (C93). *)
From Coq Require Import String List Bool Arith ZArith QArith Qcanon Lia.
From Verif Require Import Prelude PreludeFacts ArithM NdArray NdFacts Units DataArrayM GetNp Components Composite Steppers Basic
  SpecBasic UpdateFreq SpecUnits UnitsFacts SpecDa DaFacts SpecComposite CompositeMain SpecSteppers SteppersFacts ABFacts RKFacts
  StepAlgebra StepRuns StepExact StepSteady Wrapped SpecWrapped WrappedFacts.
Import ListNotations.
Open Scope string_scope.
Open Scope nat_scope.
Open Scope list_scope.

Section Once.
  Context {T : Type} {A : Arith T} {R : Registry}.

  (** ** The time of the stages *)

  Lemma for_keys_time : forall (f : string -> res (da T)) ks new (e : exn), f "time" = Err e -> for_keys f ks = Ok new -> dget "time" new = None.
  Proof.
    intros f ks. unfold for_keys. induction ks as [|k ks IH]; intros new e Hf H; cbn [mapM] in H; [injection H as <-; auto|].
    apply bind_ok in H as (kv & Hk & H). apply bind_ok in Hk as (v & Hv & Hk). injection Hk as <-.
    apply bind_ok in H as (out & Ho & H). injection H as <-. cbn [dget].
    destruct (String.eqb "time" k) eqn:E; [|eauto]. apply String.eqb_eq in E. subst k. rewrite Hf in Hv. discriminate Hv.
  Qed.

  Lemma perform_time : forall order hist (st new : state T) dt t, dget "time" st = Some (VTime t) ->
    perform_step order hist st dt = Ok new -> dget "time" new = None.
  Proof.
    intros order hist st new dt t Ht H. assert (E : state_da "time" st = Err EType) by (unfold state_da, dgetE; rewrite Ht; reflexivity).
    unfold perform_step in H. destruct (Nat.min order (length hist)) as [|[|[|[|[|n]]]]]; try discriminate H.
    - destruct (nth_error (rev hist) 0) as [d|]; [|discriminate H].
      unfold step_forward_euler in H. eapply for_keys_time; [|exact H]. unfold euler_one. rewrite E. reflexivity.
    - apply bind_ok in H as (ks & _ & H). eapply for_keys_time; [|exact H]. unfold ab2_one. rewrite E. reflexivity.
    - apply bind_ok in H as (ks & _ & H). eapply for_keys_time; [|exact H]. unfold ab3_one. rewrite E. reflexivity.
    - apply bind_ok in H as (ks & _ & H). eapply for_keys_time; [|exact H]. unfold ab4_one. rewrite E. reflexivity.
  Qed.

  Lemma inner_time : forall {U} (prog : icaller (T:=T) U) s (st : state T) dt s' diag new t, dget "time" st = Some (VTime t) ->
    inner_euler prog s st dt = (s', Ok (diag, new)) -> dget "time" new = Some (VTime t).
  Proof.
    intros U prog [a u] st dt s' diag new t Ht H. unfold inner_euler in H.
    destruct (ab_call prog (a, u) st dt) as [[a1 u1] [[d0 n0]|e]] eqn:Ec; cbn [bind fst snd] in H; [|discriminate].
    injection H as <- <- <-. apply ab_call_ok in Ec as (t0 & tt & new0 & _ & _ & _ & Hs & -> & _).
    rewrite copy_untouched_idem, copy_untouched_get, (perform_time _ _ _ _ _ _ Ht Hs). auto.
  Qed.

  Lemma multiply_time : forall x (st out : state T), multiply x st = Ok out -> dget "time" out = dget "time" st.
  Proof.
    intros x st out H. unfold multiply in H. rewrite <- (proj1 (time_first_get st)).
    revert H. generalize (time_first st) as acc. induction st as [|[k v] st IH]; cbn [foldM]; intros acc H; [injection H as <-; auto|].
    apply bind_ok in H as (acc1 & H1 & H2). apply IH in H2. rewrite H2. unfold multiply_step in H1. cbn [fst snd] in H1.
    destruct (String.eqb k "time") eqn:E; [injection H1 as <-; auto|]. destruct v; [|discriminate H1]. injection H1 as <-.
    apply String.eqb_neq in E. rewrite dget_dset_neq; auto.
  Qed.

  Lemma add_time : forall (st1 st2 out : state T), add_states st1 st2 = Ok out -> dget "time" out = dget "time" st1.
  Proof.
    intros st1 st2 out H. unfold add_states in H. rewrite <- (proj1 (time_first_get st1)).
    revert H. generalize (time_first st1) as acc. induction st1 as [|[k v] st IH]; cbn [foldM]; intros acc H; [injection H as <-; auto|].
    apply bind_ok in H as (acc1 & H1 & H2). apply IH in H2. rewrite H2. unfold add_states_step in H1. cbn [fst snd] in H1.
    destruct (String.eqb k "time") eqn:E; [injection H1 as <-; auto|]. destruct v; [|discriminate H1].
    apply bind_ok in H1 as (b & _ & H1). apply bind_ok in H1 as (sm & _ & H1). injection H1 as <-.
    apply String.eqb_neq in E. rewrite dget_dset_neq; auto.
  Qed.

  (** ** The stages call the components in the same program state *)

  Lemma inner_calls : forall {U} (prog : icaller (T:=T) U) a u (st : state T) dt s' r, inner_euler prog (a, u) st dt = (s', r) ->
    (snd s' = u /\ exists e, r = Err e) \/ (exists u' o, prog u st dt = (u', o) /\ snd s' = u' /\ (forall x, r = Ok x -> exists y, o = Ok y)).
  Proof.
    intros U prog a u st dt s' r H. unfold inner_euler, ab_call in H.
    destruct (ensure_timestep (ab_dt a) dt); [|left; injection H as <- <-; eauto]. right.
    destruct (prog u st dt) as [u' o]. exists u', o. split; auto.
    destruct o as [[tend diag]|e]; cbn [bind fst snd] in H.
    2:{ injection H as <- <-. split; auto. intros x E. discriminate E. }
    destruct (convert_tendencies st tend); cbn [bind] in H; [|injection H as <- <-; eauto].
    destruct (perform_step _ _ st dt); injection H as <- <-; eauto.
  Qed.

  (** Whatever holds of the program once the components have been called, and they keep at
      the time [t], holds after a step. *)
  Lemma rk_keeps : forall {U} cfg (prog : icaller (T:=T) U) (P : U -> Prop) k u (st : state T) dt s' r t, dget "time" st = Some (VTime t) ->
    (forall u1 o, prog u st dt = (u1, Ok o) -> P u1) ->
    (forall u st u1 o, P u -> dget "time" st = Some (VTime t) -> prog u st dt = (u1, o) -> P u1) ->
    ssp_rk cfg prog (k, u) st dt = (s', r) ->
    snd s' = u \/ (exists e, prog u st dt = (snd s', Err e)) \/ P (snd s').
  Proof.
    intros U cfg prog P k u st dt s' r t Ht H1 H2 H. unfold ssp_rk in H.
    destruct ((if Nat.eqb (rk_stages k) 2 then rk2 else rk3) prog (rk_euler k, u) st dt) as [[e' u'] r'] eqn:E. injection H as <- _. cbn [snd].
    assert (G : forall a r0 e1 u1, inner_euler prog (a, u) st dt = ((e1, u1), r0) ->
                 (forall x, r0 = Ok x -> P u1) /\ (u1 = u \/ (exists e, prog u st dt = (u1, Err e)) \/ P u1)).
    { intros a r0 e1 u1 E0. apply inner_calls in E0 as [(E0 & e & ->)|(u2 & o & E0 & E2 & Hr)]; cbn [snd] in *; subst.
      - split; [intros x K; discriminate K|auto].
      - destruct o as [o|e]; [split; eauto|]. split; [|eauto]. intros x K. destruct (Hr x K) as (y & Hy). discriminate Hy. }
    assert (G2 : forall a u1 st1 r0 e2 u2, P u1 -> dget "time" st1 = Some (VTime t) -> inner_euler prog (a, u1) st1 dt = ((e2, u2), r0) -> P u2).
    { intros a u1 st1 r0 e2 u2 HP Ht1 E0. apply inner_calls in E0 as [(E0 & _)|(u3 & o & E0 & E2 & _)]; cbn [snd] in *; subst; eauto. }
    destruct (Nat.eqb (rk_stages k) 2).
    - unfold rk2 in E. destruct (inner_euler prog (rk_euler k, u) st dt) as [[e1 u1] [[d1 st1]|x1]] eqn:E1; destruct (G _ _ _ _ E1) as (G3 & G4).
      2:{ injection E as <- <- _. auto. }
      pose proof (inner_time _ _ _ _ _ _ _ _ Ht E1) as Ht1. specialize (G3 _ eq_refl).
      destruct (inner_euler prog (e1, u1) st1 dt) as [[e2 u2] r2] eqn:E2. injection E as <- <- _. right. right.
      eapply G2; [exact G3| |exact E2]; auto.
    - unfold rk3 in E. destruct (inner_euler prog (rk_euler k, u) st dt) as [[e1 u1] [[d1 st1]|x1]] eqn:E1; destruct (G _ _ _ _ E1) as (G3 & G4).
      2:{ injection E as <- <- _. auto. }
      pose proof (inner_time _ _ _ _ _ _ _ _ Ht E1) as Ht1. specialize (G3 _ eq_refl).
      destruct (inner_euler prog (e1, u1) st1 dt) as [[e2 u2] r2] eqn:E2. pose proof (G2 _ _ _ _ _ _ G3 Ht1 E2) as P2.
      destruct (let* dn := r2 in _) as [st2|x2] eqn:Es; [|injection E as <- <- _; auto].
      assert (Ht2 : dget "time" st2 = Some (VTime t)).
      { apply bind_ok in Es as (dn & _ & Es). apply bind_ok in Es as (ma & Hma & Es). apply bind_ok in Es as (mb & _ & Es).
        rewrite (add_time _ _ _ Es), (multiply_time _ _ _ Hma). auto. }
      destruct (inner_euler prog (e2, u2) st2 dt) as [[e3 u3] r3] eqn:E3. injection E as <- <- _. right. right.
      eapply G2; [exact P2| |exact E3]; auto.
  Qed.

  (** ** Evaluations *)

  Lemma call_evaluates : forall {U O} (component : U -> state T -> option Z -> U * res O) u l st implicit dt u' l' r,
    call_component (recording component) (u, l) st (step_of implicit dt) = ((u', l'), r) ->
    exists tried, l' = l ++ tried /\ evaluated_once implicit dt tried.
  Proof.
    intros U O component u l st implicit dt u' l' r H. unfold call_component, recording in H. cbn [fst snd] in H.
    destruct implicit; cbn [step_of] in H.
    - destruct (component u st (Some dt)) as [u1 r1]. destruct r1 as [o|e].
      { injection H as <- <- _. eexists; split; [reflexivity|]. left. eexists. reflexivity. }
      destruct e; try (injection H as <- <- _; eexists; split; [reflexivity|]; left; eexists; reflexivity).
      cbn [fst snd] in H. destruct (component u1 st None) as [u2 r2]. injection H as <- <- _.
      rewrite <- app_assoc. eexists; split; [reflexivity|]. right. split; [reflexivity|]. eexists. reflexivity.
    - destruct (component u st None) as [u1 r1]. injection H as <- <- _. eexists; split; [reflexivity|]. left. eexists. reflexivity.
  Qed.

  Lemma update_due_cases : forall {O} interval (w : ufw O) (st : state T) t, dget "time" st = Some (VTime t) ->
    (in_use interval w t /\ update_due interval w st = Ok false) \/ (~ in_use interval w t /\ update_due interval w st = Ok true).
  Proof.
    intros O interval w st t Ht. unfold in_use, update_due. destruct (uf_last w) as [t0|].
    - assert (E : state_time st = Ok t) by (unfold state_time, dgetE; rewrite Ht; reflexivity). rewrite E. cbn [bind].
      destruct (Z.leb_spec (t0 + interval) t).
      + right. split; auto. intros (t1 & E1 & Hl). injection E1 as <-. lia.
      + left. split; auto. exists t0. split; auto.
    - right. split; auto. intros (t0 & E0 & _). discriminate E0.
  Qed.

  Section Wrapper.
    Context {U : Type} (component : U -> state T -> option Z -> U * res (tends T)) (interval : Z) (Hi : (0 < interval)%Z).

    Lemma wrapper_effect : forall implicit dt w u l st t w' u' l' r, dget "time" st = Some (VTime t) ->
      wrapper_call (recording component) interval (step_of implicit dt) (w, (u, l)) st = ((w', (u', l')), r) ->
      (in_use interval w t /\ w' = w /\ l' = l) \/
      (~ in_use interval w t /\ (exists tried, l' = l ++ tried /\ evaluated_once implicit dt tried) /\ (forall o, r = Ok o -> in_use interval w' t)).
    Proof.
      intros implicit dt w u l st t w' u' l' r Ht H. unfold wrapper_call, uf_call in H.
      destruct (update_due_cases interval w st t Ht) as [(Hu & E)|(Hu & E)]; rewrite E in H.
      { left. injection H as <- <- <- _. auto. }
      right. split; auto.
      destruct (call_component (recording component) (u, l) st (step_of implicit dt)) as [[u1 l1] r1] eqn:Ec.
      pose proof (call_evaluates _ _ _ _ _ _ _ _ _ Ec) as Hev.
      assert (Es : state_time st = Ok t) by (unfold state_time, dgetE; rewrite Ht; reflexivity).
      destruct r1 as [o|e].
      - rewrite Es in H. cbn [bind] in H. injection H as <- <- <- <-. split; auto. intros o' _. exists t. split; auto. lia.
      - injection H as <- <- <- <-. split; auto. intros o' E'. discriminate E'.
    Qed.

    Lemma wrapped_effect : forall implicit pre post dt w u l st t w' u' l' r, dget "time" st = Some (VTime t) ->
      wrapped_among (recording component) interval implicit (map unrecorded pre) (map unrecorded post) (w, (u, l)) st dt = ((w', (u', l')), r) ->
      (in_use interval w t /\ w' = w /\ l' = l) \/
      (~ in_use interval w t /\ (l' = l \/ exists tried, l' = l ++ tried /\ evaluated_once implicit dt tried) /\
       (forall o, r = Ok o -> in_use interval w' t)).
    Proof.
      intros implicit pre post dt w u l st t w' u' l' r Ht H. rewrite wrapped_split in H. rewrite loop_unrecorded in H.
      destruct (composite_loop (map (called dt) pre) u st [] []) as [u1 [[t1 d1]|e]].
      2:{ injection H as <- <- <- <-. destruct (update_due_cases interval w st t Ht) as [(Hu & _)|(Hu & _)]; [left; auto|right].
          split; auto. split; auto. intros o E. discriminate E. }
      destruct (wrapper_call (recording component) interval (step_of implicit dt) (w, (u1, l)) st) as [[w2 [u2 l2]] r2] eqn:Ew.
      assert (K : w' = w2 /\ l' = l2 /\ (forall o, r = Ok o -> exists o', r2 = Ok o')).
      { destruct r2 as [td|e]; cbn [bind] in H; [|injection H as <- <- <- <-; repeat split; auto; intros o E; discriminate E].
        destruct (update_dict_by_adding_another t1 (fst td)) as [d|e]; cbn [bind] in H; [|injection H as <- <- <- <-; repeat split; eauto].
        rewrite loop_unrecorded in H. destruct (composite_loop (map (called dt) post) u2 st d (dupdate d1 (snd td))) as [u3 r3].
        injection H as <- <- <- <-. repeat split; eauto. }
      destruct K as (-> & -> & Kr).
      destruct (wrapper_effect implicit dt w u1 l st t w2 u2 l2 r2 Ht Ew) as [(K1 & K2 & K3)|(K1 & K2 & K3)]; [left; auto|right].
      split; auto. split; auto. intros o E. destruct (Kr o E) as (o' & E'). eauto.
    Qed.

    Lemma main_rk_once : forall implicit pre post cfg k w u l (st : state T) dt t s' r, dget "time" st = Some (VTime t) ->
      ssp_rk cfg (wrapped_among (recording component) interval implicit (map unrecorded pre) (map unrecorded post)) (k, (w, (u, l))) st dt = (s', r) ->
      (snd (snd (snd s')) = l \/ exists tried, snd (snd (snd s')) = l ++ tried /\ evaluated_once implicit dt tried) /\
      (in_use interval w t -> snd (snd (snd s')) = l /\ fst (snd s') = w).
    Proof.
      intros implicit pre post cfg k w u l st dt t [k' [w' [u' l']]] r Ht H. cbn [fst snd].
      set (prog := wrapped_among (recording component) interval implicit (map unrecorded pre) (map unrecorded post)) in *.
      split.
      - pose proof (rk_keeps cfg prog (fun s => in_use interval (fst s) t /\
          (snd (snd s) = l \/ exists tried, snd (snd s) = l ++ tried /\ evaluated_once implicit dt tried)) k (w, (u, l)) st dt (k', (w', (u', l'))) r t Ht) as K.
        cbn [snd] in K. destruct K as [K|[(e & K)|(_ & K)]]; [| |exact H| | |exact K].
        + intros [w1 [u1 l1]] o E. cbn [fst snd]. unfold prog in E. eapply wrapped_effect in E; [|exact Ht].
          destruct E as [(E1 & -> & ->)|(_ & E2 & E3)]; [auto|]. split; eauto.
        + intros [w1 [u1 l1]] st1 [w2 [u2 l2]] o (P1 & P2) Ht1 E. cbn [fst snd] in *. unfold prog in E.
          eapply wrapped_effect in E; [|exact Ht1]. destruct E as [(_ & -> & ->)|(N & _)]; [auto|contradiction].
        + injection K as -> -> ->. auto.
        + unfold prog in K. eapply wrapped_effect in K; [|exact Ht]. destruct K as [(_ & _ & ->)|(_ & K & _)]; auto.
      - intros Hu. pose proof (rk_keeps cfg prog (fun s => fst s = w /\ snd (snd s) = l) k (w, (u, l)) st dt (k', (w', (u', l'))) r t Ht) as K.
        cbn [snd] in K. destruct K as [K|[(e & K)|(K1 & K2)]]; [| |exact H| | |cbn [fst snd] in *; auto].
        + intros [w1 [u1 l1]] o E. cbn [fst snd]. unfold prog in E. eapply wrapped_effect in E; [|exact Ht].
          destruct E as [(_ & -> & ->)|(N & _)]; [auto|contradiction].
        + intros [w1 [u1 l1]] st1 [w2 [u2 l2]] o (P1 & P2) Ht1 E. cbn [fst snd] in *. subst. unfold prog in E.
          eapply wrapped_effect in E; [|exact Ht1]. destruct E as [(_ & -> & ->)|(N & _)]; [auto|contradiction].
        + injection K as -> -> ->. auto.
        + unfold prog in K. eapply wrapped_effect in K; [|exact Ht]. destruct K as [(_ & -> & ->)|(N & _)]; [auto|contradiction].
    Qed.
  End Wrapper.
End Once.

Section Constant.
  Context {T : Type} {A : Arith T} {R : Registry}.

  (** Components that always return [o]. *)
  Definition always (o : tends T) : icaller (T:=T) unit := fun v _ _ => (v, Ok o).

  Lemma inner_always : forall {U} (prog : icaller (T:=T) U) o a u (st : state T) dt u1 a' u' x, prog u st dt = (u1, Ok o) ->
    inner_euler prog (a, u) st dt = ((a', u'), Ok x) -> inner_euler (always o) (a, tt) st dt = ((a', tt), Ok x) /\ u' = u1.
  Proof.
    intros U prog [tend diag] a u st dt u1 a' u' x Hp H. unfold inner_euler, ab_call in *. rewrite Hp in H. unfold always. cbn [fst snd] in *.
    destruct (ensure_timestep (ab_dt a) dt); [|discriminate H]. cbn [bind fst snd] in *.
    destruct (convert_tendencies st tend); cbn [bind] in *; [|discriminate H].
    destruct (perform_step _ _ st dt); cbn [bind] in *; [|discriminate H]. injection H as <- <- <-. auto.
  Qed.

  Lemma rk_always : forall {U} cfg (prog : icaller (T:=T) U) o k u (st : state T) dt t u1 k' u' x, dget "time" st = Some (VTime t) ->
    prog u st dt = (u1, Ok o) -> (forall st', dget "time" st' = Some (VTime t) -> prog u1 st' dt = (u1, Ok o)) ->
    ssp_rk cfg prog (k, u) st dt = ((k', u'), Ok x) -> ssp_rk cfg (always o) (k, tt) st dt = ((k', tt), Ok x) /\ u' = u1.
  Proof.
    intros U cfg prog o k u st dt t u1 k' u' x Ht Hp Hc H. unfold ssp_rk in *. destruct (Nat.eqb (rk_stages k) 2).
    - unfold rk2 in *. destruct (inner_euler prog (rk_euler k, u) st dt) as [[e1 v1] [[d1 st1]|x1]] eqn:E1; [|discriminate H].
      pose proof (inner_time _ _ _ _ _ _ _ _ Ht E1) as Ht1. apply (inner_always prog o _ _ _ _ u1) in E1 as (-> & ->); auto.
      destruct (inner_euler prog (e1, u1) st1 dt) as [[e2 v2] [y|x2]] eqn:E2; [|discriminate H].
      apply (inner_always prog o _ _ _ _ u1) in E2 as (-> & ->); auto. injection H as <- <- H. split; auto. f_equal. exact H.
    - unfold rk3 in *. destruct (inner_euler prog (rk_euler k, u) st dt) as [[e1 v1] [[d1 st1]|x1]] eqn:E1; [|discriminate H].
      pose proof (inner_time _ _ _ _ _ _ _ _ Ht E1) as Ht1. apply (inner_always prog o _ _ _ _ u1) in E1 as (-> & ->); auto.
      destruct (inner_euler prog (e1, u1) st1 dt) as [[e2 v2] [y|x2]] eqn:E2; [|discriminate H].
      apply (inner_always prog o _ _ _ _ u1) in E2 as (-> & ->); auto. cbn [bind] in *.
      match type of H with context [match ?s with Ok _ => _ | Err _ => _ end] => destruct s as [st2|x2] eqn:Es end; [|discriminate H].
      assert (Ht2 : dget "time" st2 = Some (VTime t)).
      { apply bind_ok in Es as (ma & Hma & Es). apply bind_ok in Es as (mb & _ & Es).
        rewrite (add_time _ _ _ Es), (multiply_time _ _ _ Hma). auto. }
      destruct (inner_euler prog (e2, u1) st2 dt) as [[e3 v3] [z|x3]] eqn:E3; [|discriminate H].
      apply (inner_always prog o _ _ _ _ u1) in E3 as (-> & ->); auto. injection H as <- <- H. split; auto. f_equal. exact H.
  Qed.

  (** If the first call of the components fails, so does the step. *)
  Lemma rk_first : forall {U} cfg (prog : icaller (T:=T) U) k u (st : state T) dt s' x,
    ssp_rk cfg prog (k, u) st dt = (s', Ok x) -> exists u1 o, prog u st dt = (u1, Ok o).
  Proof.
    intros U cfg prog k u st dt s' x H. unfold ssp_rk in H.
    assert (G : forall s1 y, inner_euler prog (rk_euler k, u) st dt = (s1, Ok y) -> exists u1 o, prog u st dt = (u1, Ok o)).
    { intros s1 y E. apply inner_calls in E as [(_ & e & K)|(u1 & o & E & _ & K)]; [discriminate K|].
      destruct (K y eq_refl) as (o' & ->). eauto. }
    destruct (Nat.eqb (rk_stages k) 2); [unfold rk2 in H|unfold rk3 in H];
      destruct (inner_euler prog (rk_euler k, u) st dt) as [[e1 v1] [[d1 st1]|x1]] eqn:E1; eauto; discriminate H.
  Qed.

  (** What calls of the components keep, steps keep. *)
  Lemma rk_invariant : forall {U} cfg (prog : icaller (T:=T) U) (P : U -> Prop), (forall u st dt u' r, P u -> prog u st dt = (u', r) -> P u') ->
    forall k u (st : state T) dt s' r, P u -> ssp_rk cfg prog (k, u) st dt = (s', r) -> P (snd s').
  Proof.
    intros U cfg prog P HP k u st dt s' r Hu H. unfold ssp_rk in H.
    assert (G : forall a u st s1 o, P u -> inner_euler prog (a, u) st dt = (s1, o) -> P (snd s1)).
    { intros a v sv s1 o Hv E. apply inner_calls in E as [(-> & _)|(u1 & o1 & E & -> & _)]; eauto. }
    destruct (Nat.eqb (rk_stages k) 2); [unfold rk2 in H|unfold rk3 in H];
      destruct (inner_euler prog (rk_euler k, u) st dt) as [[e1 u1] [[d1 st1]|x1]] eqn:E1; apply G in E1; auto; cbn [snd] in E1;
      try (injection H as <- _; exact E1).
    - destruct (inner_euler prog (e1, u1) st1 dt) as [[e2 u2] r2] eqn:E2. apply G in E2; auto. injection H as <- _; exact E2.
    - destruct (inner_euler prog (e1, u1) st1 dt) as [[e2 u2] r2] eqn:E2. apply G in E2; auto. cbn [snd] in E2.
      match type of H with context [match ?s with Ok _ => _ | Err _ => _ end] => destruct s as [st2|x2] eqn:Es end; [|injection H as <- _; exact E2].
      destruct (inner_euler prog (e2, u2) st2 dt) as [[e3 u3] r3] eqn:E3. apply G in E3; auto. injection H as <- _; exact E3.
  Qed.

  Lemma rk_invariant_after : forall {U} cfg (prog : icaller (T:=T) U) (P : U -> Prop), (forall u st dt u' r, P u -> prog u st dt = (u', r) -> P u') ->
    forall calls k u k' u', P u -> after (ssp_rk cfg prog) calls (k, u) = (k', u') -> P u'.
  Proof.
    intros U cfg prog P HP calls. induction calls as [|[st dt] calls IH]; intros k u k' u' Hu H.
    - injection H as <- <-. auto.
    - unfold after in H. cbn [fold_left fst snd] in H. destruct (ssp_rk cfg prog (k, u) st dt) as [[k1 u1] r] eqn:E. cbn [fst] in H.
      apply (rk_invariant cfg prog P HP) in E; auto. eapply IH; [exact E|exact H].
  Qed.

  (** ** The wrapper alone *)

  Lemma adding_to_nothing : forall t : dict (da T), NoDup (keys t) -> update_dict_by_adding_another [] t = Ok t.
  Proof.
    intros t Ht. unfold update_dict_by_adding_another.
    assert (G : forall t acc, NoDup (keys acc ++ keys t) -> foldM add_entry t acc = Ok (acc ++ t)).
    { clear. intros t. induction t as [|[k v] t IH]; intros acc Hn; cbn [foldM]; [rewrite app_nil_r; auto|].
      cbn [keys map fst] in Hn. fold (keys t) in Hn. assert (Hk : ~ In k (keys acc)).
      { apply NoDup_remove_2 in Hn. intros K. apply Hn, in_or_app. auto. }
      unfold add_entry at 1. replace (dget k acc) with (@None (da T)).
      2:{ symmetry. destruct (dget k acc) eqn:E; auto. exfalso. apply Hk. eapply dget_In_keys; eauto. }
      cbn [bind]. rewrite dset_absent by auto. rewrite IH.
      - rewrite <- app_assoc. reflexivity.
      - unfold keys in *. rewrite map_app, <- app_assoc. exact Hn. }
    apply (G t []). exact Ht.
  Qed.

  (** The wrapper has kept an output, with proper tendencies. *)
  Definition kept_proper (w : ufw (tends T)) : Prop :=
    (forall o, uf_cache w = Some o -> proper (fst o)) /\ (forall t, uf_last w = Some t -> exists o, uf_cache w = Some o).

  Section Wrapper.
    Context {U : Type} (component : U -> state T -> option Z -> U * res (tends T)) (interval : Z) (Hi : (0 < interval)%Z).
    Context (Hpr : forall u st ts u' o, component u st ts = (u', Ok o) -> proper (fst o)).

    Lemma call_proper : forall u st ts u' o, call_component component u st ts = (u', Ok o) -> proper (fst o).
    Proof.
      intros u st ts u' o H. unfold call_component in H. destruct ts as [d|]; [|eauto].
      destruct (component u st (Some d)) as [u1 r] eqn:E. destruct r as [x|e]; [injection H as <- <-; eauto|]. destruct e; try discriminate H. eauto.
    Qed.

    Lemma kept_proper_call : forall implicit dt w u st w' u' r, kept_proper w ->
      wrapper_call component interval (step_of implicit dt) (w, u) st = ((w', u'), r) -> kept_proper w'.
    Proof.
      intros implicit dt w u st w' u' r (K1 & K2) H. unfold wrapper_call, uf_call in H.
      destruct (update_due interval w st) as [[|]|e]; try (injection H as <- _ _; split; assumption).
      destruct (call_component component u st (step_of implicit dt)) as [u1 [o|e]] eqn:Ec; [|injection H as <- _ _; split; assumption].
      apply call_proper in Ec. destruct (state_time st) as [t|e]; injection H as <- _ _; split; cbn [uf_cache uf_last]; eauto.
      - intros o' E. injection E as <-. auto.
      - intros o' E. injection E as <-. auto.
    Qed.

    Lemma wrapped_alone : forall implicit w u st dt,
      wrapped_among component interval implicit [] [] (w, u) st dt =
      let '((w2, u2), r) := wrapper_call component interval (step_of implicit dt) (w, u) st in
      ((w2, u2), let* td := r in let* t' := update_dict_by_adding_another [] (fst td) in Ok (t', dupdate [] (snd td))).
    Proof.
      intros implicit w u st dt. rewrite wrapped_split. cbn [map composite_loop].
      destruct (wrapper_call component interval (step_of implicit dt) (w, u) st) as [[w2 u2] [td|e]]; cbn [bind]; auto.
      destruct (update_dict_by_adding_another [] (fst td)); cbn [bind]; auto.
    Qed.

    Lemma kept_proper_prog : forall implicit s st dt s' r, kept_proper (fst s) ->
      wrapped_among component interval implicit [] [] s st dt = (s', r) -> kept_proper (fst s').
    Proof.
      intros implicit [w u] st dt s' r Hk H. rewrite wrapped_alone in H.
      destruct (wrapper_call component interval (step_of implicit dt) (w, u) st) as [[w2 u2] o] eqn:E. injection H as <- _.
      eapply kept_proper_call; eauto.
    Qed.

    (** One successful call of the components. *)
    Lemma wrapped_one : forall implicit w u st dt t w1 u1 o, kept_proper w -> dget "time" st = Some (VTime t) ->
      wrapped_among component interval implicit [] [] (w, u) st dt = ((w1, u1), Ok o) ->
      exists td, o = (fst td, dupdate [] (snd td)) /\ uf_cache w1 = Some td /\ proper (fst td) /\ in_use interval w1 t /\
        (in_use interval w t -> w1 = w) /\ (~ in_use interval w t -> uf_last w1 = Some t).
    Proof.
      intros implicit w u st dt t w1 u1 o (K1 & K2) Ht H. rewrite wrapped_alone in H. unfold wrapper_call, uf_call in H.
      assert (Es : state_time st = Ok t) by (unfold state_time, dgetE; rewrite Ht; reflexivity).
      destruct (update_due_cases interval w st t Ht) as [(Hu & E)|(Hu & E)]; rewrite E in H.
      - pose proof Hu as (t0 & E0 & _). destruct (K2 _ E0) as (td & Etd). pose proof (K1 _ Etd) as Pt. rewrite Etd in H. cbn [bind] in H.
        rewrite adding_to_nothing in H by apply Pt. cbn [bind] in H. injection H as <- <- <-. exists td. do 4 (split; [auto|]). split; [auto|]. intros N. contradiction.
      - destruct (call_component component u st (step_of implicit dt)) as [u2 [td|e]] eqn:Ec; [|discriminate H].
        apply call_proper in Ec. rewrite Es in H. cbn [bind] in H. rewrite adding_to_nothing in H by apply Ec. cbn [bind] in H. injection H as <- <- <-.
        exists td. cbn [uf_cache uf_last]. do 3 (split; [auto|]). split; [exists t; split; auto; lia|]. split; [|auto]. intros N. contradiction.
    Qed.

    (** While the kept output is in use the components return it. *)
    Lemma wrapped_held : forall implicit w u st dt t td, kept_proper w -> dget "time" st = Some (VTime t) -> in_use interval w t ->
      uf_cache w = Some td ->
      wrapped_among component interval implicit [] [] (w, u) st dt = ((w, u), Ok (fst td, dupdate [] (snd td))).
    Proof.
      intros implicit w u st dt t td (K1 & K2) Ht Hu Etd. rewrite wrapped_alone. unfold wrapper_call, uf_call.
      destruct (update_due_cases interval w st t Ht) as [(_ & E)|(Hn & _)]; [|contradiction]. rewrite E, Etd. cbn [bind].
      rewrite adding_to_nothing by apply (K1 _ Etd). reflexivity.
    Qed.
  End Wrapper.
End Constant.

(** ** Exact arithmetic: stages with the same tendencies add up to one Euler step *)

Section Exact.
  Context {R : Registry}.
  Local Open Scope Qc_scope.

  (** [st'] is [st] moved by [th] timesteps along [tend]. *)
  Definition moved (th : Qc) (dt : Z) (st : state Qc) (tend : dict (da Qc)) (st' : state Qc) : Prop :=
    same_outside (keys tend) st st' /\
    forall X t, dget X tend = Some t -> exists x r,
      dget X st = Some (VDA x) /\ dget X st' = Some (VDA r) /\ extends x [t] r /\
      forall c, in_grid r c -> in_grid t c /\ exists y, rate st X t c y /\
        da_at r c = da_at x c + th * (y * aofQ (dt # 1000000)).

  Lemma moved_euler : forall dt st tend st', moved 1 dt st tend st' <-> euler_step dt st tend st'.
  Proof.
    intros dt st tend st'. split; intros (H1 & H2); split; auto; intros X t Ht; destruct (H2 X t Ht) as (x & r & Hx & Hr & He & Hv);
      exists x, r; repeat split; auto; try apply He; try (apply (Hv c); auto).
    - destruct (Hv c) as (_ & y & Hy & E); auto. exists y. split; auto. rewrite E. cbn [aadd amul ArithQc]. ring.
    - destruct (Hv c) as (_ & y & Hy & E); auto. exists y. split; auto. rewrite E. cbn [aadd amul ArithQc]. ring.
  Qed.

  Lemma rate_units : forall (st st' : state Qc) X x x' t c y, dget X st = Some (VDA x) -> dget X st' = Some (VDA x') ->
    attrs x' = attrs x -> rate st' X t c y -> rate st X t c y.
  Proof.
    intros st st' X x x' t c y Hx Hx' Ha H. unfold rate in *. destruct (units_of t) as [ut|]; auto.
    destruct H as (z & us & Hz & Hu & Hc). rewrite Hx' in Hz. injection Hz as <-. exists x, us. repeat split; auto.
    unfold units_of in *. rewrite <- Ha. exact Hu.
  Qed.

  Lemma in_grid_back : forall (x t r r' : da Qc) c, extends x [t] r -> extends r [t] r' -> in_grid r' c -> in_grid r c.
  Proof. intros. eapply in_grid_left; eauto. Qed.

  Lemma extends_again : forall x t r r' : da Qc, extends x [t] r -> extends r [t] r' -> extends x [t] r'.
  Proof.
    intros x t r r' (W1 & A1 & (e1 & D1) & L1) (W2 & A2 & (e2 & D2) & L2). split; [auto|]. split; [congruence|]. split.
    - exists (e1 ++ e2)%list. rewrite D2, D1, app_assoc. reflexivity.
    - intros d. rewrite L2. cbn [first_len]. rewrite L1. cbn [first_len]. destruct (dim_len x d); auto. destruct (dim_len t d); auto.
  Qed.

  Lemma extends_combined : forall x t r r' : da Qc, extends x [t] r -> extends x [r] r' -> extends x [t] r'.
  Proof.
    intros x t r r' (W1 & A1 & (e1 & D1) & L1) (W2 & A2 & (e2 & D2) & L2). split; [auto|]. split; [congruence|]. split; [eauto|].
    intros d. rewrite L2. cbn [first_len]. rewrite L1. cbn [first_len]. destruct (dim_len x d); auto. destruct (dim_len t d); auto.
  Qed.

  Lemma moved_more : forall th dt st tend a b, moved th dt st tend a -> euler_step dt a tend b -> moved (th + 1) dt st tend b.
  Proof.
    intros th dt st tend a b (M1 & M2) (E1 & E2). split.
    - intros X HX. rewrite (E1 X HX). auto.
    - intros X t Ht. destruct (M2 X t Ht) as (x & r & Hx & Hr & He & Hv). destruct (E2 X t Ht) as (r1 & r' & Hr1 & Hr' & He' & Hv').
      assert (r1 = r) by congruence. subst. exists x, r'. split; [auto|]. split; [auto|]. split; [eapply extends_again; eauto|]. intros c Hc. split; [apply (Hv' c Hc)|].
      destruct (Hv' c) as (_ & y' & Hy' & Ey'); auto. destruct (Hv c) as (_ & y & Hy & Ey); [eapply in_grid_left; eauto|].
      exists y. split; auto. assert (y' = y).
      { eapply rate_fun; [|exact Hy]. eapply rate_units; [exact Hx|exact Hr| |exact Hy']. apply He. }
      subst. rewrite Ey', Ey. cbn [aadd amul ArithQc]. ring.
  Qed.

  Lemma moved_combined : forall p q th dt (st : state Qc) tend a b, p + q = 1 -> proper_state st -> (exists t, dget "time" st = Some (VTime t)) ->
    moved th dt st tend a -> combination (fun x y => p * x + q * y) st a b -> moved (q * th) dt st tend b.
  Proof.
    intros p q th dt st tend a b Hpq Hps (tm & Htm) (M1 & M2) HC. split.
    - intros X HX. eapply combination_same; [exact Hpq|exact HC|auto|]. apply M1. auto.
    - destruct HC as (C1 & C2). intros X t Ht. destruct (M2 X t Ht) as (x & r & Hx & Hr & He & Hv).
      assert (HX : X <> "time"%string) by congruence. specialize (C2 X HX). rewrite Hx in C2.
      destruct C2 as (r1 & r' & Hr1 & Hr' & He' & Hv'). assert (r1 = r) by congruence. subst.
      exists x, r'. split; [auto|]. split; [auto|]. split; [eapply extends_combined; eauto|]. intros c Hc.
      destruct (Hv' c Hc) as (Hg & E'). destruct (Hv c Hg) as (Hgt & y & Hy & E). split; auto. exists y. split; auto.
      rewrite E', E. replace p with (1 - q) by (rewrite <- Hpq; ring). ring.
  Qed.

  Lemma rk_always_euler : forall cfg td z k (st : state Qc) dt t s' x, ab_order (rk_euler k) = 1%nat -> Z.of_nat (rk_stages k) = z -> (z = 2 \/ z = 3)%Z ->
    proper (fst td) -> proper_state st -> dget "time" st = Some (VTime t) ->
    ssp_rk cfg (always td) (k, tt) st dt = (s', Ok x) -> euler_step dt st (fst td) (snd x).
  Proof.
    intros cfg [tend pdiag] z [n e] st dt t s' [diag new] Ho Hz Hz2 Hp Hps Ht H. cbn [rk_euler rk_stages fst snd] in *. apply moved_euler.
    assert (Hpc : proper_components (always (tend, pdiag))).
    { intros u sv d u' tv dv E. injection E as _ <- _. exact Hp. }
    assert (He : exists t, dget "time" st = Some (VTime t)) by eauto.
    destruct Hz2 as [-> | ->].
    - assert (n = 2%nat) by lia. subst n.
      apply rk2_ok in H as (u1 & u2 & t1 & t2 & d1 & d2 & st1 & st2 & P1 & E1 & P2 & E2 & C & _); auto.
      injection P1 as <- <- <-. injection P2 as <- <- <-. apply moved_euler in E1. apply (moved_more _ _ _ _ _ _ E1) in E2.
      assert (Ch : combination (fun x y => Q2Qc (1 # 2) * x + Q2Qc (1 # 2) * y) st st2 new).
      { eapply combination_ext; [|exact C]. intros x y. cbn [aadd amul aofQ ArithQc]. ring. }
      replace 1 with (Q2Qc (1 # 2) * (1 + 1)) by (apply Qc_is_canon; reflexivity).
      eapply moved_combined; [| | |exact E2|exact Ch]; auto. apply Qc_is_canon; reflexivity.
    - assert (n = 3%nat) by lia. subst n.
      apply rk3_ok in H as (u1 & u2 & u3 & t1 & t2 & t3 & d1 & d2 & d3 & st1 & st15 & st2 & st25 & P1 & E1 & P2 & E2 & C1 & P3 & E3 & C2 & _); auto.
      injection P1 as <- <- <-. injection P2 as <- <- <-. injection P3 as <- <- <-. apply moved_euler in E1. apply (moved_more _ _ _ _ _ _ E1) in E2.
      assert (M : moved (Q2Qc (1 # 4) * (1 + 1)) dt st tend st2).
      { eapply (moved_combined (Q2Qc (3 # 4))); [| | |exact E2|exact C1]; auto. apply Qc_is_canon; reflexivity. }
      apply (moved_more _ _ _ _ _ _ M) in E3.
      replace 1 with (Q2Qc (2 # 3) * (Q2Qc (1 # 4) * (1 + 1) + 1)) by (apply Qc_is_canon; reflexivity).
      eapply (moved_combined (Q2Qc (1 # 3))); [| | |exact E3|exact C2]; auto. apply Qc_is_canon; reflexivity.
  Qed.

  Lemma main_rk_euler : forall {U} (component : U -> state Qc -> option Z -> U * res (tends Qc)) interval implicit cfg z k0 u0 calls k w u
      (st : state Qc) dt t k' w' u' diag new,
    (0 < interval)%Z -> (forall u st ts u' o, component u st ts = (u', Ok o) -> proper (fst o)) ->
    new_rk z = Ok k0 ->
    after (ssp_rk cfg (wrapped_among component interval implicit [] [])) calls (k0, (new_ufw, u0)) = (k, (w, u)) ->
    proper_state st -> dget "time" st = Some (VTime t) ->
    ssp_rk cfg (wrapped_among component interval implicit [] []) (k, (w, u)) st dt = ((k', (w', u')), Ok (diag, new)) ->
    exists tend pdiag, uf_cache w' = Some (tend, pdiag) /\ euler_step dt st tend new /\
      (in_use interval w t -> w' = w) /\ (~ in_use interval w t -> uf_last w' = Some t).
  Proof.
    intros U component interval implicit cfg z k0 u0 calls k w u st dt t k' w' u' diag new Hi Hpr Hz Haf Hps Ht H.
    pose proof (rk_reachable _ _ _ _ _ _ _ _ Hz Haf) as (Ho & Hn & Hz2).
    assert (Hk : kept_proper w).
    { apply (rk_invariant_after _ _ (fun s => kept_proper (fst s))) in Haf; auto.
      - intros s sv d s' r Hs E. eapply kept_proper_prog; eauto.
      - split; cbn; intros ? K; discriminate K. }
    destruct (rk_first _ _ _ _ _ _ _ _ H) as ([w1 u1] & o & E1).
    destruct (wrapped_one component interval Hi Hpr implicit w u st dt t w1 u1 o Hk Ht E1) as (td & -> & Hc & Hp & Hu & K1 & K2).
    assert (Hk1 : kept_proper w1) by (apply (kept_proper_prog component interval Hpr implicit (w, u)) in E1; auto).
    eapply rk_always in H; [|exact Ht|exact E1|].
    - destruct H as (H & H'). injection H' as -> ->.
      apply (rk_always_euler _ _ z _ _ _ t) in H; auto. cbn [fst snd] in H. destruct td as [tend pdiag]. exists tend, pdiag. auto.
    - intros st' Ht'. eapply wrapped_held; eauto.
  Qed.
End Exact.
