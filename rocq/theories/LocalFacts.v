(** Lemmas about states that agree on some quantities (C82). *)
From Coq Require Import String List Bool Arith Lia ZArith QArith Qcanon.
From Verif Require Import Prelude PreludeFacts ArithM NdArray NdFacts Units DataArrayM Tracers Components Composite Steppers MainLoop SpecComponents SpecSteppers SteppersFacts RKFacts SpecLocal.
Import ListNotations.
Open Scope string_scope.
Open Scope nat_scope.
Open Scope list_scope.

Section Local.
  Context {T : Type} {A : Arith T} {R : Registry}.
  Implicit Types st old new : state T.

  Lemma mapM_ext : forall {B C} (f g : B -> res C) l, (forall x, In x l -> f x = g x) -> mapM f l = mapM g l.
  Proof.
    intros B C f g l. induction l as [|x l IH]; intros H; cbn [mapM]; auto. rewrite (H x) by (left; auto).
    rewrite IH by (intros; apply H; right; auto). auto.
  Qed.

  Lemma for_keys_ext : forall (f g : string -> res (da T)) ks, (forall k, In k ks -> f k = g k) -> for_keys f ks = for_keys g ks.
  Proof. intros f g ks H. unfold for_keys. apply mapM_ext. intros k Hk. rewrite H by auto. auto. Qed.

  Lemma state_da_agree : forall names st st' k, agree_on names st st' -> In k names -> state_da k st = state_da k st'.
  Proof. intros names st st' k H Hk. unfold state_da, dgetE. rewrite (H k Hk). auto. Qed.

  Lemma convert_agree : forall names st st' tend, agree_on names st st' -> incl (keys tend) names ->
    convert_tendencies st tend = convert_tendencies st' tend.
  Proof.
    intros names st st' tend H Hk. unfold convert_tendencies. apply mapM_ext. intros [k t] Hin. unfold convert_one.
    unfold dgetE. rewrite (H k) by (apply Hk; apply in_map_iff; exists (k, t); auto). auto.
  Qed.

  Lemma convert_keys : forall st tend tend', convert_tendencies st tend = Ok tend' -> keys tend' = keys tend.
  Proof.
    intros st tend. unfold convert_tendencies. induction tend as [|[k t] tend IH]; intros tend' H; cbn [mapM] in H.
    - injection H as <-. auto.
    - apply bind_ok in H as ([k' t'] & H1 & H). apply bind_ok in H as (r & H2 & H). injection H as <-. cbn [keys map fst].
      unfold keys in IH. rewrite (IH _ H2). f_equal. unfold convert_one in H1. destruct (dget "units" (attrs t)); [|congruence].
      apply bind_ok in H1 as (v & _ & H1). destruct v; [|discriminate]. destruct (dget "units" (attrs a)); [|discriminate].
      apply bind_ok in H1 as (t2 & _ & H1). congruence.
  Qed.

  Lemma copy_untouched_agree : forall names st st' new, agree_on names st st' -> agree_on names (copy_untouched st new) (copy_untouched st' new).
  Proof. intros names st st' new H X HX. rewrite !copy_untouched_get. destruct (dget X new); auto. Qed.

  Lemma copy_untouched_agree2 : forall names st st' new new', agree_on names st st' -> agree_on names new new' ->
    agree_on names (copy_untouched st new) (copy_untouched st' new').
  Proof. intros names st st' new new' H H' X HX. rewrite !copy_untouched_get, (H' X HX), (H X HX). auto. Qed.

  (** ** AdamsBashforth *)

  Definition known (names : list string) (a : ab T) : Prop := forall d, In d (ab_hist a) -> incl (keys d) names /\ NoDup (keys d).

  Lemma for_keys_vda : forall (f : string -> res (da T)) ks new, for_keys f ks = Ok new -> forall X t, dget X new <> Some (VTime t).
  Proof.
    intros f ks. unfold for_keys. induction ks as [|k ks IH]; intros new H X t E; cbn [mapM] in H.
    - injection H as <-. discriminate E.
    - apply bind_ok in H as (kv & H1 & H). apply bind_ok in H as (l & H2 & H). injection H as <-. apply bind_ok in H1 as (v & _ & H1). injection H1 as <-.
      cbn [dget] in E. destruct (String.eqb X k); [discriminate|]. eapply IH; eauto.
  Qed.

  Lemma perform_agree : forall names order hist st st' dt, agree_on names st st' -> (forall d, In d hist -> incl (keys d) names /\ NoDup (keys d)) ->
    perform_step order hist st dt = perform_step order hist st' dt /\
    forall new, perform_step order hist st dt = Ok new -> incl (keys new) names /\ NoDup (keys new) /\ forall X t, dget X new <> Some (VTime t).
  Proof.
    intros names order hist st st' dt H Hk.
    assert (K1 : forall tend, In tend hist -> step_forward_euler st tend dt = step_forward_euler st' tend dt /\
                 forall new, step_forward_euler st tend dt = Ok new -> incl (keys new) names /\ NoDup (keys new) /\ forall X t, dget X new <> Some (VTime t)).
    { intros tend Hin. unfold step_forward_euler. split.
      - apply for_keys_ext. intros k Hkk. unfold euler_one. rewrite (state_da_agree names st st'); auto. apply (Hk tend); auto.
      - intros new Hn. pose proof (for_keys_vda _ _ _ Hn) as Hv. apply for_keys_ok in Hn as (-> & _). destruct (Hk tend Hin). auto. }
    assert (K2 : forall (f g : string -> res (da T)), (forall k, In k names -> f k = g k) ->
               (let* ks := oldest_keys hist in for_keys f ks) = (let* ks := oldest_keys hist in for_keys g ks) /\
               forall new, (let* ks := oldest_keys hist in for_keys f ks) = Ok new -> incl (keys new) names /\ NoDup (keys new) /\ forall X t, dget X new <> Some (VTime t)).
    { intros f g Hfg. unfold oldest_keys. destruct hist as [|d hist']; cbn [bind]; [split; [auto|discriminate]|]. split.
      - apply for_keys_ext. intros k Hkk. apply Hfg. apply (Hk d); [left; auto|auto].
      - intros new Hn. pose proof (for_keys_vda _ _ _ Hn) as Hv. apply for_keys_ok in Hn as (-> & _). destruct (Hk d); auto. left; auto. }
    unfold perform_step. destruct (Nat.min order (length hist)) as [|[|[|[|[|m]]]]].
    - split; [auto|discriminate].
    - destruct (nth_error (rev hist) 0) as [tend|] eqn:E; [|split; [auto|discriminate]].
      apply K1. apply in_rev. eapply nth_error_In; eauto.
    - apply K2. intros k Hkk. unfold ab2_one. rewrite (state_da_agree names st st'); auto.
    - apply K2. intros k Hkk. unfold ab3_one. rewrite (state_da_agree names st st'); auto.
    - apply K2. intros k Hkk. unfold ab4_one. rewrite (state_da_agree names st st'); auto.
    - split; [auto|discriminate].
  Qed.

  (** One call of AdamsBashforth: equal objects after it, the same outcome, and other
      quantities as they were. *)
  Lemma ab_call_agree : forall {U} names (prog : icaller U) a u st st' dt, reads names prog -> changes names prog -> known names a ->
    agree_on names st st' ->
    fst (ab_call prog (a, u) st dt) = fst (ab_call prog (a, u) st' dt) /\
    known names (fst (fst (ab_call prog (a, u) st dt))) /\
    same_result names (snd (ab_call prog (a, u) st dt)) (snd (ab_call prog (a, u) st' dt)) /\
    (forall d new, snd (ab_call prog (a, u) st dt) = Ok (d, new) -> (forall X, ~ In X names -> dget X new = dget X st) /\
       NoDup (keys new) /\ (forall X t, dget X new = Some (VTime t) -> dget X st = Some (VTime t)) /\ forall X, dget X st <> None -> dget X new <> None).
  Proof.
    intros U names prog a u st st' dt Hr Hc Hk H. unfold ab_call. destruct (ensure_timestep (ab_dt a) dt).
    2: { split; [auto|]. split; [exact Hk|]. split; [reflexivity|intros ? ? K; discriminate K]. }
    rewrite <- (Hr u st st' dt H). destruct (prog u st dt) as [u' r] eqn:Ep. destruct r as [[t d]|e]; cbn [bind fst snd].
    2: { split; [auto|]. split; [exact Hk|]. split; [reflexivity|intros ? ? K; discriminate K]. }
    destruct (Hc _ _ _ _ _ _ Ep) as [Ht Htn]. rewrite <- (convert_agree names st st' t H Ht).
    destruct (convert_tendencies st t) as [tend|e] eqn:Et; cbn [bind].
    2: { split; [auto|]. split; [exact Hk|]. split; [reflexivity|intros ? ? K; discriminate K]. }
    assert (Hh : forall d0, In d0 (ab_hist a ++ [tend]) -> incl (keys d0) names /\ NoDup (keys d0)).
    { intros d0 Hd. apply in_app_iff in Hd as [Hd|[<-|[]]]; auto. rewrite (convert_keys _ _ _ Et). auto. }
    destruct (perform_agree names (ab_order a) (ab_hist a ++ [tend]) st st' dt H Hh) as [<- Hn].
    destruct (perform_step (ab_order a) (ab_hist a ++ [tend]) st dt) as [new|e].
    - cbn. split; auto. split; [|split].
      + intros d0 Hd. cbn [ab_hist] in Hd. destruct (Nat.eqb (length (ab_hist a ++ [tend])) (ab_order a)); auto.
        apply Hh. destruct (ab_hist a ++ [tend]); [destruct Hd|right; auto].
      + split; auto. apply copy_untouched_agree; auto.
      + intros d1 new1 E. injection E as <- <-. destruct (Hn new eq_refl) as (Hn1 & Hn2 & Hn3). split; [|split; [|split]].
        * intros X HX. rewrite copy_untouched_get. destruct (dget X new) eqn:E; auto.
          exfalso. apply HX, Hn1. apply dget_In in E. apply in_map_iff. eexists; split; [|exact E]. auto.
        * apply NoDup_copy_untouched; auto.
        * intros X t0 E. rewrite copy_untouched_get in E. destruct (dget X new) eqn:E'; auto. exfalso. eapply Hn3. rewrite <- E. exact E'.
        * intros X HX. rewrite copy_untouched_get. destruct (dget X new); [discriminate|auto].
    - split; [auto|]. split; [|split; [reflexivity|intros ? ? K; discriminate K]]. cbn. intros d0 Hd. apply Hh. auto.
  Qed.

  Lemma foldM_ext : forall {B C} (f g : B -> C -> res B) l acc, (forall b x, In x l -> f b x = g b x) -> foldM f l acc = foldM g l acc.
  Proof.
    intros B C f g l. induction l as [|x l IH]; intros acc H; cbn [foldM]; auto. rewrite (H acc x) by (left; auto).
    destruct (g acc x); cbn [bind]; auto. apply IH. intros; apply H; right; auto.
  Qed.

  Lemma finish_agree : forall names cfg dt st st' r r', incl (keys (ts_out cfg)) names -> agree_on names st st' -> same_result names r r' ->
    same_result names (finish_step cfg dt st r) (finish_step cfg dt st' r').
  Proof.
    intros names cfg dt st st' r r' Hk H Hr. unfold finish_step. destruct r as [[d new]|e], r' as [[d' new']|e']; cbn in Hr; try contradiction.
    2: { cbn. auto. }
    destruct Hr as [<- Hn]. cbn [bind fst snd]. pose proof (copy_untouched_agree2 _ _ _ _ _ H Hn) as Hc.
    assert (E : insert_differences cfg dt st (copy_untouched st new) d = insert_differences cfg dt st' (copy_untouched st' new') d).
    { unfold insert_differences. apply foldM_ext. intros acc [k p] Hin. unfold insert_one. cbn [fst].
      assert (Hkk : In k names) by (apply Hk; apply in_map_iff; exists (k, p); auto).
      unfold dgetE. rewrite (H k Hkk), (Hc k Hkk). auto. }
    destruct (ts_tid cfg).
    - rewrite <- E. destruct (insert_differences cfg dt st (copy_untouched st new) d); cbn; auto.
    - cbn. auto.
  Qed.

  Lemma finish_new : forall cfg dt st r d new, finish_step cfg dt st r = Ok (d, new) -> exists d0 new0, r = Ok (d0, new0) /\ new = copy_untouched st new0.
  Proof.
    intros cfg dt st r d new H. unfold finish_step in H. apply bind_ok in H as ([d0 new0] & -> & H). apply bind_ok in H as (d1 & _ & H).
    injection H as _ <-. eauto.
  Qed.

  Lemma adams_agree : forall {U} names cfg (prog : icaller U) a u st st' dt, reads names prog -> changes names prog -> incl (keys (ts_out cfg)) names ->
    known names a -> agree_on names st st' ->
    fst (adams_bashforth cfg prog (a, u) st dt) = fst (adams_bashforth cfg prog (a, u) st' dt) /\
    known names (fst (fst (adams_bashforth cfg prog (a, u) st dt))) /\
    same_result names (snd (adams_bashforth cfg prog (a, u) st dt)) (snd (adams_bashforth cfg prog (a, u) st' dt)) /\
    (forall d new, snd (adams_bashforth cfg prog (a, u) st dt) = Ok (d, new) -> forall X, ~ In X names -> dget X new = dget X st).
  Proof.
    intros U names cfg prog a u st st' dt Hr Hc Hk Ha H. unfold adams_bashforth.
    destruct (ab_call_agree names prog a u st st' dt Hr Hc Ha H) as (K1 & K2 & K3 & K4).
    destruct (ab_call prog (a, u) st dt) as [s1 r1]. destruct (ab_call prog (a, u) st' dt) as [s1' r1']. cbn [fst snd] in *.
    split; auto. split; auto. split; [apply finish_agree; auto|].
    intros d new E X HX. apply finish_new in E as (d0 & new0 & -> & ->). rewrite copy_untouched_get. destruct (K4 _ _ eq_refl) as [K5 _]. rewrite (K5 X HX). destruct (dget X st); auto.
  Qed.

  (** ** Leapfrog *)

  Lemma leap_loop_agree : forall names sec nu alpha tend ks old old' st st' new, incl ks names ->
    agree_on names old old' -> agree_on names st st' ->
    snd (leap_loop sec nu alpha old tend ks st new) = snd (leap_loop sec nu alpha old' tend ks st' new) /\
    agree_on names (fst (leap_loop sec nu alpha old tend ks st new)) (fst (leap_loop sec nu alpha old' tend ks st' new)).
  Proof.
    intros names sec nu alpha tend ks. induction ks as [|k ks IH]; intros old old' st st' new Hk Ho H; cbn [leap_loop fst snd]; auto.
    assert (Hkk : In k names) by (apply Hk; left; auto).
    assert (E : leap_one sec nu old st tend k = leap_one sec nu old' st' tend k).
    { unfold leap_one. rewrite (state_da_agree names old old'), (state_da_agree names st st'); auto. }
    rewrite <- E, <- (state_da_agree names st st' k); auto.
    destruct (let* ni := leap_one sec nu old st tend k in let* x := state_da k st in
              let* x' := da_iadd x (da_lscale alpha (snd ni)) in Ok (fst ni, snd ni, x')) as [[[n infl] x']|e]; cbn [fst snd]; auto.
    assert (H' : agree_on names (dset k (VDA x') st) (dset k (VDA x') st')).
    { intros X HX. destruct (string_dec X k) as [->|N]; [rewrite !dget_dset_eq; auto|rewrite !dget_dset_neq; auto]. }
    destruct (if aeqb alpha (aofQ (1 # 1)) then Ok n else da_iadd n (da_lscale (asub alpha (aofQ (1 # 1))) infl)) as [n'|e]; cbn [fst snd]; auto.
    apply IH; auto. intros y Hy. apply Hk. right; auto.
  Qed.

  (** Leapfrog objects that agree on [names]. *)
  Definition leap_agree (names : list string) (l l' : leap T) : Prop :=
    lf_nu l = lf_nu l' /\ lf_alpha l = lf_alpha l' /\ lf_dt l = lf_dt l' /\
    match lf_old l, lf_old l' with
    | None, None => True
    | Some old, Some old' => agree_on names old old'
    | _, _ => False
    end.

  Lemma leapfrog_agree : forall {U} names cfg (prog : icaller U) l l' u st st' dt s1 st1 r1 s1' st1' r1',
    reads names prog -> changes names prog -> incl (keys (ts_out cfg)) names ->
    leap_agree names l l' -> agree_on names st st' ->
    leapfrog cfg prog (l, u) st dt = (s1, st1, r1) -> leapfrog cfg prog (l', u) st' dt = (s1', st1', r1') ->
    leap_agree names (fst s1) (fst s1') /\ snd s1 = snd s1' /\ agree_on names st1 st1' /\ same_result names r1 r1'.
  Proof.
    intros U names cfg prog l l' u st st' dt s1 st1 r1 s1' st1' r1' Hr Hc Hk Hl H E E'. unfold leapfrog in E, E'.
    destruct (leap_call prog (l, u) st dt) as [[s2 st2] r2] eqn:Ec. destruct (leap_call prog (l', u) st' dt) as [[s2' st2'] r2'] eqn:Ec'.
    injection E as <- <- <-. injection E' as <- <- <-.
    enough (K : leap_agree names (fst s2) (fst s2') /\ snd s2 = snd s2' /\ agree_on names st2 st2' /\ same_result names r2 r2').
    { destruct K as (K1 & K2 & K3 & K4). split; auto. split; auto. split; auto. apply finish_agree; auto. }
    unfold leap_call in Ec, Ec'. destruct Hl as (L1 & L2 & L3 & L4). rewrite <- L3 in Ec'.
    destruct (ensure_timestep (lf_dt l) dt) as [[]|e].
    2: { injection Ec as <- <- <-. injection Ec' as <- <- <-. cbn. repeat split; auto. }
    rewrite <- (Hr u st st' dt H) in Ec'. destruct (prog u st dt) as [u' r] eqn:Ep. destruct r as [[t d]|e]; cbn [bind fst snd] in Ec, Ec'.
    2: { injection Ec as <- <- <-. injection Ec' as <- <- <-. cbn. repeat split; auto. }
    destruct (Hc _ _ _ _ _ _ Ep) as [Ht Htn]. rewrite <- (convert_agree names st st' t H Ht) in Ec'.
    destruct (convert_tendencies st t) as [tend|e] eqn:Et; cbn [bind] in Ec, Ec'.
    2: { injection Ec as <- <- <-. injection Ec' as <- <- <-. cbn. repeat split; auto. }
    assert (Hks : incl (keys tend) names) by (rewrite (convert_keys _ _ _ Et); auto).
    rewrite <- L1, <- L2 in Ec'.
    assert (Hcase : forall (p p' : state T * res (state T)), snd p = snd p' -> agree_on names (fst p) (fst p') ->
      (let (st3, rn) := p in match rn with
        | Err e => ((mkleap (lf_nu l) (lf_alpha l) (Some dt) (lf_old l), u'), st3, Err e)
        | Ok n => ((mkleap (lf_nu l) (lf_alpha l) (Some dt) (Some st3), u'), st3, Ok (d, copy_untouched st3 n)) end) = (s2, st2, r2) ->
      (let (st3, rn) := p' in match rn with
        | Err e => ((mkleap (lf_nu l) (lf_alpha l) (Some dt) (lf_old l'), u'), st3, Err e)
        | Ok n => ((mkleap (lf_nu l) (lf_alpha l) (Some dt) (Some st3), u'), st3, Ok (d, copy_untouched st3 n)) end) = (s2', st2', r2') ->
      leap_agree names (fst s2) (fst s2') /\ snd s2 = snd s2' /\ agree_on names st2 st2' /\ same_result names r2 r2').
    { intros [st3 rn] [st3' rn'] E1 E2 F F'. cbn [fst snd] in E1, E2. subst rn'. destruct rn as [n|e].
      - injection F as <- <- <-. injection F' as <- <- <-. cbn. repeat split; auto. apply copy_untouched_agree; auto.
      - injection F as <- <- <-. injection F' as <- <- <-. cbn. repeat split; auto. }
    destruct (lf_old l) as [old|], (lf_old l') as [old'|]; try contradiction.
    - destruct (leap_loop_agree names (total_seconds dt) (lf_nu l) (lf_alpha l) tend (keys tend) old old' st st' [] Hks L4 H) as [F1 F2].
      exact (Hcase _ _ F1 F2 Ec Ec').
    - assert (F1 : step_forward_euler st tend dt = step_forward_euler st' tend dt).
      { unfold step_forward_euler. apply for_keys_ext. intros k Hkk. unfold euler_one. rewrite (state_da_agree names st st'); auto. }
      apply (Hcase (st, step_forward_euler st tend dt) (st', step_forward_euler st' tend dt)); auto.
  Qed.
End Local.
