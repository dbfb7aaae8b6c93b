(** Taking up a run of an SSPRungeKutta object that died (C88): proofs. *)
From Coq Require Import String List Bool Arith ZArith QArith Lia.
From Verif Require Import Prelude PreludeFacts ArithM NdArray Units DataArrayM DaFacts GetNp Tracers Components Composite Steppers SpecSteppers SteppersFacts ABFacts RKFacts
  Basic MainLoop NetCDF SpecMainLoop SpecResume ResumeFacts SpecDies DiesFacts DiesMain.
From Verif Require SpecLocal.
Import ListNotations.
Open Scope string_scope.
Open Scope nat_scope.
Open Scope list_scope.

Section RK.
  Context {T : Type} {A : Arith T} {R : Registry}.

  (** ** Arrays that were copied or added to copies of themselves *)

  (** No dim has two lengths. *)
  Definition fits (a b : da T) : Prop := forall d n m, dim_len a d = Some n -> dim_len b d = Some m -> n = m.

  Lemma fits_agree : forall a b, fits a b -> sizes_agree a b = true.
  Proof.
    intros a b H. unfold sizes_agree. apply forallb_forall. intros d _. destruct (dim_len a d) as [n|] eqn:E; auto. destruct (dim_len b d) as [m|] eqn:E'; auto.
    apply Nat.eqb_eq. exact (H d n m E E').
  Qed.

  Lemma fits_map : forall f g at1 at2 a b, fits a b -> fits (da_map f at1 a) (da_map g at2 b).
  Proof. intros f g at1 at2 a b H d n m. rewrite !dim_len_map. apply H. Qed.

  Lemma fits_self : forall a, fits a a.
  Proof. intros a d n m H H'. congruence. Qed.

  Lemma dget_combine_map : forall (f : string -> nat) d l, In d l -> dget d (combine l (map f l)) = Some (f d).
  Proof.
    intros f d l. induction l as [|x l IH]; intros H; [destruct H|]. cbn [map combine dget].
    destruct (String.eqb_spec d x) as [->|N]; [reflexivity|]. apply IH. destruct H as [->|H]; [contradiction N; reflexivity|exact H].
  Qed.

  Lemma fits_sum : forall op at' a b s, da_binop op at' a b = Ok s -> fits a s.
  Proof.
    intros op at' a b s H d n m Hn Hm. unfold da_binop in H. destruct (sizes_agree a b); [|discriminate H]. injection H as <-.
    unfold dim_len in Hm. cbn [dims arr shape build] in Hm. rewrite dget_combine_map in Hm.
    - injection Hm as <-. unfold bin_len. rewrite Hn. reflexivity.
    - apply in_app_iff. left. unfold dim_len in Hn. apply dget_In in Hn. apply in_combine_l in Hn. exact Hn.
  Qed.

  (** ** States *)

  (** The quantities [D] of the second state can be added to those of the first. *)
  Definition joins (D : list string) (a b : state T) : Prop :=
    forall X p, In X D -> dget X a = Some (VDA p) -> exists q, dget X b = Some (VDA q) /\ fits p q.

  Definition agree_res (D : list string) (r r' : res (state T)) : Prop :=
    match r, r' with
    | Ok s, Ok s' => agree_but D s s'
    | Err _, Err _ => True
    | _, _ => False
    end.

  Lemma agree_fold : forall D g g' (l l' : state T), ~ In "time" D -> agree_but D l l' -> (forall X a, ~ In X D -> g X a = g' X a) ->
    (forall X a, In X D -> dget X l = Some (VDA a) -> exists b, g X a = Ok b) ->
    (forall X a, In X D -> dget X l' = Some (VDA a) -> exists b, g' X a = Ok b) ->
    agree_res D (foldM (tstep_fold g) l (time_first l)) (foldM (tstep_fold g') l' (time_first l')).
  Proof.
    intros D g g' l l' Ht ((N & NT) & (N' & NT') & Ha) Hg Hd Hd'.
    assert (Et : time_first l' = time_first l) by (unfold time_first; rewrite (Ha "time" Ht); reflexivity). rewrite Et.
    assert (Half : forall k k' (x y : state T), NoDup (keys x) -> NoDup (keys y) -> (forall X t, In X D -> dget X y <> Some (VTime t)) ->
      (forall X, ~ In X D -> dget X x = dget X y) -> (forall X a, ~ In X D -> k X a = k' X a) ->
      (forall X a, In X D -> dget X y = Some (VDA a) -> exists b, k' X a = Ok b) ->
      (exists o, foldM (tstep_fold k) x (time_first l) = Ok o) -> exists o, foldM (tstep_fold k') y (time_first l) = Ok o).
    { intros k k' x y Nx Ny Hy Hxy Hk Hky Ho. apply fold_result; auto. apply (fold_result k x _ Nx) in Ho || (rewrite (fold_result k x _ Nx) in Ho).
      intros X v Hi Hne. apply dget_NoDup_In in Hi; auto. destruct (in_dec string_dec X D) as [HX|HX].
      - destruct v as [a|t]; [|contradiction (Hy X t HX Hi)]. destruct (Hky X a HX Hi) as (b & Hb). eauto.
      - rewrite <- (Hxy X HX) in Hi. apply dget_In in Hi. destruct (Ho X v Hi Hne) as (a & b & -> & Hb). exists a, b. split; auto. rewrite <- Hk; auto. }
    destruct (foldM (tstep_fold g) l (time_first l)) as [o|e] eqn:E; destruct (foldM (tstep_fold g') l' (time_first l)) as [o'|e'] eqn:E'; cbn [agree_res]; auto.
    - destruct (tstep_fold_ok _ _ _ _ E N) as (A1 & A2 & A3). destruct (tstep_fold_ok _ _ _ _ E' N') as (B1 & B2 & B3).
      destruct (time_first_get l) as (F1 & F2 & F3).
      assert (Ti : forall k (x z : state T), (forall X, X <> "time" -> match dget X x with None => dget X z = dget X (time_first l) | Some (VTime _) => False | Some (VDA a) => exists b, k X a = Ok b /\ dget X z = Some (VDA b) end) ->
        forall X t, In X D -> dget X z <> Some (VTime t)).
      { intros k x z H X t HX K. assert (Hne : X <> "time") by (intros ->; auto). specialize (H X Hne). rewrite (F2 X Hne) in H.
        destruct (dget X x) as [[a|u]|]; [|destruct H|congruence]. destruct H as (b & _ & H). congruence. }
      split; [split; [auto|exact (Ti _ _ _ A2)]|]. split; [split; [auto|exact (Ti _ _ _ B2)]|].
      intros X HX. destruct (string_dec X "time") as [->|Hne]; [congruence|]. specialize (A2 X Hne). specialize (B2 X Hne). rewrite (Ha X HX) in A2.
      destruct (dget X l') as [[a|t]|]; [|destruct A2|congruence]. destruct A2 as (b & K1 & ->). destruct B2 as (b' & K2 & ->). rewrite (Hg X a HX) in K1. congruence.
    - destruct (Half g g' l l' N N' NT' Ha Hg Hd') as (x & Hx); [eauto|congruence].
    - destruct (Half g' g l' l N' N NT (fun X H => eq_sym (Ha X H)) (fun X a H => eq_sym (Hg X a H)) Hd) as (x & Hx); [eauto|congruence].
  Qed.

  Lemma agree_multiply : forall D x (st st' : state T), ~ In "time" D -> agree_but D st st' -> agree_res D (multiply x st) (multiply x st').
  Proof.
    intros D x st st' Ht H. refine (agree_fold D (fun _ a => Ok (da_map (fun y => amul x y) (attrs a) a)) (fun _ a => Ok (da_map (fun y => amul x y) (attrs a) a)) st st' Ht H _ _ _); eauto.
  Qed.

  Lemma agree_add : forall D (a a' b b' : state T), ~ In "time" D -> agree_but D a a' -> agree_but D b b' -> joins D a b -> joins D a' b' ->
    agree_res D (add_states a b) (add_states a' b').
  Proof.
    intros D a a' b b' Ht Ha (_ & _ & Hb) J J'. rewrite !add_states_fold. apply agree_fold; auto.
    - intros X p HX. unfold state_da, dgetE. rewrite (Hb X HX). reflexivity.
    - intros X p HX Hp. destruct (J X p HX Hp) as (q & Hq & Hf). unfold state_da, dgetE. rewrite Hq. cbn [bind]. unfold da_add, da_binop. rewrite (fits_agree _ _ Hf). eauto.
    - intros X p HX Hp. destruct (J' X p HX Hp) as (q & Hq & Hf). unfold state_da, dgetE. rewrite Hq. cbn [bind]. unfold da_add, da_binop. rewrite (fits_agree _ _ Hf). eauto.
  Qed.

  (** The quantities [D] are those of another state. *)
  Definition kept (D : list string) (st x : state T) : Prop := forall X, In X D -> dget X x = dget X st.

  Lemma joins_multiply : forall D x y (st1 st2 a b : state T), ~ In "time" D -> NoDup (keys st1) -> NoDup (keys st2) ->
    multiply x st1 = Ok a -> multiply y st2 = Ok b -> joins D st1 st2 -> joins D a b.
  Proof.
    intros D x y st1 st2 a b Ht N1 N2 Ha Hb J X p HX Hp. apply multiply_ok in Ha as (_ & Ha & _); auto. apply multiply_ok in Hb as (_ & Hb & _); auto.
    assert (Hne : X <> "time") by (intros ->; auto). specialize (Ha X Hne). specialize (Hb X Hne). destruct (dget X st1) as [[p0|t]|] eqn:E; [|destruct Ha|congruence].
    destruct (J X p0 HX E) as (q & Hq & Hf). rewrite Hq in Hb. rewrite Hp in Ha. injection Ha as ->. eexists. split; [exact Hb|]. apply fits_map. exact Hf.
  Qed.

  Lemma joins_kept : forall D (st x : state T), kept D st x -> joins D st x.
  Proof. intros D st x K X p HX Hp. exists p. rewrite (K X HX). split; [exact Hp|apply fits_self]. Qed.

  Lemma joins_sum : forall D x (st a b out : state T), ~ In "time" D -> NoDup (keys st) -> multiply x st = Ok a -> add_states a b = Ok out -> joins D st out.
  Proof.
    intros D x st a b out Ht N Ha Ho X p HX Hp. pose proof Ha as Ha'. apply multiply_ok in Ha as (_ & Ha & Na); auto. apply add_states_ok in Ho as (_ & Ho & _); auto.
    assert (Hne : X <> "time") by (intros ->; auto). specialize (Ha X Hne). specialize (Ho X Hne). rewrite Hp in Ha. rewrite Ha in Ho.
    destruct Ho as (q & s & _ & Hs & Eo). exists s. split; [exact Eo|]. intros d n m Hn Hm. apply (fits_sum _ _ _ _ _ Hs d n m); auto.
  Qed.

  Lemma joins_trans : forall D (st x y : state T), joins D st x -> kept D x y -> joins D st y.
  Proof. intros D st x y J K X p HX Hp. destruct (J X p HX Hp) as (q & Hq & Hf). exists q. split; [rewrite (K X HX); exact Hq|exact Hf]. Qed.

  (** ** One Euler stage *)

  Definition stage_like {U} (Fit : U -> Prop) (D : list string) (dt : Z) (st st' : state T)
      (c c' : (ab T * U) * res (stepped T)) : Prop :=
    (euler_object dt (fst (fst c)) /\ Fit (snd (fst c))) /\ (euler_object dt (fst (fst c')) /\ Fit (snd (fst c'))) /\
    match snd c, snd c' with
    | Ok (d, n), Ok (d', n') => d = d' /\ agree_but D n n' /\ kept D st n /\ kept D st' n'
    | Err _, Err _ => True
    | _, _ => False
    end.

  Lemma inner_euler_like : forall {U} (Fit : U -> Prop) D (prog : icaller (T:=T) U) dt a u a' u' (st st' : state T), heedless Fit D prog ->
    euler_object dt a -> euler_object dt a' -> Fit u -> Fit u' -> agree_but D st st' ->
    stage_like Fit D dt st st' (inner_euler prog (a, u) st dt) (inner_euler prog (a', u') st' dt).
  Proof.
    intros U Fit D prog dt a u a' u' st st' [Hp Hk] [Ha Hd] [Ha' Hd'] Fu Fu' Hs. unfold inner_euler, ab_call, stage_like.
    assert (E : ensure_timestep (ab_dt a) dt = Ok tt) by (apply ensure_timestep_ok; auto).
    assert (E' : ensure_timestep (ab_dt a') dt = Ok tt) by (apply ensure_timestep_ok; auto).
    rewrite E, E'. destruct (Hp u u' st st' dt Fu Fu' Hs) as (F1 & F1' & Hr). destruct (prog u st dt) as [u1 r] eqn:Ep. destruct (prog u' st' dt) as [u1' r'] eqn:Ep'. cbn [fst snd] in F1, F1', Hr. subst r'.
    destruct r as [[t d]|e]; cbn [bind fst snd].
    2: split; [split; [split; cbn; auto|auto]|]; split; [split; [split; cbn; auto|auto]|]; exact I.
    destruct (Hk _ _ _ _ _ _ Ep) as (Nt & Hkt). pose proof Hs as (_ & _ & Hs3).
    assert (Ec : convert_tendencies st t = convert_tendencies st' t).
    { apply mapM_ext_in. intros [k x] Hx. unfold convert_one. assert (Hkd : ~ In k D) by (apply Hkt; apply (in_map fst) in Hx; exact Hx).
      unfold dgetE. rewrite (Hs3 k Hkd). reflexivity. }
    rewrite <- Ec. destruct (convert_tendencies st t) as [tend|e] eqn:Et; cbn [bind].
    2: cbn [fst snd]; split; [split; [split; cbn; auto|auto]|]; split; [split; [split; cbn; auto|auto]|]; exact I.
    assert (Ee : step_forward_euler st tend dt = step_forward_euler st' tend dt).
    { apply mapM_ext_in. intros k Hx. rewrite (convert_keys _ _ _ Et) in Hx. unfold euler_one, state_da, dgetE. rewrite (Hs3 k (Hkt k Hx)). reflexivity. }
    rewrite Ha, Ha', !perform_step_1. rewrite <- Ee. destruct (step_forward_euler st tend dt) as [new|e] eqn:En.
    2: cbn [fst snd]; split; [split; [split; cbn; auto|auto]|]; split; [split; [split; cbn; auto|auto]|]; exact I.
    cbn [fst snd]. split; [split; [split; cbn; auto|auto]|]. split; [split; [split; cbn; auto|auto]|]. cbn [bind fst snd].
    pose proof (for_keys_ok _ _ _ En) as (Ek & _ & Eo). rewrite (convert_keys _ _ _ Et) in Ek, Eo.
    assert (Hc : agree_but D (copy_untouched st new) (copy_untouched st' new)).
    { apply agree_copy; [exact Hs|]. apply agree_refl. split; [rewrite Ek; exact Nt|exact (euler_no_time _ _ _ _ D En)]. }
    split; [reflexivity|]. split; [apply agree_copy; auto|].
    assert (K : forall x : state T, kept D x (copy_untouched x (copy_untouched x new))).
    { intros x X HX. rewrite !copy_untouched_get. rewrite (Eo X) by (intros K; exact (Hkt X K HX)). destruct (dget X x); reflexivity. }
    split; apply K.
  Qed.

  Lemma kept_trans : forall D (x y z : state T), kept D x y -> kept D y z -> kept D x z.
  Proof. intros D x y z H K X HX. rewrite (K X HX). auto. Qed.

  (** The stages of a call. *)
  Definition call_like {U} (Fit : U -> Prop) (D : list string) (dt : Z) (c c' : (ab T * U) * res (stepped T)) : Prop :=
    (euler_object dt (fst (fst c)) /\ Fit (snd (fst c))) /\ (euler_object dt (fst (fst c')) /\ Fit (snd (fst c'))) /\
    same_but D (snd c) (snd c').

  Lemma rk2_like : forall {U} (Fit : U -> Prop) D (prog : icaller (T:=T) U) dt a u a' u' (st st' : state T), heedless Fit D prog -> ~ In "time" D ->
    euler_object dt a -> euler_object dt a' -> Fit u -> Fit u' -> agree_but D st st' ->
    call_like Fit D dt (rk2 prog (a, u) st dt) (rk2 prog (a', u') st' dt).
  Proof.
    intros U Fit D prog dt a u a' u' st st' Hh Ht Ha Ha' Fu Fu' Hs. unfold rk2.
    destruct (inner_euler_like Fit D prog dt a u a' u' st st' Hh Ha Ha' Fu Fu' Hs) as (O1 & O1' & R1).
    destruct (inner_euler prog (a, u) st dt) as [[a1 u1] r1]. destruct (inner_euler prog (a', u') st' dt) as [[a1' u1'] r1']. cbn [fst snd] in *.
    destruct O1 as (Ha1 & Fu1). destruct O1' as (Ha1' & Fu1').
    destruct r1 as [[d n]|e]; destruct r1' as [[d' n']|e']; try contradiction.
    2: { split; [cbn; auto|]. split; [cbn; auto|]. exact I. }
    destruct R1 as (<- & Hn & K & K').
    destruct (inner_euler_like Fit D prog dt a1 u1 a1' u1' n n' Hh Ha1 Ha1' Fu1 Fu1' Hn) as (O2 & O2' & R2).
    destruct (inner_euler prog (a1, u1) n dt) as [[a2 u2] r2]. destruct (inner_euler prog (a1', u1') n' dt) as [[a2' u2'] r2']. cbn [fst snd] in *.
    split; [exact O2|]. split; [exact O2'|].
    destruct r2 as [[d2 n2]|e]; destruct r2' as [[d2' n2']|e']; try contradiction; cbn [bind fst snd]; [|exact I].
    destruct R2 as (_ & Hn2 & K2 & K2').
    assert (S1 := agree_add D st st' n2 n2' Ht Hs Hn2 (joins_kept _ _ _ (kept_trans _ _ _ _ K K2)) (joins_kept _ _ _ (kept_trans _ _ _ _ K' K2'))).
    destruct (add_states st n2) as [s|e]; destruct (add_states st' n2') as [s'|e']; try contradiction; cbn [bind]; [|exact I].
    assert (S2 := agree_multiply D (aofQ (1 # 2)) s s' Ht S1).
    destruct (multiply (aofQ (1 # 2)) s) as [o|e]; destruct (multiply (aofQ (1 # 2)) s') as [o'|e']; try contradiction; cbn [bind same_but]; [|exact I].
    split; [reflexivity|exact S2].
  Qed.

  (** x * st + y * st1, for two states each *)
  Lemma mix_like : forall D x y (st st' n n' : state T), ~ In "time" D -> agree_but D st st' -> agree_but D n n' -> joins D st n -> joins D st' n' ->
    let m := let* a := multiply x st in let* b := multiply y n in add_states a b in
    let m' := let* a := multiply x st' in let* b := multiply y n' in add_states a b in
    agree_res D m m' /\ (forall o, m = Ok o -> joins D st o) /\ (forall o, m' = Ok o -> joins D st' o).
  Proof.
    intros D x y st st' n n' Ht Hs Hn J J'. cbv zeta.
    assert (S1 := agree_multiply D x st st' Ht Hs). assert (S2 := agree_multiply D y n n' Ht Hn).
    pose proof Hs as ((N1 & _) & (N1' & _) & _). pose proof Hn as ((N2 & _) & (N2' & _) & _).
    destruct (multiply x st) as [a|e] eqn:Ea; destruct (multiply x st') as [a'|e'] eqn:Ea'; try contradiction; cbn [bind].
    2: { split; [exact I|]. split; intros o E; discriminate E. }
    destruct (multiply y n) as [b|e] eqn:Eb; destruct (multiply y n') as [b'|e'] eqn:Eb'; try contradiction; cbn [bind].
    2: { split; [exact I|]. split; intros o E; discriminate E. }
    split; [exact (agree_add D a a' b b' Ht S1 S2 (joins_multiply _ _ _ _ _ _ _ Ht N1 N2 Ea Eb J) (joins_multiply _ _ _ _ _ _ _ Ht N1' N2' Ea' Eb' J'))|].
    split; intros o E; [exact (joins_sum _ _ _ _ _ _ Ht N1 Ea E)|exact (joins_sum _ _ _ _ _ _ Ht N1' Ea' E)].
  Qed.

  Lemma rk3_like : forall {U} (Fit : U -> Prop) D (prog : icaller (T:=T) U) dt a u a' u' (st st' : state T), heedless Fit D prog -> ~ In "time" D ->
    euler_object dt a -> euler_object dt a' -> Fit u -> Fit u' -> agree_but D st st' ->
    call_like Fit D dt (rk3 prog (a, u) st dt) (rk3 prog (a', u') st' dt).
  Proof.
    intros U Fit D prog dt a u a' u' st st' Hh Ht Ha Ha' Fu Fu' Hs. unfold rk3.
    destruct (inner_euler_like Fit D prog dt a u a' u' st st' Hh Ha Ha' Fu Fu' Hs) as (O1 & O1' & R1).
    destruct (inner_euler prog (a, u) st dt) as [[a1 u1] r1]. destruct (inner_euler prog (a', u') st' dt) as [[a1' u1'] r1']. cbn [fst snd] in *.
    destruct O1 as (Ha1 & Fu1). destruct O1' as (Ha1' & Fu1').
    destruct r1 as [[d n]|e]; destruct r1' as [[d' n']|e']; try contradiction.
    2: { split; [cbn; auto|]. split; [cbn; auto|]. exact I. }
    destruct R1 as (<- & Hn & K & K').
    destruct (inner_euler_like Fit D prog dt a1 u1 a1' u1' n n' Hh Ha1 Ha1' Fu1 Fu1' Hn) as (O2 & O2' & R2).
    destruct (inner_euler prog (a1, u1) n dt) as [[a2 u2] r2]. destruct (inner_euler prog (a1', u1') n' dt) as [[a2' u2'] r2']. cbn [fst snd] in *.
    destruct r2 as [[d2 n2]|e]; destruct r2' as [[d2' n2']|e']; try contradiction; cbn [bind fst snd].
    2: { split; [exact O2|]. split; [exact O2'|]. exact I. }
    destruct R2 as (_ & Hn2 & K2 & K2').
    destruct (mix_like D (aofQ (3 # 4)) (aofQ (1 # 4)) st st' n2 n2' Ht Hs Hn2 (joins_kept _ _ _ (kept_trans _ _ _ _ K K2)) (joins_kept _ _ _ (kept_trans _ _ _ _ K' K2'))) as (M & J & J').
    destruct (let* a := multiply (aofQ (3 # 4)) st in let* b := multiply (aofQ (1 # 4)) n2 in add_states a b) as [m|e];
    destruct (let* a := multiply (aofQ (3 # 4)) st' in let* b := multiply (aofQ (1 # 4)) n2' in add_states a b) as [m'|e']; try contradiction.
    2: { split; [exact O2|]. split; [exact O2'|]. exact I. }
    specialize (J m eq_refl). specialize (J' m' eq_refl). destruct O2 as (Ha2 & Fu2). destruct O2' as (Ha2' & Fu2').
    destruct (inner_euler_like Fit D prog dt a2 u2 a2' u2' m m' Hh Ha2 Ha2' Fu2 Fu2' M) as (O3 & O3' & R3).
    destruct (inner_euler prog (a2, u2) m dt) as [[a3 u3] r3]. destruct (inner_euler prog (a2', u2') m' dt) as [[a3' u3'] r3']. cbn [fst snd] in *.
    split; [exact O3|]. split; [exact O3'|]. cbn [snd].
    destruct r3 as [[d3 n3]|e]; destruct r3' as [[d3' n3']|e']; try contradiction; cbn [bind fst snd]; [|exact I].
    destruct R3 as (_ & Hn3 & K3 & K3').
    destruct (mix_like D (aofQ (1 # 3)) (aofQ (2 # 3)) st st' n3 n3' Ht Hs Hn3 (joins_trans _ _ _ _ J K3) (joins_trans _ _ _ _ J' K3')) as (M3 & _ & _).
    destruct (multiply (aofQ (1 # 3)) st) as [p|e]; destruct (multiply (aofQ (1 # 3)) st') as [p'|e']; cbn [bind] in *;
      try destruct (multiply (aofQ (2 # 3)) n3) as [q|e1]; try destruct (multiply (aofQ (2 # 3)) n3') as [q'|e1']; cbn [bind] in *;
      try destruct (add_states p q) as [o|e2]; try destruct (add_states p' q') as [o'|e2']; cbn [bind agree_res same_but] in *; try contradiction; auto.
  Qed.

  (** A call. *)
  Theorem main_rk_memoryless : forall {U} Fit D stages cfg (prog : icaller (T:=T) U) dt, heedless Fit D prog -> ~ In "time" D ->
    (forall X, In X (keys (ts_out cfg)) -> ~ In X D) ->
    memoryless (fun w => rk_stages (fst w) = stages /\ euler_object dt (rk_euler (fst w)) /\ Fit (snd w)) D dt (ssp_rk cfg prog).
  Proof.
    intros U Fit D stages cfg prog dt Hh Ht Ho [k u] [k' u'] st st' (Ek & Ha & Fu) (Ek' & Ha' & Fu') Hs. cbn [fst snd] in *. unfold ssp_rk. rewrite Ek, Ek'.
    assert (L : call_like Fit D dt ((if Nat.eqb stages 2 then rk2 else rk3) prog (rk_euler k, u) st dt) ((if Nat.eqb stages 2 then rk2 else rk3) prog (rk_euler k', u') st' dt)).
    { destruct (Nat.eqb stages 2); [apply rk2_like|apply rk3_like]; auto. }
    destruct ((if Nat.eqb stages 2 then rk2 else rk3) prog (rk_euler k, u) st dt) as [[e u1] r].
    destruct ((if Nat.eqb stages 2 then rk2 else rk3) prog (rk_euler k', u') st' dt) as [[e' u1'] r']. destruct L as (L1 & L2 & L3). cbn [fst snd] in *.
    split; [tauto|]. split; [tauto|]. destruct r as [[d n]|er]; destruct r' as [[d' n']|er']; try contradiction; unfold finish_step; cbn [bind fst snd]; [|exact I].
    destruct L3 as (<- & Hn). pose proof (agree_copy D _ _ _ _ Hs Hn) as Hc. destruct (ts_tid cfg); cbn [bind].
    - rewrite <- (agree_insert D cfg dt st st' _ _ d Ho Hs Hc). destruct (insert_differences cfg dt st (copy_untouched st n) d); cbn [bind same_but]; auto.
    - cbn [same_but]. auto.
  Qed.

  (** ** The diagnostics are those of the first stage *)

  Lemma inner_euler_diag : forall {U} (prog : icaller (T:=T) U) a u (st : state T) dt s d n, inner_euler prog (a, u) st dt = (s, Ok (d, n)) ->
    exists u' t, prog u st dt = (u', Ok (t, d)).
  Proof.
    intros U prog a u st dt s d n H. unfold inner_euler, ab_call in H. destruct (ensure_timestep (ab_dt a) dt) as [z|e]; [|discriminate H].
    destruct (prog u st dt) as [u1 r1]. destruct r1 as [[t1 dg]|e]; cbn [bind fst snd] in H; [|discriminate H].
    destruct (convert_tendencies st t1) as [tend|e]; cbn [bind] in H; [|discriminate H].
    destruct (perform_step (ab_order a) (ab_hist a ++ [tend]) st dt) as [nw|e]; cbn [bind fst snd] in H; [|discriminate H]. injection H as _ <- _. eauto.
  Qed.

  Lemma rk_diag : forall {U} cfg (prog : icaller (T:=T) U) k u (st : state T) dt s d n, ts_tid cfg = false -> ssp_rk cfg prog (k, u) st dt = (s, Ok (d, n)) ->
    exists u' t, prog u st dt = (u', Ok (t, d)).
  Proof.
    intros U cfg prog k u st dt s d n Hc H. unfold ssp_rk in H.
    destruct ((if Nat.eqb (rk_stages k) 2 then rk2 else rk3) prog (rk_euler k, u) st dt) as [[e u1] r] eqn:E. injection H as _ H.
    unfold finish_step in H. rewrite Hc in H. apply bind_ok in H as ([d1 n1] & -> & H). injection H as <- _. cbn [fst].
    destruct (Nat.eqb (rk_stages k) 2).
    - unfold rk2 in E. destruct (inner_euler prog (rk_euler k, u) st dt) as [s1 r1] eqn:E1. destruct r1 as [[d2 n2]|x]; [|discriminate E].
      destruct (inner_euler prog s1 n2 dt) as [s2 r2]. injection E as _ E. apply bind_ok in E as (dn & _ & E). apply bind_ok in E as (sm & _ & E). apply bind_ok in E as (o & _ & E).
      injection E as <- _. eapply inner_euler_diag; exact E1.
    - unfold rk3 in E. destruct (inner_euler prog (rk_euler k, u) st dt) as [s1 r1] eqn:E1. destruct r1 as [[d2 n2]|x]; [|discriminate E].
      destruct (inner_euler prog s1 n2 dt) as [s2 r2].
      destruct (let* dn := r2 in let* a := multiply (aofQ (3 # 4)) st in let* b := multiply (aofQ (1 # 4)) (snd dn) in add_states a b) as [m|x]; [|discriminate E].
      destruct (inner_euler prog s2 m dt) as [s3 r3]. injection E as _ E. apply bind_ok in E as (dn & _ & E). apply bind_ok in E as (p & _ & E). apply bind_ok in E as (q & _ & E). apply bind_ok in E as (o & _ & E).
      injection E as <- _. eapply inner_euler_diag; exact E1.
  Qed.

  Theorem main_rk_diagnoses : forall {U} cfg g (cs : list (tcomp * (Z -> U -> dict (rval T) -> U * res (dict (nd T) * dict (nd T))))) dt,
    ts_tid cfg = false -> (forall ca, In ca cs -> t_tid (fst ca) = false /\ t_added (fst ca) = []) ->
    diagnoses dt (ssp_rk cfg (SpecLocal.called g cs)) (concat (map (fun ca => keys (t_diag (fst ca))) cs)).
  Proof.
    intros U cfg g cs dt Hc Hcs [k u] st w d new H. apply rk_diag in H as (u' & t & H); [|exact Hc]. exact (called_diagnoses g cs dt st Hcs _ _ _ _ H).
  Qed.
End RK.
