(** Lemmas about SSPRungeKutta with states that agree on some quantities (C82). *)
From Coq Require Import String List Bool Arith Lia ZArith QArith Qcanon.
From Verif Require Import Prelude PreludeFacts ArithM NdArray NdFacts Units DataArrayM DaFacts SpecComposite Tracers Components Composite Steppers MainLoop SpecComponents SpecSteppers SteppersFacts RKFacts SpecLocal LocalFacts.
Import ListNotations.
Open Scope string_scope.
Open Scope nat_scope.
Open Scope list_scope.

Section LocalRK.
  Context {T : Type} {A : Arith T} {R : Registry}.
  Implicit Types st new : state T.

  Definition sum_of (p q : da T) : da T := match da_add p q with Ok s => s | Err _ => p end.

  Lemma da_add_cases : forall p q : da T, da_add p q = if sizes_agree p q then Ok (sum_of p q) else Err EValue.
  Proof. intros p q. unfold sum_of, da_add, da_binop. destruct (sizes_agree p q); auto. Qed.

  Lemma sizes_agree_map : forall f g at1 at2 (p q : da T), sizes_agree (da_map f at1 p) (da_map g at2 q) = sizes_agree p q.
  Proof. 
    intros. unfold sizes_agree, dim_len. reflexivity.
  Qed.

  Definition only_time st : Prop := forall X t, dget X st = Some (VTime t) -> X = "time".

  Definition covers st new : Prop := forall X p, X <> "time" -> dget X st = Some (VDA p) -> exists q, dget X new = Some (VDA q).

  Lemma dget_of_In : forall {V} (d : dict V) k v, NoDup (keys d) -> In (k, v) d -> dget k d = Some v.
  Proof.
    intros V d. induction d as [|[k0 v0] d IH]; intros k v Hnd Hin; [destruct Hin|]. destruct Hin as [E|Hin]; cbn [dget]; inversion Hnd; subst.
    - injection E as -> ->. rewrite String.eqb_refl. auto.
    - destruct (String.eqb k k0) eqn:E; auto. apply String.eqb_eq in E; subst. exfalso. apply H1. apply in_map_iff. exists (k0, v). auto.
  Qed.

  Lemma multiply_total : forall x st, NoDup (keys st) -> only_time st -> exists out, multiply x st = Ok out.
  Proof.
    intros x st Hnd Ht. unfold multiply.
    assert (K : forall l acc, incl l st -> exists out, foldM (multiply_step x) l acc = Ok out).
    { induction l as [|[k v] l IH]; intros acc Hi; cbn [foldM]; eauto. unfold multiply_step at 1. cbn [fst snd].
      assert (Hl : incl l st) by (intros y Hy; apply Hi; right; auto).
      destruct (String.eqb k "time") eqn:Ek; cbn [bind]; auto. destruct v as [a|t]; cbn [bind]; auto.
      exfalso. apply String.eqb_neq in Ek. apply Ek, (Ht k t). apply dget_of_In; auto. apply Hi. left; auto. }
    apply K. intros y Hy; auto.
  Qed.

  Lemma add_cases : forall st1 st2, NoDup (keys st1) -> only_time st1 -> covers st1 st2 ->
    (add_states st1 st2 = Err EValue /\
     exists X p q, X <> "time" /\ dget X st1 = Some (VDA p) /\ dget X st2 = Some (VDA q) /\ sizes_agree p q = false) \/
    (exists out, add_states st1 st2 = Ok out).
  Proof.
    intros st1 st2 Hnd Ht Hc. unfold add_states.
    assert (K : forall l acc, incl l st1 -> (foldM (add_states_step st2) l acc = Err EValue /\
       exists X p q, X <> "time" /\ dget X st1 = Some (VDA p) /\ dget X st2 = Some (VDA q) /\ sizes_agree p q = false) \/
       (exists out, foldM (add_states_step st2) l acc = Ok out)).
    { induction l as [|[k v] l IH]; intros acc Hi; cbn [foldM]; eauto. unfold add_states_step at 1 3. cbn [fst snd].
      assert (Hl : incl l st1) by (intros y Hy; apply Hi; right; auto).
      destruct (String.eqb k "time") eqn:Ek; cbn [bind]; auto. apply String.eqb_neq in Ek.
      assert (Eg : dget k st1 = Some v) by (apply dget_of_In; auto; apply Hi; left; auto).
      destruct v as [p|t]; [|exfalso; eauto]. destruct (Hc k p Ek Eg) as (q & Eq).
      unfold state_da, dgetE. rewrite Eq. cbn [bind]. rewrite da_add_cases. destruct (sizes_agree p q) eqn:Es; cbn [bind]; auto.
      left. split; auto. exists k, p, q. auto. }
    apply K. intros y Hy; auto.
  Qed.

  (** What one combination of two states does, whether or not it succeeds. *)
  Definition combines (comb : state T -> state T -> res (state T)) (h : da T -> da T -> da T) : Prop :=
    (forall p q, (forall d, dim_len q d = dim_len p d) -> wf_da p -> wf_da q -> wf_da (h p q) /\ forall d, dim_len (h p q) d = dim_len p d) /\
    forall st new, NoDup (keys st) -> NoDup (keys new) -> only_time st -> only_time new -> covers st new ->
    (comb st new = Err EValue /\ exists X p q, X <> "time" /\ dget X st = Some (VDA p) /\ dget X new = Some (VDA q) /\ sizes_agree p q = false) \/
    (exists out, comb st new = Ok out /\ NoDup (keys out) /\ dget "time" out = dget "time" st /\
       forall X, X <> "time" ->
         match dget X st with
         | None => dget X out = None
         | Some (VTime _) => False
         | Some (VDA p) => exists q, dget X new = Some (VDA q) /\ sizes_agree p q = true /\ dget X out = Some (VDA (h p q))
         end).

  Lemma sum_like : forall p q : da T, (forall d, dim_len q d = dim_len p d) -> wf_da p -> wf_da q ->
    wf_da (sum_of p q) /\ forall d, dim_len (sum_of p q) d = dim_len p d.
  Proof.
    intros p q H Wp Wq. unfold sum_of. destruct (da_add p q) as [s|e] eqn:E; auto.
    apply da_binop_ok in E as (Ws & _ & _ & _ & Hl & _); auto. split; auto. intros d. rewrite Hl, H. destruct (dim_len p d); auto.
  Qed.

  Lemma mix_combines : forall x y, combines (fun st new => let* a := multiply x st in let* b := multiply y new in add_states a b)
    (fun p q => sum_of (da_map (fun z => amul x z) (attrs p) p) (da_map (fun z => amul y z) (attrs q) q)).
  Proof.
    intros x y. split.
    { intros p q H Wp Wq. apply (sum_like (da_map (fun z => amul x z) (attrs p) p) (da_map (fun z => amul y z) (attrs q) q)); try (apply wf_da_map; auto). exact H. }
    intros st new N N' O O' C. destruct (multiply_total x st N O) as (a & Ea). destruct (multiply_total y new N' O') as (b & Eb).
    rewrite Ea, Eb. cbn [bind]. apply multiply_ok in Ea as (A1 & A2 & A3); auto. apply multiply_ok in Eb as (B1 & B2 & B3); auto.
    assert (Oa : only_time a).
    { intros X t E. destruct (string_dec X "time") as [|HX]; auto. specialize (A2 X HX). destruct (dget X st) as [[p|]|]; congruence || contradiction. }
    assert (Ca : covers a b).
    { intros X p HX E. specialize (A2 X HX). destruct (dget X st) as [[p0|]|] eqn:Es; try contradiction; try congruence.
      destruct (C X p0 HX Es) as (q & Eq). specialize (B2 X HX). rewrite Eq in B2. eauto. }
    destruct (add_cases a b A3 Oa Ca) as [(E & X & p & q & HX & Ep & Eq & Es)|(out & E)].
    - left. split; auto. specialize (A2 X HX). specialize (B2 X HX).
      destruct (dget X st) as [[p0|]|] eqn:Es0; try contradiction; try congruence.
      destruct (dget X new) as [[q0|]|] eqn:En0; try contradiction; try congruence.
      exists X, p0, q0. repeat split; auto. rewrite Ep in A2. injection A2 as ->. rewrite Eq in B2. injection B2 as ->. rewrite sizes_agree_map in Es. auto.
    - right. exists out. split; auto. apply add_states_ok in E as (E1 & E2 & E3); auto. split; auto. split; [congruence|].
      intros X HX. specialize (A2 X HX). specialize (B2 X HX). specialize (E2 X HX). destruct (dget X st) as [[p|]|] eqn:Es; auto.
      + rewrite A2 in E2. destruct E2 as (q' & s & Hq & Hs & Ho). destruct (C X p HX Es) as (q & Eq). rewrite Eq in B2.
        rewrite B2 in Hq. injection Hq as <-. exists q. split; auto. rewrite da_add_cases, sizes_agree_map in Hs.
        destruct (sizes_agree p q); [|discriminate]. split; auto. congruence.
      + rewrite A2 in E2. auto.
  Qed.

  Lemma half_combines : forall y, combines (fun st new => let* s := add_states st new in multiply y s)
    (fun p q => da_map (fun z => amul y z) (attrs (sum_of p q)) (sum_of p q)).
  Proof.
    intros y. split.
    { intros p q H Wp Wq. destruct (sum_like p q H Wp Wq) as [K1 K2]. split; [apply wf_da_map; auto|]. intros d. rewrite dim_len_map. auto. }
    intros st new N N' O O' C. destruct (add_cases st new N O C) as [(E & K)|(s & E)]; rewrite E; cbn [bind]; auto.
    right. apply add_states_ok in E as (E1 & E2 & E3); auto.
    assert (Os : only_time s).
    { intros X t K. destruct (string_dec X "time") as [|HX]; auto. specialize (E2 X HX). destruct (dget X st) as [[p|]|]; try contradiction; try congruence.
      destruct E2 as (b & r & _ & _ & E2). congruence. }
    destruct (multiply_total y s E3 Os) as (out & Eo). exists out. split; auto. apply multiply_ok in Eo as (O1 & O2 & O3); auto. split; auto. split; [congruence|].
    intros X HX. specialize (E2 X HX). specialize (O2 X HX). destruct (dget X st) as [[p|]|] eqn:Es; auto.
    - destruct E2 as (q & r & Eq & Er & Eg). exists q. split; auto. rewrite da_add_cases in Er. destruct (sizes_agree p q); [|discriminate].
      injection Er as <-. rewrite Eg in O2. auto.
    - rewrite E2 in O2. auto.
  Qed.

  (** [new] is as [st] outside [names], up to values. *)
  Definition shaped (names : list string) st new : Prop :=
    forall X, ~ In X names -> X <> "time" ->
      match dget X st with
      | None => dget X new = None
      | Some (VTime _) => False
      | Some (VDA p) => exists q, dget X new = Some (VDA q) /\ wf_da q /\ forall d, dim_len q d = dim_len p d
      end.

  Lemma plain_combine : forall names comb h st new out, combines comb h -> plain names st -> NoDup (keys new) -> only_time new -> covers st new ->
    shaped names st new -> comb st new = Ok out ->
    plain names out /\ shaped names st out /\ covers st out.
  Proof.
    intros names comb h st new out [Ch Cc] (N & O & W) Nn On Co Sh E.
    destruct (Cc st new N Nn O On Co) as [(E' & _)|(out' & E' & No & Et & K)]; rewrite E in E'; [discriminate|]. injection E' as <-.
    assert (Sh' : shaped names st out).
    { intros X HX HT. specialize (Sh X HX HT). specialize (K X HT). destruct (dget X st) as [[p|]|] eqn:Es; auto.
      destruct Sh as (q & Eq & Wq & Hq). destruct K as (q' & Eq' & _ & Eo). assert (q' = q) as -> by congruence.
      destruct (Ch p q Hq (W X p HX Es) Wq) as [K1 K2]. exists (h p q). split; auto. }
    split; [split; [auto|split]|split; auto].
    - intros X t Eg. destruct (string_dec X "time") as [|HT]; auto. specialize (K X HT). destruct (dget X st) as [[p|]|]; try contradiction; try congruence.
      destruct K as (q & _ & _ & K). congruence.
    - intros X a HX Eg. destruct (string_dec X "time") as [->|HT]; [rewrite Et in Eg; eauto|].
      specialize (Sh' X HX HT). destruct (dget X st) as [[p|]|]; try contradiction; try congruence.
      destruct Sh' as (q & Eq & Wq & _). congruence.
    - intros X p HT Es. specialize (K X HT). rewrite Es in K. destruct K as (q & _ & _ & K). eauto.
  Qed.

  Lemma combine_agree : forall names comb h st st' new new', combines comb h ->
    plain names st -> plain names st' -> NoDup (keys new) -> NoDup (keys new') -> only_time new -> only_time new' ->
    covers st new -> covers st' new' -> shaped names st new -> shaped names st' new' ->
    agree_on names st st' -> agree_on names new new' ->
    match comb st new, comb st' new' with
    | Ok out, Ok out' => agree_on names out out'
    | Err e, Err e' => e = e'
    | _, _ => False
    end.
  Proof.
    assert (Half : forall names comb h st st' new new' out', combines comb h ->
      plain names st -> plain names st' -> NoDup (keys new) -> NoDup (keys new') -> only_time new -> only_time new' ->
      covers st new -> covers st' new' -> shaped names st new -> shaped names st' new' ->
      agree_on names st st' -> agree_on names new new' -> comb st' new' = Ok out' -> exists out, comb st new = Ok out).
    { intros names comb h st st' new new' out' [Ch Cc] (N & O & W) (N' & O' & W') Nn Nn' On On' Co Co' Sh Sh' H Hn E'.
      destruct (Cc st new N Nn O On Co) as [(E & X & p & q & HT & Ep & Eq & Es)|(out & E & _)]; eauto. exfalso.
      destruct (Cc st' new' N' Nn' O' On' Co') as [(E2 & _)|(out2 & E2 & _ & _ & K)]; [congruence|].
      destruct (in_dec string_dec X names) as [Hin|Hout].
      - specialize (K X HT). rewrite <- (H X Hin), Ep in K. destruct K as (q' & Eq' & Es' & _). rewrite <- (Hn X Hin), Eq in Eq'. injection Eq' as <-. congruence.
      - specialize (Sh X Hout HT). rewrite Ep in Sh. destruct Sh as (q' & Eq' & Wq & Hq). assert (q' = q) as -> by congruence.
        assert (sizes_agree p q = true); [|congruence]. apply sizes_agree_iff; [eauto|]. intros d n m Hn1 Hm. rewrite Hq in Hm. congruence. }
    intros names comb h st st' new new' HC P P' Nn Nn' On On' Co Co' Sh Sh' H Hn.
    destruct (comb st new) as [out|e] eqn:E, (comb st' new') as [out'|e'] eqn:E'.
    - destruct HC as [Ch Cc]. destruct P as (N & O & W), P' as (N' & O' & W').
      destruct (Cc st new N Nn O On Co) as [(F & _)|(o & F & _ & Ft & K)]; [congruence|]. assert (o = out) as -> by congruence.
      destruct (Cc st' new' N' Nn' O' On' Co') as [(F' & _)|(o' & F' & _ & Ft' & K')]; [congruence|]. assert (o' = out') as -> by congruence.
      intros X HX. destruct (string_dec X "time") as [->|HT]; [rewrite Ft, Ft'; auto|].
      specialize (K X HT). specialize (K' X HT). rewrite <- (H X HX) in K'. destruct (dget X st) as [[p|]|]; [|contradiction|congruence].
      destruct K as (q & Eq & _ & K). destruct K' as (q' & Eq' & _ & K'). rewrite <- (Hn X HX), Eq in Eq'. congruence.
    - assert (H' : agree_on names st' st) by (intros X HX; symmetry; auto). assert (Hn' : agree_on names new' new) by (intros X HX; symmetry; auto).
      destruct (Half names comb h st' st new' new out) as (o & F); auto. congruence.
    - destruct (Half names comb h st st' new new' out') as (o & F); auto. congruence.
    - destruct HC as [Ch Cc]. destruct P as (N & O & W), P' as (N' & O' & W').
      destruct (Cc st new N Nn O On Co) as [(F & _)|(o & F & _)]; [|congruence].
      destruct (Cc st' new' N' Nn' O' On' Co') as [(F' & _)|(o' & F' & _)]; congruence.
  Qed.

  (** ** SSPRungeKutta *)

  Definition stage (names : list string) st new : Prop :=
    NoDup (keys new) /\ only_time new /\ covers st new /\ shaped names st new.

  Lemma inner_agree : forall {U} names (prog : icaller U) a u st st' dt, reads names prog -> changes names prog -> known names a ->
    plain names st -> plain names st' -> agree_on names st st' ->
    fst (inner_euler prog (a, u) st dt) = fst (inner_euler prog (a, u) st' dt) /\
    known names (fst (fst (inner_euler prog (a, u) st dt))) /\
    same_result names (snd (inner_euler prog (a, u) st dt)) (snd (inner_euler prog (a, u) st' dt)) /\
    (forall d new, snd (inner_euler prog (a, u) st dt) = Ok (d, new) -> stage names st new /\ plain names new).
  Proof.
    intros U names prog a u st st' dt Hr Hc Ha P P' H. unfold inner_euler.
    destruct (ab_call_agree names prog a u st st' dt Hr Hc Ha H) as (K1 & K2 & K3 & K4).
    destruct (ab_call prog (a, u) st dt) as [s1 r1]. destruct (ab_call prog (a, u) st' dt) as [s1' r1']. cbn [fst snd] in *.
    split; auto. split; auto. split.
    - destruct r1 as [[d n]|e], r1' as [[d' n']|e']; cbn in *; try contradiction; auto. destruct K3 as [-> K3]. split; auto.
      apply copy_untouched_agree2; auto.
    - intros d new E. destruct r1 as [[d0 n]|e]; [|discriminate]. cbn [bind fst snd] in E. injection E as <- <-.
      destruct (K4 _ _ eq_refl) as (F1 & F2 & F3 & F4). destruct P as (N & O & W).
      assert (Eg : forall X, dget X (copy_untouched st n) = dget X n).
      { intros X. rewrite copy_untouched_get. destruct (dget X n) eqn:En; auto. destruct (dget X st) eqn:Es; auto. exfalso. apply (F4 X); congruence. }
      assert (On : only_time (copy_untouched st n)) by (intros X t E; rewrite Eg in E; eauto).
      split; [split; [|split; [|split]]|split; [|split]].
      + apply NoDup_copy_untouched; auto.
      + exact On.
      + intros X p HT E. rewrite Eg. destruct (dget X n) as [[q|t]|] eqn:En; eauto.
        * exfalso. apply HT. apply (O X t). eauto.
        * exfalso. apply (F4 X); [rewrite E; discriminate|auto].
      + intros X HX HT. rewrite Eg, (F1 X HX). destruct (dget X st) as [[p|t]|] eqn:E; auto.
        * exists p. split; auto. split; [eauto|auto].
        * apply HT. eauto.
      + apply NoDup_copy_untouched; auto.
      + exact On.
      + intros X b HX E. rewrite Eg, (F1 X HX) in E. eauto.
  Qed.

  Lemma shaped_trans : forall names st1 st2 st3, shaped names st1 st2 -> shaped names st2 st3 -> shaped names st1 st3.
  Proof.
    intros names st1 st2 st3 H1 H2 X HX HT. specialize (H1 X HX HT). specialize (H2 X HX HT). destruct (dget X st1) as [[p|]|]; auto.
    - destruct H1 as (q & Eq & Wq & Hq). rewrite Eq in H2. destruct H2 as (r & Er & Wr & Hr). exists r. split; auto. split; auto. intros d. rewrite Hr, Hq. auto.
    - rewrite H1 in H2. auto.
  Qed.

  Lemma covers_trans : forall st1 st2 st3, covers st1 st2 -> covers st2 st3 -> covers st1 st3.
  Proof. intros st1 st2 st3 H1 H2 X p HT E. destruct (H1 X p HT E) as (q & Eq). eauto. Qed.

  Lemma stage_trans : forall names st1 st2 st3, covers st1 st2 -> shaped names st1 st2 -> stage names st2 st3 -> stage names st1 st3.
  Proof.
    intros names st1 st2 st3 C S (N & O & C' & S'). split; [|split; [|split]]; auto. eapply covers_trans; eauto. eapply shaped_trans; eauto.
  Qed.

  Lemma inner_agree_sym : forall {U} names (prog : icaller U) a u st st' dt, reads names prog -> changes names prog -> known names a ->
    plain names st -> plain names st' -> agree_on names st st' ->
    (exists s1 e, inner_euler prog (a, u) st dt = (s1, Err e) /\ inner_euler prog (a, u) st' dt = (s1, Err e) /\ known names (fst s1)) \/
    (exists s1 d n n', inner_euler prog (a, u) st dt = (s1, Ok (d, n)) /\ inner_euler prog (a, u) st' dt = (s1, Ok (d, n')) /\ known names (fst s1) /\
       agree_on names n n' /\ stage names st n /\ plain names n /\ stage names st' n' /\ plain names n').
  Proof.
    intros U names prog a u st st' dt Hr Hc Ha P P' H.
    destruct (inner_agree names prog a u st st' dt Hr Hc Ha P P' H) as (K1 & K2 & K3 & K4).
    assert (H' : agree_on names st' st) by (intros X HX; symmetry; auto).
    destruct (inner_agree names prog a u st' st dt Hr Hc Ha P' P H') as (_ & _ & _ & K4').
    destruct (inner_euler prog (a, u) st dt) as [s1 r1]. destruct (inner_euler prog (a, u) st' dt) as [s1' r1']. cbn [fst snd] in *. subst s1'.
    destruct r1 as [[d n]|e], r1' as [[d' n']|e']; cbn in K3; try contradiction.
    - destruct K3 as [<- K3]. right. exists s1, d, n, n'. destruct (K4 _ _ eq_refl), (K4' _ _ eq_refl). auto 10.
    - subst e'. left. exists s1, e. auto.
  Qed.

  Lemma rk_agree : forall {U} names (prog : icaller U) (stages : bool) a u st st' dt, reads names prog -> changes names prog -> known names a ->
    plain names st -> plain names st' -> agree_on names st st' ->
    let step := (if stages then rk2 else rk3) prog in
    (exists s1 e, step (a, u) st dt = (s1, Err e) /\ step (a, u) st' dt = (s1, Err e) /\ known names (fst s1)) \/
    (exists s1 d n n', step (a, u) st dt = (s1, Ok (d, n)) /\ step (a, u) st' dt = (s1, Ok (d, n')) /\ known names (fst s1) /\
       agree_on names n n' /\ plain names n /\ plain names n' /\
       (forall X, dget X st <> None -> dget X n <> None) /\ (forall X, dget X st' <> None -> dget X n' <> None)).
  Proof.
    intros U names prog stages a u st st' dt Hr Hc Ha P P' H step.
    assert (Keep : forall (s n : state T), plain names s -> dget "time" n = dget "time" s -> covers s n -> forall X, dget X s <> None -> dget X n <> None).
    { intros s n (N & O & W) Et C X HX. destruct (string_dec X "time") as [->|HT]; [congruence|]. destruct (dget X s) as [[p|t]|] eqn:E; [|exfalso; eauto|congruence].
      destruct (C X p HT E) as (q & ->). discriminate. }
    assert (Last : forall comb h (s1 : ab T * U) (d : dict (da T)) (n n' : state T), combines comb h -> known names (fst s1) -> agree_on names n n' -> stage names st n -> stage names st' n' ->
      (exists s2 e, (s1, let* o := comb st n in Ok (d, o)) = (s2, Err e) /\ (s1, let* o := comb st' n' in Ok (d, o)) = (s2, Err e) /\ known names (fst s2)) \/
      (exists s2 d1 o o', (s1, let* o := comb st n in Ok (d, o)) = (s2, Ok (d1, o)) /\ (s1, let* o := comb st' n' in Ok (d, o)) = (s2, Ok (d1, o')) /\ known names (fst s2) /\
         agree_on names o o' /\ plain names o /\ plain names o' /\
         (forall X, dget X st <> None -> dget X o <> None) /\ (forall X, dget X st' <> None -> dget X o' <> None))).
    { intros comb h s1 d n n' HC Hs Hn (N1 & O1 & C1 & S1) (N1' & O1' & C1' & S1').
      pose proof (combine_agree names comb h st st' n n' HC P P' N1 N1' O1 O1' C1 C1' S1 S1' H Hn) as K.
      destruct (comb st n) as [o|e] eqn:E, (comb st' n') as [o'|e'] eqn:E'; try contradiction; cbn [bind].
      - right. exists s1, d, o, o'. destruct (plain_combine names comb h st n o HC P N1 O1 C1 S1 E) as (F1 & F2 & F3).
        destruct (plain_combine names comb h st' n' o' HC P' N1' O1' C1' S1' E') as (F1' & F2' & F3').
        assert (Et : forall s m x, plain names s -> stage names s m -> comb s m = Ok x -> dget "time" x = dget "time" s).
        { intros s m x (Q1 & Q2 & Q3) (Q4 & Q5 & Q6 & Q7) Ex. destruct HC as [_ HC].
          destruct (HC s m Q1 Q4 Q2 Q5 Q6) as [(Ex' & _)|(x' & Ex' & _ & Et & _)]; congruence. }
        repeat (split; auto). all: eapply Keep; eauto; eapply Et; eauto; repeat (split; auto).
      - left. exists s1, e. subst e'. auto. }
    unfold step. clear step. destruct stages; unfold rk2, rk3.
    - destruct (inner_agree_sym names prog a u st st' dt Hr Hc Ha P P' H) as [(s1 & e & -> & -> & Hs)|(s1 & d & n & n' & -> & -> & Hs & Hn & G & Pn & G' & Pn')].
      { left. exists s1, e. auto. }
      destruct s1 as [a1 u1]. cbn [fst] in Hs.
      destruct (inner_agree_sym names prog a1 u1 n n' dt Hr Hc Hs Pn Pn' Hn) as [(s2 & e & -> & -> & Hs2)|(s2 & d2 & m & m' & -> & -> & Hs2 & Hm & F & Pm & F' & Pm')].
      { left. exists s2, e. auto. }
      cbn [bind snd]. destruct G as (_ & _ & G1 & G2), G' as (_ & _ & G1' & G2').
      pose proof (Last _ _ s2 d m m' (half_combines (aofQ (1 # 2))) Hs2 Hm (stage_trans _ _ _ _ G1 G2 F) (stage_trans _ _ _ _ G1' G2' F')) as K.
      cbn beta in K. unfold bind in *. destruct (add_states st m), (add_states st' m'); exact K.
    - destruct (inner_agree_sym names prog a u st st' dt Hr Hc Ha P P' H) as [(s1 & e & -> & -> & Hs)|(s1 & d & n & n' & -> & -> & Hs & Hn & G & Pn & G' & Pn')].
      { left. exists s1, e. auto. }
      destruct s1 as [a1 u1]. cbn [fst] in Hs.
      destruct (inner_agree_sym names prog a1 u1 n n' dt Hr Hc Hs Pn Pn' Hn) as [(s2 & e & -> & -> & Hs2)|(s2 & d2 & m & m' & -> & -> & Hs2 & Hm & F & Pm & F' & Pm')].
      { left. exists s2, e. auto. }
      cbn [bind snd]. destruct G as (_ & _ & G1 & G2), G' as (_ & _ & G1' & G2').
      pose proof (stage_trans _ _ _ _ G1 G2 F) as J. pose proof (stage_trans _ _ _ _ G1' G2' F') as J'.
      destruct J as (J1 & J2 & J3 & J4), J' as (J1' & J2' & J3' & J4').
      pose proof (combine_agree names _ _ st st' m m' (mix_combines (aofQ (3 # 4)) (aofQ (1 # 4))) P P' J1 J1' J2 J2' J3 J3' J4 J4' H Hm) as K. cbn beta in K.
      destruct (let* a0 := multiply (aofQ (3 # 4)) st in let* b := multiply (aofQ (1 # 4)) m in add_states a0 b) as [o|e] eqn:E,
        (let* a0 := multiply (aofQ (3 # 4)) st' in let* b := multiply (aofQ (1 # 4)) m' in add_states a0 b) as [o'|e'] eqn:E'; try contradiction.
      2: { left. exists s2, e. subst e'. auto. }
      destruct (plain_combine names _ _ st m o (mix_combines (aofQ (3 # 4)) (aofQ (1 # 4))) P J1 J2 J3 J4 E) as (P1 & P2 & P3).
      destruct (plain_combine names _ _ st' m' o' (mix_combines (aofQ (3 # 4)) (aofQ (1 # 4))) P' J1' J2' J3' J4' E') as (P1' & P2' & P3').
      destruct s2 as [a2 u2]. cbn [fst] in Hs2.
      destruct (inner_agree_sym names prog a2 u2 o o' dt Hr Hc Hs2 P1 P1' K) as [(s3 & e & -> & -> & Hs3)|(s3 & d3 & q & q' & -> & -> & Hs3 & Hq & B & Pq & B' & Pq')].
      { left. exists s3, e. auto. }
      cbn [bind snd].
      pose proof (Last _ _ s3 d q q' (mix_combines (aofQ (1 # 3)) (aofQ (2 # 3))) Hs3 Hq (stage_trans _ _ _ _ P3 P2 B) (stage_trans _ _ _ _ P3' P2' B')) as L.
      cbn beta in L. unfold bind in *. destruct (multiply (aofQ (1 # 3)) st), (multiply (aofQ (2 # 3)) q), (multiply (aofQ (1 # 3)) st'), (multiply (aofQ (2 # 3)) q'); exact L.
  Qed.
End LocalRK.
