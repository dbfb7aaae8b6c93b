(** Runs with quantities that no component reads (C82). *)
From Coq Require Import String List Bool Arith Lia ZArith QArith Qcanon.
From Verif Require Import Prelude PreludeFacts ArithM NdArray NdFacts Units DataArrayM Tracers Components CallFacts ComponentsMain Composite Steppers Basic MainLoop SpecComponents SpecCalls SpecSteppers SteppersFacts RKFacts MainLoopFacts SpecLocal LocalFacts LocalRK.
Import ListNotations.
Open Scope string_scope.
Open Scope nat_scope.
Open Scope list_scope.

Section LocalMain.
  Context {T : Type} {A : Arith T} {R : Registry}.
  Implicit Types st new : state T.

  Lemma same_result_refl : forall names (r : res (stepped T)), same_result names r r.
  Proof. intros names [[d n]|e]; cbn; auto. split; auto. intros X _. auto. Qed.

  (** ** Components *)

  Lemma add_entry_keys : forall (d1 : dict (da T)) kv d, add_entry d1 kv = Ok d -> (forall k, In k (keys d) -> In k (keys d1) \/ k = fst kv) /\ (NoDup (keys d1) -> NoDup (keys d)).
  Proof.
    intros d1 [k v] d H. unfold add_entry in H.
    repeat match type of H with
    | bind _ _ = Ok _ => apply bind_ok in H as (? & _ & H)
    | match ?X with _ => _ end = _ => destruct X; try discriminate H
    end; injection H as <-; (split; [intros k0 Hk; apply In_keys_dset in Hk; cbn [fst] in *; tauto|apply NoDup_dset]).
  Qed.

  Lemma update_keys : forall d2 (d1 d : dict (da T)), update_dict_by_adding_another d1 d2 = Ok d ->
    (forall k, In k (keys d) -> In k (keys d1) \/ In k (keys d2)) /\ (NoDup (keys d1) -> NoDup (keys d)).
  Proof.
    unfold update_dict_by_adding_another. induction d2 as [|[k v] d2 IH]; intros d1 d H; cbn [foldM] in H.
    - injection H as <-. auto.
    - apply bind_ok in H as (d0 & H0 & H). apply add_entry_keys in H0 as [K1 K2]. apply IH in H as [I1 I2]. split; auto.
      intros k0 Hk. apply I1 in Hk as [Hk|Hk]; [apply K1 in Hk as [Hk|Hk]; cbn in *; auto|right; right; auto].
  Qed.

  Lemma composite_loop_local : forall {U} names (cs : list (caller (T:=T) U)), 
    (forall c, In c cs -> forall u st st', agree_on names st st' -> c u st = c u st') ->
    (forall c, In c cs -> forall u st u' t d, c u st = (u', Ok (t, d)) -> incl (keys t) names) ->
    forall u st st' tend diag, agree_on names st st' ->
    composite_loop cs u st tend diag = composite_loop cs u st' tend diag /\
    forall u' t d, incl (keys tend) names -> NoDup (keys tend) -> composite_loop cs u st tend diag = (u', Ok (t, d)) -> incl (keys t) names /\ NoDup (keys t).
  Proof.
    intros U names cs. induction cs as [|c cs IH]; intros Hr Hc u st st' tend diag H; cbn [composite_loop].
    - split; auto. intros u' t d H1 H2 E. injection E as _ <- _. auto.
    - rewrite <- (Hr c (or_introl eq_refl) u st st' H). destruct (c u st) as [u1 r] eqn:Ec.
      destruct r as [[t1 d1]|e]; cbn [bind fst snd]; [|split; [auto|discriminate]].
      destruct (update_dict_by_adding_another tend t1) as [tend'|e] eqn:Eu; cbn [bind]; [|split; [auto|discriminate]].
      destruct (IH (fun c0 Hin => Hr c0 (or_intror Hin)) (fun c0 Hin => Hc c0 (or_intror Hin)) u1 st st' tend' (dupdate diag d1) H) as [I1 I2].
      split; auto. intros u' t d H1 H2 E. apply update_keys in Eu as [K1 K2]. eapply I2; eauto.
      intros k Hk. apply K1 in Hk as [Hk|Hk]; auto. eapply Hc; eauto. left; auto.
  Qed.

  Theorem main_local_components : forall {U} names g (cs : list (tcomp * (Z -> U -> dict (rval T) -> U * res (dict (nd T) * dict (nd T))))),
    (forall ca, In ca cs -> uses names g (fst ca)) -> reads names (called g cs) /\ changes names (called g cs).
  Proof.
    intros U names g cs Hu.
    assert (K : forall dt (c : caller U), In c (map (fun c : icaller U + caller U => match c with inl f => fun u st => f u st dt | inr f => f end)
        (map (fun ca => inl (fun u st dt => tendency_call g (fst ca) (snd ca dt) u st)) cs)) ->
      (forall u st st', agree_on names st st' -> c u st = c u st') /\
      (forall u st u' t d, c u st = (u', Ok (t, d)) -> incl (keys t) names)).
    { intros dt c Hc. rewrite map_map in Hc. apply in_map_iff in Hc as (ca & <- & Hin). destruct (Hu ca Hin) as (U1 & U2 & U3 & U4). split.
      - intros u st st' H. apply (proj1 (@calls_ext T A R)).
        + intros n Hn. apply H, U2; auto.
        + intros n [<-|[]]. apply H; auto.
        + intros n Hn. apply H, U4; auto.
      - intros u st u' t d E k Hk. unfold tendency_call in E.
        destruct (let* _ := raise_if (negb (t_init (fst ca))) ERuntime in raw_state g (t_inp (fst ca)) (t_packer (fst ca)) st) as [raw|]; [|discriminate].
        destruct (snd ca dt u raw) as [u1 r]. injection E as _ E. apply bind_ok in E as (out & _ & E). unfold tendency_finish in E.
        apply bind_ok in E as ((tr & rt) & E1 & E). apply bind_ok in E as (_ & _ & E). apply bind_ok in E as (_ & _ & E).
        apply bind_ok in E as (td & E2 & E). apply bind_ok in E as (dg & _ & E). injection E as <- _.
        apply In_keys_dupdate in Hk as [Hk|Hk].
        + apply U4. apply (unpack_keys _ _ _ _ _ _ _ E1). auto.
        + apply U3. apply (restore_keys _ _ _ _ _ E2). auto. }
    split.
    - intros u st st' dt H. unfold called, implicit_composite_call, tendency_composite_call.
      apply (composite_loop_local names); auto; intros c Hc; apply (K dt c Hc).
    - intros u st dt u' t d E. unfold called, implicit_composite_call, tendency_composite_call in E.
      assert (H : agree_on names st st) by (intros X _; auto).
      refine (proj2 (composite_loop_local names _ (fun c Hc => proj1 (K dt c Hc)) (fun c Hc => proj2 (K dt c Hc)) u st st [] [] H) u' t d _ _ E).
      + intros k [].
      + constructor.
  Qed.

  (** ** Histories of calls *)

  Lemma trace_agree : forall {S O} (step : S -> state T -> Z -> S * O) (P : state T -> Prop) (rel : S -> S -> Prop) (same : O -> O -> Prop) names,
    (forall s s' st st' dt, rel s s' -> P st -> P st' -> agree_on names st st' ->
       rel (fst (step s st dt)) (fst (step s' st' dt)) /\ same (snd (step s st dt)) (snd (step s' st' dt))) ->
    forall calls calls' s s', rel s s' -> (forall c, In c calls \/ In c calls' -> P (fst c)) -> same_calls names calls calls' ->
    rel (fst (trace step s calls)) (fst (trace step s' calls')) /\ Forall2 same (snd (trace step s calls)) (snd (trace step s' calls')).
  Proof.
    intros S O step P rel same names Hs calls calls' s s' Hrel HP Hc. revert s s' Hrel HP.
    induction Hc as [|[st dt] [st' dt'] calls calls' HH Hc IH]; intros s s' Hrel HP; cbn [trace]; [cbn; auto|].
    destruct HH as [H1 H2]. cbn [fst snd] in H1, H2. subst dt'.
    destruct (Hs s s' st st' dt Hrel) as [K1 K2]; auto.
    { apply (HP (st, dt)). left. left. auto. } { apply (HP (st', dt)). right. left. auto. }
    destruct (step s st dt) as [s1 o]. destruct (step s' st' dt) as [s1' o']. cbn [fst snd] in K1, K2.
    destruct (IH s1 s1' K1) as [I1 I2]. { intros c [Hin|Hin]; apply HP; [left|right]; right; auto. }
    destruct (trace step s1 calls) as [s2 os]. destruct (trace step s1' calls') as [s2' os']. cbn [fst snd] in *. auto.
  Qed.

  Definition same_object {B U} (ok : B -> Prop) (s s' : B * U) : Prop := s = s' /\ ok (fst s).

  Lemma ab_step : forall {U} names cfg (prog : icaller U) s s' st st' dt, reads names prog -> changes names prog -> incl (keys (ts_out cfg)) names ->
    same_object (known names) s s' -> agree_on names st st' ->
    same_object (known names) (fst (adams_bashforth cfg prog s st dt)) (fst (adams_bashforth cfg prog s' st' dt)) /\
    same_result names (snd (adams_bashforth cfg prog s st dt)) (snd (adams_bashforth cfg prog s' st' dt)).
  Proof.
    intros U names cfg prog [a u] s' st st' dt Hr Hc Hk [<- Ha] H. cbn [fst] in Ha.
    destruct (adams_agree names cfg prog a u st st' dt Hr Hc Hk Ha H) as (K1 & K2 & K3 & _). split; auto. split; auto.
  Qed.

  Lemma new_ab_known : forall names o (a : ab T), new_ab o = Ok a -> known names a.
  Proof. intros names o a H. unfold new_ab in H. apply bind_ok in H as (n & _ & H). injection H as <-. intros d []. Qed.

  Theorem main_local_ab : forall {U} names cfg (prog : icaller (T:=T) U) o a (u : U) calls calls',
    reads names prog -> changes names prog -> incl (keys (ts_out cfg)) names -> new_ab o = Ok a -> same_calls names calls calls' ->
    fst (trace (adams_bashforth cfg prog) (a, u) calls) = fst (trace (adams_bashforth cfg prog) (a, u) calls') /\
    Forall2 (same_result names) (snd (trace (adams_bashforth cfg prog) (a, u) calls)) (snd (trace (adams_bashforth cfg prog) (a, u) calls')).
  Proof.
    intros U names cfg prog o a u calls calls' Hr Hc Hk Ha H.
    destruct (trace_agree (adams_bashforth cfg prog) (fun _ => True) (same_object (known names)) (same_result names) names) with (4 := H) (s := (a, u)) (s' := (a, u)) as [[K1 _] K2].
    - intros; apply ab_step; auto.
    - split; auto. eapply new_ab_known; eauto.
    - auto.
    - auto.
  Qed.

  Lemma rk_step : forall {U} names cfg (prog : icaller U) s s' st st' dt, reads names prog -> changes names prog -> incl (keys (ts_out cfg)) names ->
    same_object (fun k => known names (rk_euler k)) s s' -> plain names st -> plain names st' -> agree_on names st st' ->
    same_object (fun k => known names (rk_euler k)) (fst (ssp_rk cfg prog s st dt)) (fst (ssp_rk cfg prog s' st' dt)) /\
    same_result names (snd (ssp_rk cfg prog s st dt)) (snd (ssp_rk cfg prog s' st' dt)) /\
    forall d new, snd (ssp_rk cfg prog s st dt) = Ok (d, new) \/ snd (ssp_rk cfg prog s' st' dt) = Ok (d, new) -> plain names new.
  Proof.
    intros U names cfg prog [k u] s' st st' dt Hr Hc Hk [<- Ha] P P' H. cbn [fst] in Ha. unfold ssp_rk.
    assert (K := rk_agree names prog (Nat.eqb (rk_stages k) 2) (rk_euler k) u st st' dt Hr Hc Ha P P' H). cbn zeta in K.
    destruct K as [([e1 u1] & e & E1 & E2 & Hs)|([e1 u1] & d & n & n' & E1 & E2 & Hs & Hn & Pn & Pn' & Kn & Kn')]; rewrite E1, E2; cbn [fst snd] in *.
    - split; [split; auto|]. cbn. split; auto. intros d new [E|E]; discriminate E.
    - split; [split; auto|]. split; [apply finish_agree; auto; cbn; auto|].
      assert (Pl : forall st0 n0, plain names n0 -> (forall X, dget X st0 <> None -> dget X n0 <> None) -> plain names (copy_untouched st0 n0)).
      { intros st0 n0 (Q1 & Q2 & Q3) Kn0. assert (Eg : forall X, dget X (copy_untouched st0 n0) = dget X n0).
        { intros X. rewrite copy_untouched_get. destruct (dget X n0) eqn:En; auto. destruct (dget X st0) eqn:Es; auto. exfalso. apply (Kn0 X); congruence. }
        split; [apply NoDup_copy_untouched; auto|]. split; intros; rewrite Eg in *; eauto. }
      intros d1 new1 [E|E]; apply finish_new in E as (d0 & n0 & E & ->); injection E as <- <-; auto.
  Qed.

  Lemma new_rk_known : forall names z (k : rk T), new_rk z = Ok k -> known names (rk_euler k).
  Proof. intros names z k H. unfold new_rk in H. destruct (Z.eqb z 2); [|destruct (Z.eqb z 3); [|discriminate]]; injection H as <-; intros d []. Qed.

  Theorem main_local_rk : forall {U} names cfg (prog : icaller (T:=T) U) z k (u : U) calls calls',
    reads names prog -> changes names prog -> incl (keys (ts_out cfg)) names -> new_rk z = Ok k ->
    (forall c, In c calls \/ In c calls' -> plain names (fst c)) -> same_calls names calls calls' ->
    fst (trace (ssp_rk cfg prog) (k, u) calls) = fst (trace (ssp_rk cfg prog) (k, u) calls') /\
    Forall2 (same_result names) (snd (trace (ssp_rk cfg prog) (k, u) calls)) (snd (trace (ssp_rk cfg prog) (k, u) calls')).
  Proof.
    intros U names cfg prog z k u calls calls' Hr Hc Hk Ha HP H.
    destruct (trace_agree (ssp_rk cfg prog) (plain names) (same_object (fun k => known names (rk_euler k))) (same_result names) names) with (4 := H) (s := (k, u)) (s' := (k, u)) as [[K1 _] K2].
    - intros s s' st st' dt Hs P P' Hag. destruct (rk_step names cfg prog s s' st st' dt Hr Hc Hk Hs P P' Hag) as (F1 & F2 & _). auto.
    - split; auto. eapply new_rk_known; eauto.
    - auto.
    - auto.
  Qed.

  Theorem main_local_leap : forall {U} names cfg (prog : icaller (T:=T) U) nu alpha (u : U) calls calls',
    reads names prog -> changes names prog -> incl (keys (ts_out cfg)) names -> same_calls names calls calls' ->
    let step := fun s st dt => let '(s', st', r) := leapfrog cfg prog s st dt in (s', (st', r)) in
    snd (fst (trace step (new_leap nu alpha, u) calls)) = snd (fst (trace step (new_leap nu alpha, u) calls')) /\
    Forall2 (fun o o' => agree_on names (fst o) (fst o') /\ same_result names (snd o) (snd o'))
      (snd (trace step (new_leap nu alpha, u) calls)) (snd (trace step (new_leap nu alpha, u) calls')).
  Proof.
    intros U names cfg prog nu alpha u calls calls' Hr Hc Hk H step.
    destruct (trace_agree step (fun _ => True) (fun s s' => leap_agree names (fst s) (fst s') /\ snd s = snd s')
                (fun o o' => agree_on names (fst o) (fst o') /\ same_result names (snd o) (snd o')) names) with (4 := H) (s := (new_leap nu alpha, u)) (s' := (new_leap nu alpha, u)) as [[_ K1] K2].
    - intros [l v] [l' v'] st st' dt [Hl Hv] _ _ Hag. cbn [fst snd] in Hl, Hv. subst v'. unfold step.
      destruct (leapfrog cfg prog (l, v) st dt) as [[s1 st1] r1] eqn:E. destruct (leapfrog cfg prog (l', v) st' dt) as [[s1' st1'] r1'] eqn:E'.
      destruct (leapfrog_agree names cfg prog l l' v st st' dt _ _ _ _ _ _ Hr Hc Hk Hl Hag E E') as (F1 & F2 & F3 & F4). cbn [fst snd]. auto.
    - cbn. repeat split; auto.
    - auto.
    - auto.
  Qed.

  (** ** The main loop *)

  Theorem main_local_process_ab : forall {U} names cfg (prog : icaller (T:=T) U) o a (u : U),
    reads names prog -> changes names prog -> incl (keys (ts_out cfg)) names -> new_ab o = Ok a ->
    exists rel, rel (a, u) (a, u) /\ forall dt, respects (fun _ => True) rel names dt (adams_bashforth cfg prog).
  Proof.
    intros U names cfg prog o a u Hr Hc Hk Ha. exists (same_object (known names)). split; [split; auto; eapply new_ab_known; eauto|].
    intros dt w w' st st' Hw _ _ H. destruct (ab_step names cfg prog w w' st st' dt Hr Hc Hk Hw H). auto.
  Qed.

  Theorem main_local_process_rk : forall {U} names cfg (prog : icaller (T:=T) U) z k (u : U),
    reads names prog -> changes names prog -> incl (keys (ts_out cfg)) names -> new_rk z = Ok k ->
    exists rel, rel (k, u) (k, u) /\ forall dt, respects (plain names) rel names dt (ssp_rk cfg prog).
  Proof.
    intros U names cfg prog z k u Hr Hc Hk Ha. exists (same_object (fun k => known names (rk_euler k))). split; [split; auto; eapply new_rk_known; eauto|].
    intros dt w w' st st' Hw P P' H. apply rk_step; auto.
  Qed.

  Lemma update_all_agree : forall names ds st st', agree_on names st st' -> agree_on names (update_all ds st) (update_all ds st').
  Proof.
    intros names ds. unfold update_all. induction ds as [|d ds IH]; intros st st' H; cbn [fold_left]; auto. apply IH. clear IH.
    unfold dupdate. revert st st' H. generalize (as_state d) as e. clear. induction e as [|[k v] e IH]; intros st st' H; cbn [fold_left]; auto.
    apply IH. intros X HX. cbn [fst snd]. destruct (string_dec X k) as [->|N]; [rewrite !dget_dset_eq; auto|rewrite !dget_dset_neq; auto].
  Qed.

  Lemma run_processes_agree : forall {W} P rel names dt (ps : list (process (T:=T) W)), (forall p, In p ps -> respects P rel names dt p) ->
    forall w w' st st', rel w w' -> P st -> P st' -> agree_on names st st' ->
    rel (fst (run_processes ps w st dt)) (fst (run_processes ps w' st' dt)) /\
    match snd (run_processes ps w st dt), snd (run_processes ps w' st' dt) with
    | Ok (ds, n), Ok (ds', n') => ds = ds' /\ agree_on names n n' /\ P n /\ P n'
    | Err e, Err e' => e = e'
    | _, _ => False
    end.
  Proof.
    intros W P rel names dt ps. induction ps as [|p ps IH]; intros Hp w w' st st' Hw HP HP' H; cbn [run_processes fst snd]; auto.
    destruct (Hp p (or_introl eq_refl) w w' st st' Hw HP HP' H) as (K1 & K2 & K3).
    destruct (p w st dt) as [w1 r]. destruct (p w' st' dt) as [w1' r']. cbn [fst snd] in *.
    destruct r as [[d n]|e], r' as [[d' n']|e']; cbn in K2; try contradiction; [|cbn; auto]. destruct K2 as [<- K2].
    destruct (IH (fun q Hq => Hp q (or_intror Hq)) w1 w1' n n' K1) as [I1 I2]; auto.
    { apply (K3 d). auto. } { apply (K3 d). auto. }
    destruct (run_processes ps w1 n dt) as [w2 r2]. destruct (run_processes ps w1' n' dt) as [w2' r2']. cbn [fst snd] in *. split; auto.
    destruct r2 as [[ds m]|e], r2' as [[ds' m']|e']; cbn in *; try contradiction; auto. destruct I2 as (<- & I2). auto.
  Qed.

  Theorem main_local_loop : forall {W} (P : state T -> Prop) (rel : W -> W -> Prop) names (ps : list (process (T:=T) W)) store stop dt,
    In "time" names -> (forall p, In p ps -> respects P rel names dt p) -> (forall t st, P st -> P (dset "time" (VTime t) st)) ->
    (forall w w' S S', rel w w' -> agree_on names S S' -> rel (fst (store w S)) (fst (store w' S')) /\ snd (store w S) = snd (store w' S')) ->
    forall n w w' st st', rel w w' -> P st -> P st' -> agree_on names st st' ->
    let run := main_loop n ps store stop dt w st in
    let run' := main_loop n ps store stop dt w' st' in
    rel (fst (fst run)) (fst (fst run')) /\ Forall2 (agree_on names) (snd (fst run)) (snd (fst run')) /\ same_end names (snd run) (snd run').
  Proof.
    intros W P rel names ps store stop dt Ht Hp HPt Hs n. induction n as [|n IH]; intros w w' st st' Hw HP HP' H; cbn zeta; cbn [main_loop].
    { cbn. auto. }
    assert (Tm : forall (s s' : state T), agree_on names s s' -> state_time s = state_time s') by (intros s s' K; unfold state_time, dgetE; rewrite (K "time" Ht); auto).
    rewrite <- (Tm st st' H). destruct (state_time st) as [t|e]; [|cbn; auto]. destruct (t <? stop)%Z; [|cbn; auto].
    destruct (run_processes_agree P rel names dt ps Hp w w' st st' Hw HP HP' H) as [K1 K2].
    destruct (run_processes ps w st dt) as [w1 r]. destruct (run_processes ps w' st' dt) as [w1' r']. cbn [fst snd] in *.
    destruct r as [[ds nx]|e], r' as [[ds' nx']|e']; try contradiction; [|subst e'; cbn; auto].
    destruct K2 as (<- & Kn & Pn & Pn'). pose proof (update_all_agree names ds st st' H) as Hu.
    destruct (Hs w1 w1' _ _ K1 Hu) as [S1 S2].
    destruct (store w1 (update_all ds st)) as [w2 rs]. destruct (store w1' (update_all ds st')) as [w2' rs']. cbn [fst snd] in *. subst rs'.
    destruct rs as [[]|e]; [|cbn; auto]. rewrite <- (Tm _ _ Hu). destruct (state_time (update_all ds st)) as [t1|e]; [|cbn; auto].
    assert (Hn : agree_on names (dset "time" (VTime (t1 + dt)) nx) (dset "time" (VTime (t1 + dt)) nx')).
    { intros X HX. destruct (string_dec X "time") as [->|N]; [rewrite !dget_dset_eq; auto|rewrite !dget_dset_neq; auto]. }
    destruct (IH w2 w2' _ _ S1 (HPt (t1 + dt)%Z nx Pn) (HPt (t1 + dt)%Z nx' Pn') Hn) as (I1 & I2 & I3). cbn zeta in I1, I2, I3.
    destruct (main_loop n ps store stop dt w2 (dset "time" (VTime (t1 + dt)) nx)) as [[w3 log] r3].
    destruct (main_loop n ps store stop dt w2' (dset "time" (VTime (t1 + dt)) nx')) as [[w3' log'] r3']. cbn [fst snd] in *. auto.
  Qed.

  Lemma plain_time : forall names t st, plain names st -> plain names (dset "time" (VTime t) st).
  Proof.
    intros names t st (N & O & W). split; [apply NoDup_dset; auto|]. split.
    - intros X t0 E. destruct (string_dec X "time") as [|HT]; auto. rewrite dget_dset_neq in E by auto. eauto.
    - intros X a HX E. destruct (string_dec X "time") as [->|HT]; [rewrite dget_dset_eq in E; discriminate|]. rewrite dget_dset_neq in E by auto. eauto.
  Qed.

  (** The processes of a run beside monitors that store anything and raise nothing. *)
  Theorem main_local_run : forall {M W} (P : state T -> Prop) (rel : W -> W -> Prop) names (ps : list (process (T:=T) W)) (record : M -> state T -> M) stop dt,
    In "time" names -> (forall p, In p ps -> respects P rel names dt p) -> (forall t st, P st -> P (dset "time" (VTime t) st)) ->
    forall n m m' w w' st st', rel w w' -> P st -> P st' -> agree_on names st st' ->
    let store := fun (x : M * W) S => ((record (fst x) S, snd x), Ok tt) in
    let run := main_loop n (map beside ps) store stop dt (m, w) st in
    let run' := main_loop n (map beside ps) store stop dt (m', w') st' in
    Forall2 (agree_on names) (snd (fst run)) (snd (fst run')) /\ same_end names (snd run) (snd run') /\ rel (snd (fst (fst run))) (snd (fst (fst run'))).
  Proof.
    intros M W P rel names ps record stop dt Ht Hp HPt n m m' w w' st st' Hw HP HP' H store run run'.
    destruct (main_local_loop P (fun (x y : M * W) => rel (snd x) (snd y)) names (map beside ps) store stop dt Ht) with (n := n) (w := (m, w)) (w' := (m', w')) (st := st) (st' := st') as (K1 & K2 & K3); auto.
    intros p Hin. apply in_map_iff in Hin as (q & <- & Hq). intros [m1 w1] [m1' w1'] s s' Hr Ps Ps' Hs. cbn [snd] in Hr. unfold beside. cbn [fst snd].
    destruct (Hp q Hq w1 w1' s s' Hr Ps Ps' Hs) as (F1 & F2 & F3). destruct (q w1 s dt), (q w1' s' dt). cbn [fst snd] in *. auto.
  Qed.
End LocalMain.
