(** C103: runs with several processes from rescaled states. *)
From Coq Require Import String List Bool Arith ZArith QArith Qcanon.
From Verif Require Import Prelude PreludeFacts ArithM NdArray NdFacts Units UnitsFacts DataArrayM SpecDa DaFacts
  Wildcard GetNp SpecArrays Restore RestoreFacts CallFacts TidFacts Tracers Components Composite Steppers Basic MainLoop LeapLoop RegionFacts RunFacts SpecScale ScaleMain ScaleRuns
  SpecFrame FrameMain TurnEnds ScaleEnds SpecScaleSteps.
Import ListNotations.
Open Scope string_scope.
Open Scope nat_scope.
Open Scope list_scope.

Section Steps.
  Context {R : Registry} (f : string -> Qc).
  Let P0 (k : string) (a b : da Qc) : Prop := b = times_da (f k) a.
  Let P (k : string) (a b : da Qc) : Prop := P0 k a b /\ linear_units (f k) (dget "units" (attrs a)).

  Lemma ss_step {W W'} (rest : W -> W' -> Prop) q q' : scales_step f rest q q' -> loc_step P P0 rest q q'.
  Proof.
    intros H w w' st st' dt w1 w1' d n d' n' Hw Hs X Y. apply sc_linear in Hs as [Hl ->].
    destruct (H w w' st dt w1 w1' d n d' n' Hw Hl X Y) as (K1 & -> & -> & K2).
    split; [exact K1 | ]. split; [apply sc_diags | apply sc_state, K2].
  Qed.

  Lemma ss_steps {W W'} (rest : W -> W' -> Prop) qs qs' : Forall2 (scales_step f rest) qs qs' -> Forall2 (loc_step P P0 rest) qs qs'.
  Proof. intros H. induction H; constructor; [apply ss_step; assumption | assumption]. Qed.

  Lemma ss_store {W W'} (rest : W -> W' -> Prop) store store' : scales_store f rest store store' ->
    forall u v st st' u' v', rest u v -> Forall2 (fun x y : string * pval Qc => fst x = fst y /\ match snd x, snd y with VDA a, VDA b => P0 (fst x) a b | VTime s, VTime t => s = t | _, _ => False end) st st' ->
      store u st = (u', Ok tt) -> store' v st' = (v', Ok tt) -> rest u' v'.
  Proof. intros H u v st st' u' v' Hu Hs. apply sc_state0 in Hs as ->. apply H, Hu. Qed.

  Theorem scale_run {W W'} (rest : W -> W' -> Prop) ps ps' (store : W -> state Qc -> W * res unit) (store' : W' -> state Qc -> W' * res unit) :
    Forall2 (scales_step f rest) ps ps' -> scales_store f rest store store' ->
    forall n stop dt w w' st w1 w1' log log' e e', rest w w' -> linear_state f st ->
    main_loop n ps store stop dt w st = ((w1, log), Some (Ok e)) ->
    main_loop n ps' store' stop dt w' (by_name times_value f st) = ((w1', log'), Some (Ok e')) ->
    log' = map (by_name times_value f) log /\ e' = by_name times_value f e.
  Proof.
    intros H1 H2 n stop dt w w' st w1 w1' log log' e e' Hw Hs Hx Hy.
    destruct (run_loop P P0 (sc_any f) rest ps ps' store store' (ss_steps _ _ _ H1) (ss_store _ _ _ H2) n stop dt w w' st _ w1 w1' log log' e e' Hw (sc_state f st Hs) Hx Hy) as [K1 K2].
    split; [exact (sc_log f _ _ K1) | exact (proj2 (sc_linear f _ _ K2))].
  Qed.

  Theorem scale_run_ends {W W'} (rest : W -> W' -> Prop) ps ps' (store : W -> state Qc -> W * res unit) (store' : W' -> state Qc -> W' * res unit) :
    Forall2 (scales_step f rest) ps ps' -> Forall2 (blind_step rest) ps ps' -> scales_store f rest store store' -> blind_store rest store store' ->
    forall n stop dt w w' st, rest w w' -> linear_state f st ->
    scaled_end f (main_loop n ps store stop dt w st) (main_loop n ps' store' stop dt w' (by_name times_value f st)).
  Proof.
    intros Ht Hb Hs Hbs n stop dt w w' st Hw Hst.
    pose proof (frame_run rest ps ps' store store' stop dt Hb Hbs n w w' st _ Hw (scaled_alike f st)) as (_ & _ & K). cbv zeta in K.
    pose proof (scale_run rest ps ps' store store' Ht Hs n stop dt w w' st) as L.
    destruct (main_loop n ps store stop dt w st) as [[w1 log] o], (main_loop n ps' store' stop dt w' (by_name times_value f st)) as [[w1' log'] o']; cbn [snd] in K.
    unfold scaled_end; cbn [fst snd].
    destruct o as [[e | x] | ], o' as [[e' | x'] | ]; cbn in K; try contradiction; try exact K; try exact I.
    exact (L w1 w1' log log' e e' Hw Hst eq_refl eq_refl).
  Qed.

  Theorem scale_stepper_process {U} tg (fi f1 f2 : string -> Qc) c (ac : U -> dict (rval Qc) -> Z -> U * res (dict (nd Qc) * dict (nd Qc))) :
    s_packer c = None -> homogeneous fi f1 f2 ac -> input_factors f fi (s_inp c) -> output_factors f f1 (s_diag c) (s_inp c) -> output_factors f f2 (s_out c) (s_inp c) ->
    change_factors fi f1 f2 c -> linear_props f (s_out c) ->
    scales_step f eq (stepper_process tg c ac) (stepper_process tg c ac).
  Proof.
    intros Hpk Hh Hi Ho1 Ho2 Ht Hlp w w' st dt w1 w1' d n d' n' <- Hl Hx Hy.
    assert (Hn : no_offsets f (s_inp c) st) by (intros name a _ X; apply (Hl name a), dget_In, X).
    unfold stepper_process in Hx, Hy. rewrite (scale_stepper tg f fi f f f1 f2 c ac Hpk Hh Hi Ho1 Ho2 Ht w st dt Hn) in Hy.
    destruct (stepper_call tg c ac w st dt) as [u' r] eqn:E. cbn [fst snd] in Hy. destruct r as [[d0 n0] | x]; cbn [bind result_map fst snd] in Hx, Hy; [ | discriminate Hx].
    injection Hx as <- <- <-. injection Hy as <- <- <-. split; [reflexivity | ]. split; [reflexivity | ]. split; [unfold as_state, by_name; rewrite !map_map; reflexivity | ].
    unfold stepper_call in E. rewrite Hpk in E. destruct (let* _ := raise_if _ _ in _) as [raw | e]; [ | discriminate E].
    destruct (ac w raw dt) as [u1 r]. injection E as _ E. apply bind_ok in E as ([o1 o2] & _ & E). unfold stepper_finish in E. rewrite Hpk in E. cbn [unpack_tracers bind fst snd] in E.
    apply bind_ok in E as ([] & _ & E). apply bind_ok in E as ([] & _ & E). apply bind_ok in E as (o3 & _ & E). apply bind_ok in E as (d1 & _ & E). apply bind_ok in E as (n1 & Hr & E).
    pose proof (restore_NoDup _ _ _ _ _ _ _ Hr) as Hnd. rewrite dupdate_nil in E by exact Hnd. injection E as _ <-.
    intros name a Hin. unfold as_state in Hin. apply in_map_iff in Hin as ([k b] & X & Hin). cbn [fst snd] in X. injection X as -> ->.
    destruct (restored_units _ _ _ _ _ _ Hr name a Hin) as (p & Hp & ->). apply (Hlp name p Hp).
  Qed.

  Lemma ls_aside {V V' S S'} (rest : V -> V' -> Prop) (same : S -> S' -> Prop) qs qs' : Forall2 (scales_step f rest) qs qs' ->
    Forall2 (loc_step P P0 (fun x y => rest (fst x) (fst y) /\ same (snd x) (snd y))) (map aside qs) (map aside qs').
  Proof.
    intros H. induction H as [ | q q' qs qs' Hq H IH]; cbn [map]; constructor; [ | exact IH]. apply ss_step in Hq.
    intros [v s] [v' s'] st st' dt [v1 s1] [v1' s1'] d n d' n' [Hv Hs] Hst X Y. unfold aside in X, Y. cbn [fst snd] in *.
    destruct (q v st dt) as [a1 r1] eqn:E1. destruct (q' v' st' dt) as [a2 r2] eqn:E2. injection X as <- <- ->. injection Y as <- <- ->.
    destruct (Hq v v' st st' dt a1 a2 d n d' n' Hv Hst E1 E2) as (K1 & K2). split; [split; assumption | exact K2].
  Qed.

  Lemma ls_store {V V' S S'} (rest : V -> V' -> Prop) (same : S -> S' -> Prop) (mon : V -> state Qc -> V * res unit) (mon' : V' -> state Qc -> V' * res unit) : scales_store f rest mon mon' ->
    forall u v st st' u' v', rest (fst u) (fst v) /\ same (snd u) (snd v) ->
      Forall2 (fun x y : string * pval Qc => fst x = fst y /\ match snd x, snd y with VDA a, VDA b => P0 (fst x) a b | VTime s, VTime t => s = t | _, _ => False end) st st' ->
      (let (m1, r) := mon (fst u) st in ((m1, snd u), r)) = (u', Ok tt) -> (let (m1, r) := mon' (fst v) st' in ((m1, snd v), r)) = (v', Ok tt) -> rest (fst u') (fst v') /\ same (snd u') (snd v').
  Proof.
    intros H [m s] [m' s'] st st' u' v' [Hm Hs] Hst X Y. apply sc_state0 in Hst as ->. cbn [fst snd] in *.
    destruct (mon m st) as [m1 r1] eqn:E1. destruct (mon' m' _) as [m2 r2] eqn:E2. injection X as <- ->. injection Y as <- ->. split; [exact (H m m' st m1 m2 Hm E1 E2) | exact Hs].
  Qed.

  Lemma ls_beside {V V' S S'} (rest : V -> V' -> Prop) (same : S -> S' -> Prop) q q' : loc_step P P0 same q q' ->
    loc_step P P0 (fun (x : V * S) (y : V' * S') => rest (fst x) (fst y) /\ same (snd x) (snd y)) (beside q) (beside q').
  Proof.
    intros H [m1 x] [m2 y] s s' dt [m3 x'] [m4 y'] d k d' k' [Hm Hxy] Hss X Y. unfold beside in X, Y. cbn [fst snd] in *.
    destruct (q x s dt) as [x1 r1] eqn:E1. destruct (q' y s' dt) as [y1 r2] eqn:E2. injection X as <- <- ->. injection Y as <- <- ->.
    destruct (H x y s s' dt x1 y1 d k d' k' Hxy Hss E1 E2) as [L1 L2]. split; [split; assumption | exact L2].
  Qed.

  Lemma blind_aside {V V' S S'} (rest : V -> V' -> Prop) (same : S -> S' -> Prop) qs qs' :
    Forall2 (blind_step rest) qs qs' -> Forall2 (blind_step (both rest same)) (map aside qs) (map aside qs').
  Proof.
    intros H. induction H as [ | q q' qs qs' Hq H IH]; cbn [map]; constructor; [ | exact IH].
    intros [m u] [n v] st st' dt [Hm Hu] Hs; unfold aside; cbn [fst snd] in *. pose proof (Hq m n st st' dt Hm Hs) as [K1 K2].
    destruct (q m st dt), (q' n st' dt); cbn [fst snd] in *. split; [split; assumption | exact K2].
  Qed.

  Section Then.
    Context {U : Type} (p : icaller (T:=Qc) U) (Hp : scales f p).
    Context {V V' : Type} (rest : V -> V' -> Prop) (qs : list (process (T:=Qc) V)) (qs' : list (process (T:=Qc) V')) (Hq : Forall2 (scales_step f rest) qs qs').

    Theorem scale_adams_bashforth_then (mon : V -> state Qc -> V * res unit) (mon' : V' -> state Qc -> V' * res unit) cfg o a0 u :
      scales_store f rest mon mon' -> rates_fit f cfg -> new_ab (T:=Qc) o = Ok a0 ->
      forall n stop dt m m' st w w' log log' e e', rest m m' -> linear_state f st ->
      main_loop n (beside (adams_bashforth cfg p) :: map aside qs) (fun w st => let (m1, r) := mon (fst w) st in ((m1, snd w), r)) stop dt (m, (a0, u)) st = ((w, log), Some (Ok e)) ->
      main_loop n (beside (adams_bashforth cfg p) :: map aside qs') (fun w st => let (m1, r) := mon' (fst w) st in ((m1, snd w), r)) stop dt (m', (a0, u)) (by_name times_value f st) = ((w', log'), Some (Ok e')) ->
      log' = map (by_name times_value f) log /\ e' = by_name times_value f e.
    Proof.
      intros Hm Hf Ho n stop dt m m' st w w' log log' e e' Hr Hs Hx Hy.
      assert (L : loc_step P P0 (abs P eq) (adams_bashforth cfg p) (adams_bashforth cfg p)).
      { intros x y s s' dt' x' y' d k d' k' Hxy Hss X Y.
        exact (par_adams_bashforth P P0 (sc_attrs f) (sc_units f) (sc_map f) (sc_bin f) eq p p (sc_loc f p Hp) cfg (sc_rates f cfg Hf) _ _ _ _ _ _ _ _ _ Hxy Hss X Y). }
      assert (H0 : abs P eq (a0, u) (a0, u)).
      { exact (ab_fresh P eq o a0 u u Ho eq_refl). }
      destruct (run_loop P P0 (sc_any f) (fun (x : V * (ab Qc * U)) (y : V' * (ab Qc * U)) => rest (fst x) (fst y) /\ abs P eq (snd x) (snd y)) _ _ _ _
        (Forall2_cons _ _ (ls_beside rest (abs P eq) _ _ L) (ls_aside rest (abs P eq) qs qs' Hq)) (ls_store rest (abs P eq) mon mon' Hm)
        n stop dt (m, (a0, u)) (m', (a0, u)) st _ w w' log log' e e' (conj Hr H0) (sc_state f st Hs) Hx Hy) as [K1 K2].
      split; [exact (sc_log f _ _ K1) | exact (proj2 (sc_linear f _ _ K2))].
    Qed.

    Theorem scale_runge_kutta_then (mon : V -> state Qc -> V * res unit) (mon' : V' -> state Qc -> V' * res unit) cfg z k0 u :
      scales_store f rest mon mon' -> rates_fit f cfg -> new_rk (T:=Qc) z = Ok k0 ->
      forall n stop dt m m' st w w' log log' e e', rest m m' -> linear_state f st ->
      main_loop n (beside (ssp_rk cfg p) :: map aside qs) (fun w st => let (m1, r) := mon (fst w) st in ((m1, snd w), r)) stop dt (m, (k0, u)) st = ((w, log), Some (Ok e)) ->
      main_loop n (beside (ssp_rk cfg p) :: map aside qs') (fun w st => let (m1, r) := mon' (fst w) st in ((m1, snd w), r)) stop dt (m', (k0, u)) (by_name times_value f st) = ((w', log'), Some (Ok e')) ->
      log' = map (by_name times_value f) log /\ e' = by_name times_value f e.
    Proof.
      intros Hm Hf Ho n stop dt m m' st w w' log log' e e' Hr Hs Hx Hy.
      assert (L : loc_step P P0 (rks P eq) (ssp_rk cfg p) (ssp_rk cfg p)).
      { intros x y s s' dt' x' y' d k d' k' Hxy Hss X Y.
        exact (par_ssp_rk P P0 (sc_attrs f) (sc_units f) (sc_map f) (sc_bin f) eq p p (sc_loc f p Hp) cfg (sc_rates f cfg Hf) _ _ _ _ _ _ _ _ _ Hxy Hss X Y). }
      assert (H0 : rks P eq (k0, u) (k0, u)).
      { split; [reflexivity | ]. cbn [fst snd]. assert (E : rk_euler k0 = mkab 1 None []). { unfold new_rk in Ho. destruct (Z.eqb z 2); [injection Ho as <-; reflexivity | ]. destruct (Z.eqb z 3); [injection Ho as <-; reflexivity | discriminate Ho]. }
        rewrite E. split; [reflexivity | ]. split; [reflexivity | ]. split; [constructor | reflexivity]. }
      destruct (run_loop P P0 (sc_any f) (fun (x : V * (rk Qc * U)) (y : V' * (rk Qc * U)) => rest (fst x) (fst y) /\ rks P eq (snd x) (snd y)) _ _ _ _
        (Forall2_cons _ _ (ls_beside rest (rks P eq) _ _ L) (ls_aside rest (rks P eq) qs qs' Hq)) (ls_store rest (rks P eq) mon mon' Hm)
        n stop dt (m, (k0, u)) (m', (k0, u)) st _ w w' log log' e e' (conj Hr H0) (sc_state f st Hs) Hx Hy) as [K1 K2].
      split; [exact (sc_log f _ _ K1) | exact (proj2 (sc_linear f _ _ K2))].
    Qed.

    Theorem scale_adams_bashforth_then_ends (mon : V -> state Qc -> V * res unit) (mon' : V' -> state Qc -> V' * res unit) cfg o a0 u :
      blind eq p p -> Forall2 (blind_step rest) qs qs' -> blind_store rest mon mon' ->
      scales_store f rest mon mon' -> rates_fit f cfg -> new_ab (T:=Qc) o = Ok a0 ->
      forall n stop dt m m' st, rest m m' -> linear_state f st ->
      scaled_end f (main_loop n (beside (adams_bashforth cfg p) :: map aside qs) (fun w st => let (m1, r) := mon (fst w) st in ((m1, snd w), r)) stop dt (m, (a0, u)) st)
                   (main_loop n (beside (adams_bashforth cfg p) :: map aside qs') (fun w st => let (m1, r) := mon' (fst w) st in ((m1, snd w), r)) stop dt (m', (a0, u)) (by_name times_value f st)).
    Proof.
      intros Hb Hbq Hbm Hm Hf Ha n stop dt m m' st Hmm Hst. pose proof (scaled_alike f st) as Hal.
      pose proof (scale_adams_bashforth_then mon mon' cfg o a0 u Hm Hf Ha n stop dt m m' st) as L.
      set (st' := by_name times_value f st) in *.
      pose proof (frame_run (both rest (both alike_ab eq)) _ _ _ _ stop dt
        (Forall2_cons _ _ (blind_beside rest _ _ _ (frame_adams_bashforth eq cfg p p Hb)) (blind_aside rest (both alike_ab eq) qs qs' Hbq)) (blind_monitor rest (both alike_ab eq) mon mon' Hbm)
        n (m, (a0, u)) (m', (a0, u)) st st') as K.
      assert (H0 : ab_hist a0 = []) by (unfold new_ab in Ha; destruct (check_order o); [injection Ha as <-; reflexivity | discriminate Ha]).
      assert (Hw : both rest (both (alike_ab (T':=Qc)) eq) (m, (a0, u)) (m', (a0, u))).
      { split; [exact Hmm | split; [split; [reflexivity | split; [reflexivity | cbn [fst snd]; rewrite H0; constructor]] | reflexivity]]. }
      specialize (K Hw Hal) as (_ & _ & K).
      destruct (main_loop n (beside (adams_bashforth cfg p) :: map aside qs) _ stop dt (m, (a0, u)) st) as [[w1 log] x], (main_loop n (beside (adams_bashforth cfg p) :: map aside qs') _ stop dt (m', (a0, u)) st') as [[w1' log'] x']; cbn [snd] in K.
      unfold scaled_end; cbn [fst snd].
      destruct x as [[e | x] | ], x' as [[e' | x'] | ]; cbn in K; try contradiction; try exact K; try exact I.
      exact (L w1 w1' log log' e e' Hmm Hst eq_refl eq_refl).
    Qed.

    Theorem scale_runge_kutta_then_ends (mon : V -> state Qc -> V * res unit) (mon' : V' -> state Qc -> V' * res unit) cfg z k0 u :
      blind eq p p -> Forall2 (blind_step rest) qs qs' -> blind_store rest mon mon' ->
      scales_store f rest mon mon' -> rates_fit f cfg -> new_rk (T:=Qc) z = Ok k0 ->
      forall n stop dt m m' st, rest m m' -> linear_state f st ->
      scaled_end f (main_loop n (beside (ssp_rk cfg p) :: map aside qs) (fun w st => let (m1, r) := mon (fst w) st in ((m1, snd w), r)) stop dt (m, (k0, u)) st)
                   (main_loop n (beside (ssp_rk cfg p) :: map aside qs') (fun w st => let (m1, r) := mon' (fst w) st in ((m1, snd w), r)) stop dt (m', (k0, u)) (by_name times_value f st)).
    Proof.
      intros Hb Hbq Hbm Hm Hf Ha n stop dt m m' st Hmm Hst. pose proof (scaled_alike f st) as Hal.
      pose proof (scale_runge_kutta_then mon mon' cfg z k0 u Hm Hf Ha n stop dt m m' st) as L.
      set (st' := by_name times_value f st) in *.
      pose proof (frame_run (both rest (both alike_rk eq)) _ _ _ _ stop dt
        (Forall2_cons _ _ (blind_beside rest _ _ _ (frame_runge_kutta eq cfg p p Hb)) (blind_aside rest (both alike_rk eq) qs qs' Hbq)) (blind_monitor rest (both alike_rk eq) mon mon' Hbm)
        n (m, (k0, u)) (m', (k0, u)) st st') as K.
      assert (H0 : ab_hist (rk_euler k0) = []).
      { unfold new_rk in Ha. destruct (Z.eqb z 2); [injection Ha as <-; reflexivity | destruct (Z.eqb z 3); [injection Ha as <-; reflexivity | discriminate Ha]]. }
      assert (Hw : both rest (both (alike_rk (T':=Qc)) eq) (m, (k0, u)) (m', (k0, u))).
      { split; [exact Hmm | split; [split; [reflexivity | split; [reflexivity | split; [reflexivity | cbn [fst snd]; rewrite H0; constructor]]] | reflexivity]]. }
      specialize (K Hw Hal) as (_ & _ & K).
      destruct (main_loop n (beside (ssp_rk cfg p) :: map aside qs) _ stop dt (m, (k0, u)) st) as [[w1 log] x], (main_loop n (beside (ssp_rk cfg p) :: map aside qs') _ stop dt (m', (k0, u)) st') as [[w1' log'] x']; cbn [snd] in K.
      unfold scaled_end; cbn [fst snd].
      destruct x as [[e | x] | ], x' as [[e' | x'] | ]; cbn in K; try contradiction; try exact K; try exact I.
      exact (L w1 w1' log log' e e' Hmm Hst eq_refl eq_refl).
    Qed.

    Theorem scale_leapfrog_then (mon : V -> state Qc -> V * res unit) (mon' : V' -> state Qc -> V' * res unit) cfg nu alpha u :
      scales_store f rest mon mon' -> rates_fit f cfg ->
      forall n stop dt m m' st s1 s1' w w' log log' e e', rest m m' -> linear_state f st ->
      leap_main_loop n cfg p qs mon stop dt (new_leap nu alpha, u) m st = ((s1, w, log), Some (Ok e)) ->
      leap_main_loop n cfg p qs' mon' stop dt (new_leap nu alpha, u) m' (by_name times_value f st) = ((s1', w', log'), Some (Ok e')) ->
      log' = map (by_name times_value f) log /\ e' = by_name times_value f e.
    Proof.
      intros Hm Hf n stop dt m m' st s1 s1' w w' log log' e e' Hr Hs Hx Hy.
      destruct (run_leap_loop P P0 (sc_any f) (sc_attrs f) (sc_units f) (sc_map f) (sc_bin f) eq rest p p qs qs' mon mon' cfg nu alpha (sc_rates f cfg Hf) (sc_loc f p Hp) (ss_steps _ _ _ Hq) (ss_store _ _ _ Hm)
        n stop dt u u m m' st _ s1 s1' w w' log log' e e' eq_refl Hr (sc_state f st Hs) Hx Hy) as [K1 K2].
      split; [exact (sc_log f _ _ K1) | exact (proj2 (sc_linear f _ _ K2))].
    Qed.

    Theorem scale_leapfrog_then_ends (mon : V -> state Qc -> V * res unit) (mon' : V' -> state Qc -> V' * res unit) cfg nu alpha u :
      blind eq p p -> Forall2 (blind_step rest) qs qs' -> blind_store rest mon mon' ->
      scales_store f rest mon mon' -> rates_fit f cfg ->
      forall n stop dt m m' st, rest m m' -> linear_state f st ->
      scaled_end f (leap_main_loop n cfg p qs mon stop dt (new_leap nu alpha, u) m st)
                   (leap_main_loop n cfg p qs' mon' stop dt (new_leap nu alpha, u) m' (by_name times_value f st)).
    Proof.
      intros Hb Hbq Hbm Hm Hf n stop dt m m' st Hmm Hst. pose proof (scaled_alike f st) as Hal.
      pose proof (scale_leapfrog_then mon mon' cfg nu alpha u Hm Hf n stop dt m m' st) as L.
      set (st' := by_name times_value f st) in *.
      pose proof (frame_leap_run eq rest cfg p p qs qs' mon mon' stop dt Hb Hbq Hbm n (new_leap nu alpha, u) (new_leap nu alpha, u) m m' st st') as K.
      assert (Hl : both alike_leap eq (new_leap nu alpha, u) (new_leap nu alpha, u)) by (split; [split; [reflexivity | split; [reflexivity | exact I]] | reflexivity]).
      specialize (K Hl Hmm Hal) as (_ & _ & _ & K).
      destruct (leap_main_loop n cfg p qs mon stop dt (new_leap nu alpha, u) m st) as [[[s1 w1] log] x], (leap_main_loop n cfg p qs' mon' stop dt (new_leap nu alpha, u) m' st') as [[[s1' w1'] log'] x']; cbn [snd] in K.
      unfold scaled_end; cbn [fst snd].
      destruct x as [[e | x] | ], x' as [[e' | x'] | ]; cbn in K; try contradiction; try exact K; try exact I.
      exact (L s1 s1' w1 w1' log log' e e' Hmm Hst eq_refl eq_refl).
    Qed.
  End Then.
End Steps.
