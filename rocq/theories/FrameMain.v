(** C102: composites, time steppers and main loops. *)
From Coq Require Import String List Bool Arith ZArith QArith.
From Verif Require Import Prelude PreludeFacts ArithM NdArray Units DataArrayM Wildcard GetNp Restore InitNp Tracers Components Composite Steppers Basic MainLoop LeapLoop SpecFrame FrameFacts FrameCalls.
Import ListNotations.
Open Scope string_scope.
Open Scope nat_scope.
Open Scope list_scope.

Section Main.
  Context {T T' : Type} {A : Arith T} {A' : Arith T'} {R : Registry}.

  (** ** Composites *)

  Lemma ad_update (d1 d2 : dict (da T)) (e1 e2 : dict (da T')) :
    alike_dict d1 e1 -> alike_dict d2 e2 ->
    same_outcome alike_dict (update_dict_by_adding_another d1 d2) (update_dict_by_adding_another e1 e2).
  Proof.
    intros H K; unfold update_dict_by_adding_another. eapply so_foldM; [exact K | | exact H].
    intros s s' [k x] [k' y] Hs [Hk Hv]; cbn [fst snd] in *; subst k'; unfold add_entry.
    pose proof (sk_get _ k s s' Hs) as G.
    destruct (dget k s) as [a | ], (dget k s') as [b | ]; try contradiction; [ | cbn; apply sk_set; assumption].
    eapply so_bind with (P := alike); [ | intros q r Hq; cbn; apply sk_set; assumption].
    unfold add_quantities. rewrite <- (al_attrs a b G), <- (al_attrs x y Hv).
    destruct (dget "units" (attrs a)) as [u | ]; [ | reflexivity].
    destruct (dget "units" (attrs x)); [ | reflexivity].
    eapply so_bind; [exact (al_units x y u Hv) | intros q r Hq]. apply al_add; assumption.
  Qed.

  Theorem frame_composite {U V} (same : U -> V -> Prop) (cs : list (caller (T:=T) U)) (cs' : list (caller (T:=T') V)) :
    Forall2 (blind_plain same) cs cs' -> blind_plain same (tendency_composite_call cs) (tendency_composite_call cs').
  Proof.
    intros Hc u v st st' Huv H; unfold tendency_composite_call.
    assert (K : forall t d t' d', alike_dict t t' -> alike_dict d d' ->
      same (fst (composite_loop cs u st t d)) (fst (composite_loop cs' v st' t' d')) /\
      same_outcome alike_rates (snd (composite_loop cs u st t d)) (snd (composite_loop cs' v st' t' d'))).
    { revert u v Huv; induction Hc as [ | c c' cs cs' Hcc Hc IH]; intros u v Huv t d t' d' Ht Hd; cbn [composite_loop].
      - split; [exact Huv | split; assumption].
      - pose proof (Hcc u v st st' Huv H) as [Hs Ho].
        destruct (c u st) as [u1 r], (c' v st') as [v1 r']; cbn [fst snd] in Hs, Ho.
        assert (Hn : same_outcome alike_rates
          (let* td := r in let* tend' := update_dict_by_adding_another t (fst td) in Ok (tend', dupdate d (snd td)))
          (let* td := r' in let* tend' := update_dict_by_adding_another t' (fst td) in Ok (tend', dupdate d' (snd td)))).
        { eapply so_bind; [exact Ho | intros x y [Hx1 Hx2]].
          eapply so_bind; [apply ad_update; eassumption | intros w z Hw].
          split; [exact Hw | apply sk_update; assumption]. }
        destruct (let* td := r in _) as [[t1 d1] | e], (let* td := r' in _) as [[t2 d2] | e']; cbn in Hn; try contradiction.
        + destruct Hn as [Hn1 Hn2]; cbn [fst snd] in *. apply IH; assumption.
        + subst e'. split; [exact Hs | reflexivity]. }
    apply K; constructor.
  Qed.

  Theorem frame_implicit_composite {U V} (same : U -> V -> Prop) (cs : list (icaller (T:=T) U + caller (T:=T) U)) (cs' : list (icaller (T:=T') V + caller (T:=T') V)) :
    Forall2 (blind_any same) cs cs' ->
    blind same (fun u st dt => implicit_composite_call cs dt u st) (fun v st dt => implicit_composite_call cs' dt v st).
  Proof.
    intros Hc u v st st' dt Huv H; unfold implicit_composite_call.
    refine (frame_composite same _ _ _ u v st st' Huv H).
    clear -Hc; induction Hc as [ | c c' cs cs' Hcc Hc IH]; cbn [map]; constructor; [ | exact IH].
    destruct c as [f | f], c' as [h | h]; cbn in Hcc; try contradiction; [ | exact Hcc].
    intros a b s s' Hab Hs. exact (Hcc a b s s' dt Hab Hs).
  Qed.

  Theorem frame_diagnostic_composite {U V} (same : U -> V -> Prop) (cs : list (dcaller (T:=T) U)) (cs' : list (dcaller (T:=T') V)) :
    Forall2 (blind_diagnostic same) cs cs' -> blind_diagnostic same (diagnostic_composite_call cs) (diagnostic_composite_call cs').
  Proof.
    intros Hc u v st st' Huv H; unfold diagnostic_composite_call.
    assert (K : forall d d', alike_dict d d' ->
      same (fst (diagnostic_loop cs u st d)) (fst (diagnostic_loop cs' v st' d')) /\
      same_outcome alike_dict (snd (diagnostic_loop cs u st d)) (snd (diagnostic_loop cs' v st' d'))).
    { revert u v Huv; induction Hc as [ | c c' cs cs' Hcc Hc IH]; intros u v Huv d d' Hd; cbn [diagnostic_loop].
      - split; assumption.
      - pose proof (Hcc u v st st' Huv H) as [Hs Ho].
        destruct (c u st) as [u1 r], (c' v st') as [v1 r']; cbn [fst snd] in Hs, Ho.
        assert (Hn : same_outcome alike_dict
          (let* x := r in let* _ := ensure_no_shared_keys d x in Ok (dupdate d x))
          (let* x := r' in let* _ := ensure_no_shared_keys d' x in Ok (dupdate d' x))).
        { eapply so_bind; [exact Ho | intros x y Hx].
          assert (Hk : ensure_no_shared_keys d x = ensure_no_shared_keys d' y).
          { unfold ensure_no_shared_keys.
            rewrite <- (sk_keys _ _ _ Hd). f_equal.
            induction (keys d) as [ | k ks IHk]; cbn [existsb]; [reflexivity | ].
            rewrite IHk, (sk_mem _ k x y Hx); reflexivity. }
          rewrite <- Hk. eapply so_bind; [apply so_refl | intros _ _ _]. cbn. apply sk_update; assumption. }
        destruct (let* x := r in _) as [d1 | e], (let* x := r' in _) as [d2 | e']; cbn in Hn; try contradiction.
        + apply IH; assumption.
        + subst e'. split; [exact Hs | reflexivity]. }
    apply K; constructor.
  Qed.

  (** ** Time steppers *)

  Lemma fr_converted (st : state T) (st' : state T') r r' :
    alike_state st st' -> same_outcome alike_rates r r' ->
    same_outcome alike_rates (let* td := r in let* tend := convert_tendencies st (fst td) in Ok (tend, snd td))
                             (let* td := r' in let* tend := convert_tendencies st' (fst td) in Ok (tend, snd td)).
  Proof.
    intros H K. eapply so_bind; [exact K | intros x y [Hx1 Hx2]].
    eapply so_bind; [apply as_convert; eassumption | intros w z Hw]. split; assumption.
  Qed.

  Lemma fr_ab_call {U V} (same : U -> V -> Prop) (p : icaller (T:=T) U) (q : icaller (T:=T') V) :
    blind same p q -> blind_step (both alike_ab same) (ab_call p) (ab_call q).
  Proof.
    intros Hp [a u] [b v] st st' dt [(Ha1 & Ha2 & Ha3) Huv] H; cbn [fst snd] in *; unfold ab_call.
    rewrite <- Ha2. destruct (ensure_timestep (ab_dt a) dt); [ | split; [repeat split; assumption | reflexivity]].
    pose proof (Hp u v st st' dt Huv H) as [Hs Ho].
    destruct (p u st dt) as [u1 r], (q v st' dt) as [v1 r']; cbn [fst snd] in Hs, Ho.
    pose proof (fr_converted st st' r r' H Ho) as K.
    destruct (let* td := r in _) as [[t d] | e], (let* td := r' in _) as [[t' d'] | e']; cbn in K; try contradiction;
      [ | subst e'; split; [repeat split; assumption | reflexivity]].
    destruct K as [K1 K2]; cbn [fst snd] in K1, K2.
    assert (Hh : Forall2 alike_dict (ab_hist a ++ [t]) (ab_hist b ++ [t'])) by (apply Forall2_app; [exact Ha3 | constructor; [exact K1 | constructor]]).
    assert (Hl : length (ab_hist b ++ [t']) = length (ab_hist a ++ [t])) by (clear -Hh; induction Hh; cbn; congruence).
    rewrite <- Ha1, Hl.
    pose proof (as_perform (ab_order a) _ _ st st' dt Hh H) as P.
    destruct (perform_step (ab_order a) (ab_hist a ++ [t]) st dt) as [n | e], (perform_step (ab_order a) (ab_hist b ++ [t']) st' dt) as [n' | e'];
      cbn in P; try contradiction; [ | subst e'; split; [repeat split; assumption | reflexivity]].
    split; [ | split; [exact K2 | apply as_untouched; assumption]].
    split; [ | exact Hs]. split; [reflexivity | split; [reflexivity | ]]. cbn [fst ab_hist].
    destruct (Nat.eqb _ _); [ | exact Hh]. destruct Hh; [constructor | assumption].
  Qed.

  Theorem frame_adams_bashforth {U V} (same : U -> V -> Prop) cfg (p : icaller (T:=T) U) (q : icaller (T:=T') V) :
    blind same p q -> blind_step (both alike_ab same) (adams_bashforth cfg p) (adams_bashforth cfg q).
  Proof.
    intros Hp s s' st st' dt Hs H; unfold adams_bashforth.
    pose proof (fr_ab_call same p q Hp s s' st st' dt Hs H) as [K1 K2].
    destruct (ab_call p s st dt) as [s1 r], (ab_call q s' st' dt) as [s1' r']; cbn [fst snd] in *.
    split; [exact K1 | apply as_finish; assumption].
  Qed.

  Lemma fr_inner {U V} (same : U -> V -> Prop) (p : icaller (T:=T) U) (q : icaller (T:=T') V) :
    blind same p q -> blind_step (both alike_ab same) (inner_euler p) (inner_euler q).
  Proof.
    intros Hp s s' st st' dt Hs H; unfold inner_euler.
    pose proof (fr_ab_call same p q Hp s s' st st' dt Hs H) as [K1 K2].
    destruct (ab_call p s st dt) as [s1 r], (ab_call q s' st' dt) as [s1' r']; cbn [fst snd] in *.
    split; [exact K1 | ]. eapply so_bind; [exact K2 | intros x y [Hx1 Hx2]].
    split; [exact Hx1 | apply as_untouched; assumption].
  Qed.

  Lemma fr_rk2 {U V} (same : U -> V -> Prop) (p : icaller (T:=T) U) (q : icaller (T:=T') V) :
    blind same p q -> blind_step (both alike_ab same) (rk2 p) (rk2 q).
  Proof.
    intros Hp s s' st st' dt Hs H; unfold rk2.
    pose proof (fr_inner same p q Hp s s' st st' dt Hs H) as [K1 K2].
    destruct (inner_euler p s st dt) as [s1 r], (inner_euler q s' st' dt) as [s1' r']; cbn [fst snd] in *.
    destruct r as [[d n] | e], r' as [[d' n'] | e']; cbn in K2; try contradiction; [ | subst e'; split; [exact K1 | reflexivity]].
    destruct K2 as [Hd Hn]; cbn [fst snd] in *.
    pose proof (fr_inner same p q Hp s1 s1' n n' dt K1 Hn) as [L1 L2].
    destruct (inner_euler p s1 n dt) as [s2 r], (inner_euler q s1' n' dt) as [s2' r']; cbn [fst snd] in *.
    split; [exact L1 | ]. eapply so_bind; [exact L2 | intros x y [Hx1 Hx2]].
    eapply so_bind; [apply as_add; eassumption | intros w z Hw].
    eapply so_bind; [apply as_multiply; exact Hw | intros w2 z2 Hw2]. split; assumption.
  Qed.

  Lemma fr_rk3 {U V} (same : U -> V -> Prop) (p : icaller (T:=T) U) (q : icaller (T:=T') V) :
    blind same p q -> blind_step (both alike_ab same) (rk3 p) (rk3 q).
  Proof.
    intros Hp s s' st st' dt Hs H; unfold rk3.
    pose proof (fr_inner same p q Hp s s' st st' dt Hs H) as [K1 K2].
    destruct (inner_euler p s st dt) as [s1 r], (inner_euler q s' st' dt) as [s1' r']; cbn [fst snd] in *.
    destruct r as [[d n] | e], r' as [[d' n'] | e']; cbn in K2; try contradiction; [ | subst e'; split; [exact K1 | reflexivity]].
    destruct K2 as [Hd Hn]; cbn [fst snd] in *.
    pose proof (fr_inner same p q Hp s1 s1' n n' dt K1 Hn) as [L1 L2].
    destruct (inner_euler p s1 n dt) as [s2 r], (inner_euler q s1' n' dt) as [s2' r']; cbn [fst snd] in *.
    assert (M : forall c1 c2 c1' c2' (r : res (stepped T)) (r' : res (stepped T')), same_outcome alike_step r r' ->
      same_outcome alike_state
        (let* dn := r in let* a := multiply c1 st in let* b := multiply c2 (snd dn) in add_states a b)
        (let* dn := r' in let* a := multiply c1' st' in let* b := multiply c2' (snd dn) in add_states a b)).
    { intros c1 c2 c1' c2' x x' Hx. eapply so_bind; [exact Hx | intros y z [Hy1 Hy2]].
      eapply so_bind; [apply as_multiply; exact H | intros w w' Hw].
      eapply so_bind; [apply as_multiply; exact Hy2 | intros w2 w2' Hw2]. apply as_add; assumption. }
    pose proof (M (aofQ (3 # 4)) (aofQ (1 # 4)) (aofQ (3 # 4)) (aofQ (1 # 4)) r r' L2) as N.
    destruct (let* dn := r in _) as [m | e], (let* dn := r' in _) as [m' | e']; cbn in N; try contradiction;
      [ | subst e'; split; [exact L1 | reflexivity]].
    pose proof (fr_inner same p q Hp s2 s2' m m' dt L1 N) as [O1 O2].
    destruct (inner_euler p s2 m dt) as [s3 r3], (inner_euler q s2' m' dt) as [s3' r3']; cbn [fst snd] in *.
    split; [exact O1 | ]. eapply so_bind; [exact O2 | intros y z [Hy1 Hy2]].
    eapply so_bind; [apply as_multiply; exact H | intros w w' Hw].
    eapply so_bind; [apply as_multiply; exact Hy2 | intros w2 w2' Hw2].
    eapply so_bind; [apply as_add; eassumption | intros o o' Hoo]. split; assumption.
  Qed.

  Theorem frame_runge_kutta {U V} (same : U -> V -> Prop) cfg (p : icaller (T:=T) U) (q : icaller (T:=T') V) :
    blind same p q -> blind_step (both alike_rk same) (ssp_rk cfg p) (ssp_rk cfg q).
  Proof.
    intros Hp [k u] [k' v] st st' dt [[Hk1 Hk2] Huv] H; cbn [fst snd] in *; unfold ssp_rk. rewrite <- Hk1.
    assert (K : same_outcome alike_step
       (snd ((if Nat.eqb (rk_stages k) 2 then rk2 else rk3) p (rk_euler k, u) st dt))
       (snd ((if Nat.eqb (rk_stages k) 2 then rk2 else rk3) q (rk_euler k', v) st' dt)) /\
       both alike_ab same (fst ((if Nat.eqb (rk_stages k) 2 then rk2 else rk3) p (rk_euler k, u) st dt))
       (fst ((if Nat.eqb (rk_stages k) 2 then rk2 else rk3) q (rk_euler k', v) st' dt))).
    { destruct (Nat.eqb (rk_stages k) 2).
      - apply and_comm, (fr_rk2 same p q Hp); [split; assumption | exact H].
      - apply and_comm, (fr_rk3 same p q Hp); [split; assumption | exact H]. }
    destruct K as [K1 K2].
    destruct ((if Nat.eqb (rk_stages k) 2 then rk2 else rk3) p (rk_euler k, u) st dt) as [[e u1] r],
             ((if Nat.eqb (rk_stages k) 2 then rk2 else rk3) q (rk_euler k', v) st' dt) as [[e' v1] r'].
    destruct K2 as [K2 K3]; cbn [fst snd] in *.
    split; [split; [split; [reflexivity | exact K2] | exact K3] | apply as_finish; assumption].
  Qed.

  Lemma fr_leap_one sec nu sec' nu' (o st : state T) (o' st' : state T') t t' k :
    alike_state o o' -> alike_state st st' -> alike_dict t t' ->
    same_outcome (both alike alike) (leap_one sec nu o st t k) (leap_one sec' nu' o' st' t' k).
  Proof.
    intros Ho H Ht; unfold leap_one.
    eapply so_bind; [exact (as_da k o o' Ho) | intros x y Hx].
    eapply so_bind; [exact (sk_getE _ k t t' Ht) | intros z w Hz].
    eapply so_bind; [apply al_add; [exact Hx | apply al_scale, al_lscale; exact Hz] | intros n n' Hn].
    eapply so_bind; [exact (as_da k st st' H) | intros x1 y1 Hx1].
    eapply so_bind; [apply al_sub; [exact Hx | apply al_lscale; exact Hx1] | intros w1 w1' Hw1].
    eapply so_bind; [apply al_add; [exact Hw1 | exact Hn] | intros w2 w2' Hw2].
    split; [exact Hn | apply al_lscale; exact Hw2].
  Qed.

  Lemma fr_leap_loop sec nu al sec' nu' al' (o : state T) (o' : state T') t t' ks :
    alike_state o o' -> alike_dict t t' -> aeqb al (aofQ (1 # 1)) = aeqb al' (aofQ (1 # 1)) ->
    forall (st n : state T) (st' n' : state T'), alike_state st st' -> alike_state n n' ->
    alike_state (fst (leap_loop sec nu al o t ks st n)) (fst (leap_loop sec' nu' al' o' t' ks st' n')) /\
    same_outcome alike_state (snd (leap_loop sec nu al o t ks st n)) (snd (leap_loop sec' nu' al' o' t' ks st' n')).
  Proof.
    intros Ho Ht Hal; induction ks as [ | k ks IH]; intros st n st' n' H Hn; cbn [leap_loop]; [split; assumption | ].
    assert (K : same_outcome (both (both alike alike) alike)
      (let* ni := leap_one sec nu o st t k in let* x := state_da k st in let* x' := da_iadd x (da_lscale al (snd ni)) in Ok (fst ni, snd ni, x'))
      (let* ni := leap_one sec' nu' o' st' t' k in let* x := state_da k st' in let* x' := da_iadd x (da_lscale al' (snd ni)) in Ok (fst ni, snd ni, x'))).
    { eapply so_bind; [apply fr_leap_one; eassumption | intros a b [Ha Hb]].
      eapply so_bind; [exact (as_da k st st' H) | intros x y Hx].
      eapply so_bind; [apply al_iadd; [exact Hx | apply al_lscale; exact Hb] | intros x1 y1 Hx1].
      split; [split; assumption | exact Hx1]. }
    destruct (let* ni := leap_one sec nu o st t k in _) as [[[m i] x] | e], (let* ni := leap_one sec' nu' o' st' t' k in _) as [[[m' i'] x'] | e'];
      cbn in K; try contradiction; [ | subst e'; split; [exact H | reflexivity]].
    destruct K as [[Km Ki] Kx]; cbn [fst snd] in *.
    assert (Hst : alike_state (dset k (VDA x) st) (dset k (VDA x') st')) by (apply sk_set; [exact H | exact Kx]).
    rewrite <- Hal.
    assert (L : same_outcome alike
      (if aeqb al (aofQ (1 # 1)) then Ok m else da_iadd m (da_lscale (asub al (aofQ (1 # 1))) i))
      (if aeqb al (aofQ (1 # 1)) then Ok m' else da_iadd m' (da_lscale (asub al' (aofQ (1 # 1))) i'))).
    { destruct (aeqb al (aofQ (1 # 1))); [exact Km | apply al_iadd; [exact Km | apply al_lscale; exact Ki]]. }
    destruct (if aeqb al (aofQ (1 # 1)) then Ok m else _) as [m1 | e], (if aeqb al (aofQ (1 # 1)) then Ok m' else _) as [m1' | e'];
      cbn in L; try contradiction; [ | subst e'; split; [exact Hst | reflexivity]].
    apply IH; [exact Hst | apply sk_set; [exact Hn | exact L]].
  Qed.

  (** Leapfrog also changes the state it is given. *)
  Theorem frame_leapfrog {U V} (same : U -> V -> Prop) cfg (p : icaller (T:=T) U) (q : icaller (T:=T') V) :
    blind same p q ->
    forall s s' st st' dt, both alike_leap same s s' -> alike_state st st' ->
      both alike_leap same (fst (fst (leapfrog cfg p s st dt))) (fst (fst (leapfrog cfg q s' st' dt))) /\
      alike_state (snd (fst (leapfrog cfg p s st dt))) (snd (fst (leapfrog cfg q s' st' dt))) /\
      same_outcome alike_step (snd (leapfrog cfg p s st dt)) (snd (leapfrog cfg q s' st' dt)).
  Proof.
    intros Hp [l u] [l' v] st st' dt [(Hl1 & Hl2 & Hl3) Huv] H; cbn [fst snd] in *; unfold leapfrog, leap_call.
    rewrite <- Hl2. destruct (ensure_timestep (lf_dt l) dt); [ | split; [repeat split; assumption | split; [exact H | reflexivity]]].
    pose proof (Hp u v st st' dt Huv H) as [Hs Ho].
    destruct (p u st dt) as [u1 r], (q v st' dt) as [v1 r']; cbn [fst snd] in Hs, Ho.
    pose proof (fr_converted st st' r r' H Ho) as K.
    destruct (let* td := r in _) as [[t d] | e], (let* td := r' in _) as [[t' d'] | e']; cbn in K; try contradiction;
      [ | subst e'; split; [repeat split; assumption | split; [exact H | reflexivity]]].
    destruct K as [K1 K2]; cbn [fst snd] in K1, K2.
    assert (M :
      alike_state (fst (match lf_old l with None => (st, step_forward_euler st t dt)
                        | Some old => leap_loop (total_seconds dt) (lf_nu l) (lf_alpha l) old t (keys t) st [] end))
                  (fst (match lf_old l' with None => (st', step_forward_euler st' t' dt)
                        | Some old => leap_loop (total_seconds dt) (lf_nu l') (lf_alpha l') old t' (keys t') st' [] end)) /\
      same_outcome alike_state
                  (snd (match lf_old l with None => (st, step_forward_euler st t dt)
                        | Some old => leap_loop (total_seconds dt) (lf_nu l) (lf_alpha l) old t (keys t) st [] end))
                  (snd (match lf_old l' with None => (st', step_forward_euler st' t' dt)
                        | Some old => leap_loop (total_seconds dt) (lf_nu l') (lf_alpha l') old t' (keys t') st' [] end))).
    { destruct (lf_old l) as [o | ], (lf_old l') as [o' | ]; try contradiction.
      - rewrite <- (sk_keys _ _ _ K1). apply fr_leap_loop; try assumption. constructor.
      - split; [exact H | apply as_euler; assumption]. }
    destruct M as [M1 M2].
    destruct (match lf_old l with None => _ | Some old => _ end) as [st1 rn], (match lf_old l' with None => _ | Some old => _ end) as [st1' rn'];
      cbn [fst snd] in M1, M2.
    destruct rn as [n | e], rn' as [n' | e']; cbn in M2; try contradiction;
      [ | subst e'; split; [repeat split; assumption | split; [exact M1 | reflexivity]]].
    cbn [fst snd]. split; [ | split; [exact M1 | ]].
    - split; [split; [exact Hl1 | split; [reflexivity | exact M1]] | exact Hs].
    - apply as_finish; [exact M1 | ]. split; [exact K2 | apply as_untouched; assumption].
  Qed.

  (** ** Main loops *)

  Lemma fr_as_state (d : dict (da T)) (d' : dict (da T')) : alike_dict d d' -> alike_state (as_state d) (as_state d').
  Proof. intros H; induction H as [ | x y l l' [H1 H2] Hl IH]; cbn; constructor; auto. Qed.

  Theorem frame_stepper_process {U V} (same : U -> V -> Prop) g c
    (ac : U -> dict (rval T) -> Z -> U * res (dict (nd T) * dict (nd T))) (ac' : V -> dict (rval T') -> Z -> V * res (dict (nd T') * dict (nd T'))) :
    (forall dt, blind_arrays alike_two same (fun u raw => ac u raw dt) (fun v raw => ac' v raw dt)) ->
    blind_step same (stepper_process g c ac) (stepper_process g c ac').
  Proof.
    intros Hac u v st st' dt Huv H; unfold stepper_process.
    pose proof (frame_stepper same g c ac ac' Hac u v st st' dt Huv H) as [K1 K2].
    destruct (stepper_call g c ac u st dt) as [u1 r], (stepper_call g c ac' v st' dt) as [v1 r']; cbn [fst snd] in *.
    split; [exact K1 | ]. eapply so_bind; [exact K2 | intros x y [Hx1 Hx2]].
    split; [exact Hx1 | apply fr_as_state; exact Hx2].
  Qed.

  Lemma fr_processes {U V} (same : U -> V -> Prop) (ps : list (process (T:=T) U)) (qs : list (process (T:=T') V)) dt :
    Forall2 (blind_step same) ps qs -> forall u v st st', same u v -> alike_state st st' ->
    same (fst (run_processes ps u st dt)) (fst (run_processes qs v st' dt)) /\
    same_outcome (both (Forall2 alike_dict) alike_state) (snd (run_processes ps u st dt)) (snd (run_processes qs v st' dt)).
  Proof.
    intros Hp; induction Hp as [ | p q ps qs Hpq Hp IH]; intros u v st st' Huv H; cbn [run_processes].
    - split; [exact Huv | split; [constructor | exact H]].
    - pose proof (Hpq u v st st' dt Huv H) as [K1 K2].
      destruct (p u st dt) as [u1 r], (q v st' dt) as [v1 r']; cbn [fst snd] in *.
      destruct r as [[d n] | e], r' as [[d' n'] | e']; cbn in K2; try contradiction; [ | subst e'; split; [exact K1 | reflexivity]].
      destruct K2 as [Hd Hn]; cbn [fst snd] in *.
      pose proof (IH u1 v1 n n' K1 Hn) as [L1 L2].
      destruct (run_processes ps u1 n dt) as [u2 r], (run_processes qs v1 n' dt) as [v2 r']; cbn [fst snd] in *.
      split; [exact L1 | ]. eapply so_bind; [exact L2 | intros x y [Hx1 Hx2]].
      split; [constructor; assumption | exact Hx2].
  Qed.

  Lemma fr_update_all ds ds' : Forall2 alike_dict ds ds' -> forall (st : state T) (st' : state T'),
    alike_state st st' -> alike_state (update_all ds st) (update_all ds' st').
  Proof.
    intros H; unfold update_all; induction H as [ | d d' ds ds' Hd Hds IH]; cbn [fold_left]; intros st st' Hs; [exact Hs | ].
    apply IH, sk_update; [exact Hs | apply fr_as_state; exact Hd].
  Qed.

  Lemma fr_time (st : state T) (st' : state T') : alike_state st st' -> state_time st = state_time st'.
  Proof.
    intros H; unfold state_time, dgetE. pose proof (sk_get _ "time" st st' H) as K.
    destruct (dget "time" st) as [[a | s] | ], (dget "time" st') as [[b | t] | ]; cbn in *; try contradiction; try reflexivity.
    subst; reflexivity.
  Qed.

  (** What a main loop remembers and stores, and how it ends. *)
  Theorem frame_run {U V} (same : U -> V -> Prop) (ps : list (process (T:=T) U)) (qs : list (process (T:=T') V)) store store' stop dt :
    Forall2 (blind_step same) ps qs -> blind_store same store store' ->
    forall n u v st st', same u v -> alike_state st st' ->
      let x := main_loop n ps store stop dt u st in
      let y := main_loop n qs store' stop dt v st' in
      same (fst (fst x)) (fst (fst y)) /\ Forall2 alike_state (snd (fst x)) (snd (fst y)) /\ same_end (snd x) (snd y).
  Proof.
    intros Hp Hm; induction n as [ | n IH]; intros u v st st' Huv H; cbn [main_loop]; [split; [exact Huv | split; [constructor | exact I]] | ].
    rewrite <- (fr_time st st' H). destruct (state_time st) as [t | e]; [ | split; [exact Huv | split; [constructor | reflexivity]]].
    destruct (t <? stop)%Z; [ | split; [exact Huv | split; [constructor | exact H]]].
    pose proof (fr_processes same ps qs dt Hp u v st st' Huv H) as [K1 K2].
    destruct (run_processes ps u st dt) as [u1 r], (run_processes qs v st' dt) as [v1 r']; cbn [fst snd] in K1, K2.
    destruct r as [[ds nx] | e], r' as [[ds' nx'] | e']; cbn in K2; try contradiction;
      [ | subst e'; split; [exact K1 | split; [constructor | reflexivity]]].
    destruct K2 as [Hd Hn]; cbn [fst snd] in Hd, Hn.
    assert (Hu := fr_update_all ds ds' Hd st st' H).
    pose proof (Hm u1 v1 _ _ K1 Hu) as [S1 S2].
    destruct (store u1 (update_all ds st)) as [u2 m], (store' v1 (update_all ds' st')) as [v2 m']; cbn [fst snd] in S1, S2; subst m'.
    assert (Hone : Forall2 alike_state [update_all ds st] [update_all ds' st']) by (constructor; [exact Hu | constructor]).
    destruct m as [m | e]; [ | split; [exact S1 | split; [exact Hone | reflexivity]]].
    rewrite <- (fr_time _ _ Hu). destruct (state_time (update_all ds st)) as [t1 | e]; [ | split; [exact S1 | split; [exact Hone | reflexivity]]].
    assert (Hnx : alike_state (dset "time" (VTime (t1 + dt)) nx) (dset "time" (VTime (t1 + dt)) nx')) by (apply sk_set; [exact Hn | reflexivity]).
    pose proof (IH u2 v2 _ _ S1 Hnx) as (L1 & L2 & L3).
    destruct (main_loop n ps store stop dt u2 (dset "time" (VTime (t1 + dt)) nx)) as [[u3 log] o],
             (main_loop n qs store' stop dt v2 (dset "time" (VTime (t1 + dt)) nx')) as [[v3 log'] o']; cbn [fst snd] in *.
    split; [exact L1 | split; [constructor; assumption | exact L3]].
  Qed.

  Theorem frame_leap_run {U V W X} (same : U -> V -> Prop) (same' : W -> X -> Prop) cfg (p : icaller (T:=T) U) (q : icaller (T:=T') V)
    (ps : list (process (T:=T) W)) (qs : list (process (T:=T') X)) store store' stop dt :
    blind same p q -> Forall2 (blind_step same') ps qs -> blind_store same' store store' ->
    forall n s s' w w' st st', both alike_leap same s s' -> same' w w' -> alike_state st st' ->
      let x := leap_main_loop n cfg p ps store stop dt s w st in
      let y := leap_main_loop n cfg q qs store' stop dt s' w' st' in
      both alike_leap same (fst (fst (fst x))) (fst (fst (fst y))) /\ same' (snd (fst (fst x))) (snd (fst (fst y))) /\
      Forall2 alike_state (snd (fst x)) (snd (fst y)) /\ same_end (snd x) (snd y).
  Proof.
    intros Hp Hps Hm; induction n as [ | n IH]; intros s s' w w' st st' Hs Hw H; cbn [leap_main_loop];
      [split; [exact Hs | split; [exact Hw | split; [constructor | exact I]]] | ].
    rewrite <- (fr_time st st' H). destruct (state_time st) as [t | e];
      [ | split; [exact Hs | split; [exact Hw | split; [constructor | reflexivity]]]].
    destruct (t <? stop)%Z; [ | split; [exact Hs | split; [exact Hw | split; [constructor | exact H]]]].
    pose proof (frame_leapfrog same cfg p q Hp s s' st st' dt Hs H) as (J1 & J2 & J3).
    destruct (leapfrog cfg p s st dt) as [[s1 st1] r], (leapfrog cfg q s' st' dt) as [[s1' st1'] r']; cbn [fst snd] in J1, J2, J3.
    destruct r as [[d nw] | e], r' as [[d' nw'] | e']; cbn in J3; try contradiction;
      [ | subst e'; split; [exact J1 | split; [exact Hw | split; [constructor | reflexivity]]]].
    destruct J3 as [Hd Hnw]; cbn [fst snd] in Hd, Hnw.
    pose proof (fr_processes same' ps qs dt Hps w w' nw nw' Hw Hnw) as [K1 K2].
    destruct (run_processes ps w nw dt) as [w1 r], (run_processes qs w' nw' dt) as [w1' r']; cbn [fst snd] in K1, K2.
    destruct r as [[ds nx] | e], r' as [[ds' nx'] | e']; cbn in K2; try contradiction;
      [ | subst e'; split; [exact J1 | split; [exact K1 | split; [constructor | reflexivity]]]].
    destruct K2 as [Hds Hn]; cbn [fst snd] in Hds, Hn.
    assert (Hu := fr_update_all (d :: ds) (d' :: ds') (Forall2_cons _ _ Hd Hds) st1 st1' J2).
    pose proof (Hm w1 w1' _ _ K1 Hu) as [S1 S2].
    destruct (store w1 (update_all (d :: ds) st1)) as [w2 m], (store' w1' (update_all (d' :: ds') st1')) as [w2' m']; cbn [fst snd] in S1, S2; subst m'.
    assert (Hone : Forall2 alike_state [update_all (d :: ds) st1] [update_all (d' :: ds') st1']) by (constructor; [exact Hu | constructor]).
    destruct m as [m | e]; [ | split; [exact J1 | split; [exact S1 | split; [exact Hone | reflexivity]]]].
    rewrite <- (fr_time _ _ Hu). destruct (state_time (update_all (d :: ds) st1)) as [t1 | e];
      [ | split; [exact J1 | split; [exact S1 | split; [exact Hone | reflexivity]]]].
    assert (Hnx : alike_state (dset "time" (VTime (t1 + dt)) nx) (dset "time" (VTime (t1 + dt)) nx')) by (apply sk_set; [exact Hn | reflexivity]).
    pose proof (IH s1 s1' w2 w2' _ _ J1 S1 Hnx) as (L0 & L1 & L2 & L3).
    destruct (leap_main_loop n cfg p ps store stop dt s1 w2 (dset "time" (VTime (t1 + dt)) nx)) as [[[s3 w3] log] o],
             (leap_main_loop n cfg q qs store' stop dt s1' w2' (dset "time" (VTime (t1 + dt)) nx')) as [[[s3' w3'] log'] o']; cbn [fst snd] in *.
    split; [exact L0 | split; [exact L1 | split; [constructor; assumption | exact L3]]].
  Qed.
End Main.
