(** C98: composites, time steppers and main loops on part of the grid return. *)
From Coq Require Import String List Bool Arith ZArith QArith.
From Verif Require Import Prelude PreludeFacts ArithM NdArray Units DataArrayM Tracers Components Composite Steppers Basic MainLoop LeapLoop SpecRegion SpecFollow FollowFacts.
Import ListNotations.
Open Scope string_scope.
Open Scope nat_scope.
Open Scope list_scope.

Lemma rw_result {U V A B C D} (same : U -> V -> Prop) (P : A -> B -> Prop) (Q : C -> D -> Prop) x y (f : res A -> res C) (f' : res B -> res D) :
  returns_with same P x y -> (forall e, exists e', f (Err e) = Err e') -> (forall r r', returns_too P r r' -> returns_too Q (f r) (f' r')) ->
  returns_with same Q (let (u, r) := x in (u, f r)) (let (v, r) := y in (v, f' r)).
Proof.
  intros H He K. destruct x as [u [a | e]], y as [v r']; intros u1 c E; injection E as <- E.
  - destruct (H u a eq_refl) as (v1 & b & Ey & Hs & Hab). injection Ey as <- ->.
    destruct (K (Ok a) (Ok b) (rt_ok P a b Hab) c E) as (d & Ed & Hcd). rewrite Ed. exists v, d; auto.
  - destruct (He e) as [e' Ee]. rewrite Ee in E; discriminate E.
Qed.

Section Main.
  Context {T : Type} {A : Arith T} {R : Registry} (g : cut) (big small : string -> nat).
  Local Notation "'sz'" := (sized (T:=T) g big small).
  Local Notation "'szs'" := (sized_state (T:=T) g big small).
  Local Notation "'szd'" := (sized_dict (T:=T) g big small).
  Local Notation "'szr'" := (sized_rates (T:=T) g big small).
  Local Notation "'szt'" := (sized_step (T:=T) g big small).
  Local Notation "'szab'" := (sized_ab (T:=T) g big small).

  (** ** Composites *)

  Lemma fl_update (d1 d2 e1 e2 : dict (da T)) :
    szd d1 e1 -> szd d2 e2 -> returns_too szd (update_dict_by_adding_another d1 d2) (update_dict_by_adding_another e1 e2).
  Proof.
    intros H K; unfold update_dict_by_adding_another. eapply rt_foldM; [exact K | | exact H].
    intros s s' [k x] [k' y] Hs [Hk Hv]; cbn [fst snd] in *; subst k'; unfold add_entry.
    pose proof (pk_get _ k s s' Hs) as G.
    destruct (dget k s) as [a | ], (dget k s') as [b | ]; try contradiction; [ | apply rt_ok, pk_set; assumption].
    eapply rt_bind with (P := sz); [ | intros q r Hq; apply rt_ok, pk_set; assumption].
    unfold add_quantities. rewrite <- (al_attrs g big small a b G), <- (al_attrs g big small x y Hv).
    destruct (dget "units" (attrs a)) as [u | ]; [ | apply rt_err].
    destruct (dget "units" (attrs x)); [ | apply rt_err].
    eapply rt_bind; [exact (al_units g big small x y u Hv) | intros q r Hq]. apply al_add; assumption.
  Qed.

  Theorem follow_composite {U V} (same : U -> V -> Prop) (cs : list (caller (T:=T) U)) (cs' : list (caller (T:=T) V)) :
    Forall2 (follows_plain g big small same) cs cs' -> follows_plain g big small same (tendency_composite_call cs) (tendency_composite_call cs').
  Proof.
    intros Hc u v st st' Huv H; unfold tendency_composite_call.
    assert (K : forall t d t' d', szd t t' -> szd d d' ->
      returns_with same szr (composite_loop cs u st t d) (composite_loop cs' v st' t' d')).
    { revert u v Huv; induction Hc as [ | c c' cs cs' Hcc Hc IH]; intros u v Huv t d t' d' Ht Hd; cbn [composite_loop].
      - intros u1 a E; injection E as <- <-. exists v, (t', d'); repeat split; assumption.
      - pose proof (Hcc u v st st' Huv H) as Ho.
        destruct (c u st) as [u1 [td | e]], (c' v st') as [v1 r']; cbn [bind]; [ | intros u2 a E; discriminate E].
        destruct (Ho u1 td eq_refl) as (v2 & td' & Ey & Hs & [Hx1 Hx2]). injection Ey as <- ->. cbn [bind].
        pose proof (fl_update t (fst td) t' (fst td') Ht Hx1) as Hn.
        destruct (update_dict_by_adding_another t (fst td)) as [t1 | e]; cbn [bind]; [ | intros u2 a E; discriminate E].
        destruct (Hn t1 eq_refl) as (t2 & -> & Ht2). cbn [bind].
        apply IH; [exact Hs | exact Ht2 | apply pk_update; assumption]. }
    apply K; constructor.
  Qed.

  Theorem follow_implicit_composite {U V} (same : U -> V -> Prop) (cs : list (icaller (T:=T) U + caller (T:=T) U)) (cs' : list (icaller (T:=T) V + caller (T:=T) V)) :
    Forall2 (follows_any g big small same) cs cs' ->
    follows g big small same (fun u st dt => implicit_composite_call cs dt u st) (fun v st dt => implicit_composite_call cs' dt v st).
  Proof.
    intros Hc u v st st' dt Huv H; unfold implicit_composite_call.
    refine (follow_composite same _ _ _ u v st st' Huv H).
    clear -Hc; induction Hc as [ | c c' cs cs' Hcc Hc IH]; cbn [map]; constructor; [ | exact IH].
    destruct c as [f | f], c' as [h | h]; cbn in Hcc; try contradiction; [ | exact Hcc].
    intros a b s s' Hab Hs. exact (Hcc a b s s' dt Hab Hs).
  Qed.

  (** ** Time steppers *)

  Lemma fl_converted (st st' : state T) r r' :
    szs st st' -> returns_too szr r r' ->
    returns_too szr (let* td := r in let* tend := convert_tendencies st (fst td) in Ok (tend, snd td))
                    (let* td := r' in let* tend := convert_tendencies st' (fst td) in Ok (tend, snd td)).
  Proof.
    intros H K. eapply rt_bind; [exact K | intros x y [Hx1 Hx2]].
    eapply rt_bind; [apply as_convert; eassumption | intros w z Hw]. apply rt_ok; split; assumption.
  Qed.

  Lemma fl_ab_call {U V} (same : U -> V -> Prop) (p : icaller (T:=T) U) (q : icaller (T:=T) V) :
    follows g big small same p q -> follows_step g big small (pair_of szab same) (ab_call p) (ab_call q).
  Proof.
    intros Hp [a u] [b v] st st' dt [(Ha1 & Ha2 & Ha3) Huv] H; cbn [fst snd] in *; unfold ab_call.
    rewrite <- Ha2. destruct (ensure_timestep (ab_dt a) dt); [ | intros u2 x E; discriminate E].
    pose proof (Hp u v st st' dt Huv H) as Ho.
    destruct (p u st dt) as [u1 [td | e]], (q v st' dt) as [v1 r']; cbn [bind]; [ | intros u2 x E; discriminate E].
    destruct (Ho u1 td eq_refl) as (v2 & td' & Ey & Hs & Htd). injection Ey as <- ->. cbn [bind].
    pose proof (fl_converted st st' (Ok td) (Ok td') H (rt_ok _ _ _ Htd)) as K. cbn [bind] in K.
    destruct (convert_tendencies st (fst td)) as [t | e]; cbn [bind] in *; [ | intros u2 x E; discriminate E].
    destruct (K (t, snd td) eq_refl) as ([t' d'] & -> & [K1 K2]); cbn [fst snd] in K1, K2.
    assert (Hh : Forall2 szd (ab_hist a ++ [t]) (ab_hist b ++ [t'])) by (apply Forall2_app; [exact Ha3 | constructor; [exact K1 | constructor]]).
    assert (Hl : length (ab_hist b ++ [t']) = length (ab_hist a ++ [t])) by (clear -Hh; induction Hh; cbn; congruence).
    rewrite <- Ha1, Hl.
    pose proof (as_perform g big small (ab_order a) _ _ st st' dt Hh H) as P.
    destruct (perform_step (ab_order a) (ab_hist a ++ [t]) st dt) as [n | e]; [ | intros u2 x E; discriminate E].
    destruct (P n eq_refl) as (n' & -> & Hn).
    intros u2 x E; injection E as <- <-. eexists _, _; split; [reflexivity | ].
    split; [ | split; [exact K2 | apply as_untouched; assumption]].
    split; [ | exact Hs]. split; [reflexivity | split; [reflexivity | ]]. cbn [fst ab_hist].
    destruct (Nat.eqb _ _); [ | exact Hh]. destruct Hh; [constructor | assumption].
  Qed.

  Theorem follow_adams_bashforth {U V} (same : U -> V -> Prop) cfg (p : icaller (T:=T) U) (q : icaller (T:=T) V) :
    follows g big small same p q -> follows_step g big small (pair_of szab same) (adams_bashforth cfg p) (adams_bashforth cfg q).
  Proof.
    intros Hp s s' st st' dt Hs H; unfold adams_bashforth.
    apply (rw_result _ szt szt _ _ (finish_step cfg dt st) (finish_step cfg dt st')).
    - apply (fl_ab_call same); assumption.
    - intros e; exists e; reflexivity.
    - intros r r' Hr; apply as_finish; assumption.
  Qed.

  Lemma fl_inner {U V} (same : U -> V -> Prop) (p : icaller (T:=T) U) (q : icaller (T:=T) V) :
    follows g big small same p q -> follows_step g big small (pair_of szab same) (inner_euler p) (inner_euler q).
  Proof.
    intros Hp s s' st st' dt Hs H; unfold inner_euler.
    apply (rw_result _ szt szt _ _ (fun r => let* dn := r in Ok (fst dn, copy_untouched st (snd dn))) (fun r => let* dn := r in Ok (fst dn, copy_untouched st' (snd dn)))).
    - apply (fl_ab_call same); assumption.
    - intros e; exists e; reflexivity.
    - intros r r' Hr. eapply rt_bind; [exact Hr | intros x y [Hx1 Hx2]].
      apply rt_ok; split; [exact Hx1 | apply as_untouched; assumption].
  Qed.

  Lemma fl_rk2 {U V} (same : U -> V -> Prop) (p : icaller (T:=T) U) (q : icaller (T:=T) V) :
    follows g big small same p q -> follows_step g big small (pair_of szab same) (rk2 p) (rk2 q).
  Proof.
    intros Hp s s' st st' dt Hs H; unfold rk2.
    pose proof (fl_inner same p q Hp s s' st st' dt Hs H) as K.
    destruct (inner_euler p s st dt) as [s1 [[d n] | e]]; [ | intros u2 x E; discriminate E].
    destruct (K s1 (d, n) eq_refl) as (s1' & [d' n'] & -> & K1 & [Hd Hn]); cbn [fst snd] in Hd, Hn.
    pose proof (fl_inner same p q Hp s1 s1' n n' dt K1 Hn) as L.
    destruct (inner_euler p s1 n dt) as [s2 [[d2 n2] | e]]; [ | intros u2 x E; discriminate E].
    destruct (L s2 (d2, n2) eq_refl) as (s2' & [d2' n2'] & -> & L1 & [Hd2 Hn2]); cbn [fst snd bind] in *.
    pose proof (as_add g big small _ _ _ _ H Hn2) as M.
    destruct (add_states st n2) as [m | e]; [ | intros u2 x E; discriminate E].
    destruct (M m eq_refl) as (m' & -> & Hm); cbn [bind].
    pose proof (as_multiply g big small (aofQ (1 # 2)) (aofQ (1 # 2)) _ _ Hm) as N.
    destruct (multiply (aofQ (1 # 2)) m) as [o | e]; [ | intros u2 x E; discriminate E].
    destruct (N o eq_refl) as (o' & -> & Hoo); cbn [bind].
    intros u2 x E; injection E as <- <-. eexists _, _; split; [reflexivity | split; [exact L1 | split; assumption]].
  Qed.

  Lemma fl_rk3 {U V} (same : U -> V -> Prop) (p : icaller (T:=T) U) (q : icaller (T:=T) V) :
    follows g big small same p q -> follows_step g big small (pair_of szab same) (rk3 p) (rk3 q).
  Proof.
    intros Hp s s' st st' dt Hs H; unfold rk3.
    pose proof (fl_inner same p q Hp s s' st st' dt Hs H) as K.
    destruct (inner_euler p s st dt) as [s1 [[d n] | e]]; [ | intros u2 x E; discriminate E].
    destruct (K s1 (d, n) eq_refl) as (s1' & [d' n'] & -> & K1 & [Hd Hn]); cbn [fst snd] in Hd, Hn.
    pose proof (fl_inner same p q Hp s1 s1' n n' dt K1 Hn) as L.
    destruct (inner_euler p s1 n dt) as [s2 [[d2 n2] | e]]; [ | intros u2 x E; discriminate E].
    destruct (L s2 (d2, n2) eq_refl) as (s2' & [d2' n2'] & -> & L1 & [Hd2 Hn2]); cbn [fst snd bind] in *.
    assert (M : forall c1 c2 n n', szs n n' -> returns_too szs
        (let* a := multiply c1 st in let* b := multiply c2 n in add_states a b)
        (let* a := multiply c1 st' in let* b := multiply c2 n' in add_states a b)).
    { intros c1 c2 x x' Hx.
      eapply rt_bind; [apply as_multiply; exact H | intros w w' Hw].
      eapply rt_bind; [apply as_multiply; exact Hx | intros w2 w2' Hw2]. apply as_add; assumption. }
    pose proof (M (aofQ (3 # 4)) (aofQ (1 # 4)) _ _ Hn2) as N.
    destruct (let* a := multiply (aofQ (3 # 4)) st in _) as [m | e]; [ | intros u2 x E; discriminate E].
    destruct (N m eq_refl) as (m' & -> & Hm).
    pose proof (fl_inner same p q Hp s2 s2' m m' dt L1 Hm) as O.
    destruct (inner_euler p s2 m dt) as [s3 [[d3 n3] | e]]; [ | intros u2 x E; discriminate E].
    destruct (O s3 (d3, n3) eq_refl) as (s3' & [d3' n3'] & -> & O1 & [Hd3 Hn3]); cbn [fst snd bind] in *.
    assert (Q : returns_too szt
        (let* a := multiply (aofQ (1 # 3)) st in let* b := multiply (aofQ (2 # 3)) n3 in let* out := add_states a b in Ok (d, out))
        (let* a := multiply (aofQ (1 # 3)) st' in let* b := multiply (aofQ (2 # 3)) n3' in let* out := add_states a b in Ok (d', out))).
    { eapply rt_bind; [apply as_multiply; exact H | intros w w' Hw].
      eapply rt_bind; [apply as_multiply; exact Hn3 | intros w2 w2' Hw2].
      eapply rt_bind; [apply as_add; eassumption | intros o o' Hoo]. apply rt_ok; split; assumption. }
    intros u2 x E; injection E as <- E. destruct (Q x E) as (y & Ey & Hy). eexists _, y; split; [rewrite <- Ey; reflexivity | split; assumption].
  Qed.

  Theorem follow_runge_kutta {U V} (same : U -> V -> Prop) cfg (p : icaller (T:=T) U) (q : icaller (T:=T) V) :
    follows g big small same p q -> follows_step g big small (pair_of (sized_rk g big small) same) (ssp_rk cfg p) (ssp_rk cfg q).
  Proof.
    intros Hp [k u] [k' v] st st' dt [[Hk1 Hk2] Huv] H; cbn [fst snd] in *; unfold ssp_rk. rewrite <- Hk1.
    assert (K : returns_with (pair_of szab same) szt
       ((if Nat.eqb (rk_stages k) 2 then rk2 else rk3) p (rk_euler k, u) st dt)
       ((if Nat.eqb (rk_stages k) 2 then rk2 else rk3) q (rk_euler k', v) st' dt)).
    { destruct (Nat.eqb (rk_stages k) 2).
      - apply (fl_rk2 same p q Hp); [split; assumption | exact H].
      - apply (fl_rk3 same p q Hp); [split; assumption | exact H]. }
    destruct ((if Nat.eqb (rk_stages k) 2 then rk2 else rk3) p (rk_euler k, u) st dt) as [[e u1] [x | er]];
      [ | destruct ((if Nat.eqb (rk_stages k) 2 then rk2 else rk3) q (rk_euler k', v) st' dt) as [[? ?] ?]; intros u2 y E; discriminate E].
    destruct (K (e, u1) x eq_refl) as ([e' v1] & y & -> & [K1 K2] & Hxy); cbn [fst snd] in K1, K2.
    pose proof (as_finish g big small cfg dt st st' (Ok x) (Ok y) H (rt_ok _ _ _ Hxy)) as F.
    intros u2 z E; injection E as <- E. destruct (F z E) as (z' & Ez & Hz). eexists _, z'; split; [rewrite Ez; reflexivity | ].
    split; [split; [split; [reflexivity | exact K1] | exact K2] | exact Hz].
  Qed.

  Lemma fl_leap_one sec nu sec' nu' (o st o' st' : state T) t t' k :
    szs o o' -> szs st st' -> szd t t' ->
    returns_too (pair_of sz sz) (leap_one sec nu o st t k) (leap_one sec' nu' o' st' t' k).
  Proof.
    intros Ho H Ht; unfold leap_one.
    eapply rt_bind; [exact (as_da g big small k o o' Ho) | intros x y Hx].
    eapply rt_bind; [exact (pk_getE _ k t t' Ht) | intros z w Hz].
    eapply rt_bind; [apply al_add; [exact Hx | apply al_scale, al_lscale; exact Hz] | intros n n' Hn].
    eapply rt_bind; [exact (as_da g big small k st st' H) | intros x1 y1 Hx1].
    eapply rt_bind; [apply al_sub; [exact Hx | apply al_lscale; exact Hx1] | intros w1 w1' Hw1].
    eapply rt_bind; [apply al_add; [exact Hw1 | exact Hn] | intros w2 w2' Hw2].
    apply rt_ok; split; [exact Hn | apply al_lscale; exact Hw2].
  Qed.

  Lemma fl_leap_loop sec nu al sec' nu' (o o' : state T) t t' ks :
    szs o o' -> szd t t' ->
    forall st n st' n' : state T, szs st st' -> szs n n' ->
    returns_with szs szs (leap_loop sec nu al o t ks st n) (leap_loop sec' nu' al o' t' ks st' n').
  Proof.
    intros Ho Ht; induction ks as [ | k ks IH]; intros st n st' n' H Hn; cbn [leap_loop];
      [intros u a E; injection E as <- <-; exists st', n'; auto | ].
    assert (K : returns_too (pair_of (pair_of sz sz) sz)
      (let* ni := leap_one sec nu o st t k in let* x := state_da k st in let* x' := da_iadd x (da_lscale al (snd ni)) in Ok (fst ni, snd ni, x'))
      (let* ni := leap_one sec' nu' o' st' t' k in let* x := state_da k st' in let* x' := da_iadd x (da_lscale al (snd ni)) in Ok (fst ni, snd ni, x'))).
    { eapply rt_bind; [apply fl_leap_one; eassumption | intros a b [Ha Hb]].
      eapply rt_bind; [exact (as_da g big small k st st' H) | intros x y Hx].
      eapply rt_bind; [apply al_iadd; [exact Hx | apply al_lscale; exact Hb] | intros x1 y1 Hx1].
      apply rt_ok; split; [split; assumption | exact Hx1]. }
    destruct (let* ni := leap_one sec nu o st t k in _) as [[[m i] x] | e]; [ | intros u a E; discriminate E].
    destruct (K (m, i, x) eq_refl) as ([[m' i'] x'] & -> & [[Km Ki] Kx]); cbn [fst snd] in *.
    assert (Hst : szs (dset k (VDA x) st) (dset k (VDA x') st')) by (apply pk_set; [exact H | exact Kx]).
    assert (L : returns_too sz
      (if aeqb al (aofQ (1 # 1)) then Ok m else da_iadd m (da_lscale (asub al (aofQ (1 # 1))) i))
      (if aeqb al (aofQ (1 # 1)) then Ok m' else da_iadd m' (da_lscale (asub al (aofQ (1 # 1))) i'))).
    { destruct (aeqb al (aofQ (1 # 1))); [apply rt_ok; exact Km | apply al_iadd; [exact Km | apply al_lscale; exact Ki]]. }
    destruct (if aeqb al (aofQ (1 # 1)) then Ok m else _) as [m1 | e]; [ | intros u a E; discriminate E].
    destruct (L m1 eq_refl) as (m1' & -> & Hm1).
    apply IH; [exact Hst | apply pk_set; [exact Hn | exact Hm1]].
  Qed.

  Theorem follow_leapfrog {U V} (same : U -> V -> Prop) cfg (p : icaller (T:=T) U) (q : icaller (T:=T) V) :
    follows g big small same p q ->
    forall s s' st st' dt, pair_of (sized_leap g big small) same s s' -> szs st st' ->
      returns_with (pair_of (pair_of (sized_leap g big small) same) szs) szt (leapfrog cfg p s st dt) (leapfrog cfg q s' st' dt).
  Proof.
    intros Hp [l u] [l' v] st st' dt [(Hl1 & Hl2 & Hl3) Huv] H; cbn [fst snd] in *; unfold leapfrog, leap_call.
    rewrite <- Hl2. destruct (ensure_timestep (lf_dt l) dt); [ | intros w x E; discriminate E].
    pose proof (Hp u v st st' dt Huv H) as Ho.
    destruct (p u st dt) as [u1 [td | e]], (q v st' dt) as [v1 r']; cbn [bind]; [ | intros w x E; discriminate E].
    destruct (Ho u1 td eq_refl) as (v2 & td' & Ey & Hs & Htd). injection Ey as <- ->. cbn [bind].
    pose proof (fl_converted st st' (Ok td) (Ok td') H (rt_ok _ _ _ Htd)) as K. cbn [bind] in K.
    destruct (convert_tendencies st (fst td)) as [t | e]; cbn [bind] in *; [ | intros w x E; discriminate E].
    destruct (K (t, snd td) eq_refl) as ([t' d'] & -> & [K1 K2]); cbn [fst snd] in K1, K2.
    assert (M : returns_with szs szs
      (match lf_old l with None => (st, step_forward_euler st t dt)
       | Some old => leap_loop (total_seconds dt) (lf_nu l) (lf_alpha l) old t (keys t) st [] end)
      (match lf_old l' with None => (st', step_forward_euler st' t' dt)
       | Some old => leap_loop (total_seconds dt) (lf_nu l') (lf_alpha l') old t' (keys t') st' [] end)).
    { destruct (lf_old l) as [o | ], (lf_old l') as [o' | ]; try contradiction.
      - rewrite <- (pk_keys _ _ _ K1), <- Hl1. apply fl_leap_loop; try assumption. constructor.
      - intros w x E; injection E as <- E. destruct (as_euler g big small st st' t t' dt H K1 x E) as (y & -> & Hy).
        exists st', y; auto. }
    destruct (match lf_old l with None => _ | Some old => _ end) as [st1 [n | e]];
      [ | intros w x E; discriminate E].
    destruct (M st1 n eq_refl) as (st1' & n' & -> & M1 & M2).
    cbn [fst snd].
    assert (F : returns_too szt (finish_step cfg dt st1 (Ok (snd td, copy_untouched st1 n))) (finish_step cfg dt st1' (Ok (d', copy_untouched st1' n')))).
    { apply as_finish; [exact M1 | ]. apply rt_ok; split; [exact K2 | apply as_untouched; assumption]. }
    intros w x E; injection E as <- E. destruct (F x E) as (y & Ey & Hy).
    eexists _, y; split; [rewrite <- Ey; reflexivity | ]. split; [ | exact Hy].
    split; [ | exact M1]. split; [split; [exact Hl1 | split; [reflexivity | exact M1]] | exact Hs].
  Qed.

  (** ** Main loops *)

  Lemma fl_as_state (d d' : dict (da T)) : szd d d' -> szs (as_state d) (as_state d').
  Proof. intros H; induction H as [ | x y l l' [H1 H2] Hl IH]; cbn; constructor; auto. Qed.

  Lemma fl_processes {U V} (same : U -> V -> Prop) (ps : list (process (T:=T) U)) (qs : list (process (T:=T) V)) dt :
    Forall2 (follows_step g big small same) ps qs -> forall u v st st', same u v -> szs st st' ->
    returns_with same (pair_of (Forall2 szd) szs) (run_processes ps u st dt) (run_processes qs v st' dt).
  Proof.
    intros Hp; induction Hp as [ | p q ps qs Hpq Hp IH]; intros u v st st' Huv H; cbn [run_processes].
    - intros w x E; injection E as <- <-. exists v, ([], st'); split; [reflexivity | split; [exact Huv | split; [constructor | exact H]]].
    - pose proof (Hpq u v st st' dt Huv H) as K.
      destruct (p u st dt) as [u1 [[d n] | e]]; [ | intros w x E; discriminate E].
      destruct (K u1 (d, n) eq_refl) as (v1 & [d' n'] & -> & K1 & [Hd Hn]); cbn [fst snd] in Hd, Hn.
      pose proof (IH u1 v1 n n' K1 Hn) as L.
      destruct (run_processes ps u1 n dt) as [u2 [[ds m] | e]]; [ | intros w x E; discriminate E].
      destruct (L u2 (ds, m) eq_refl) as (v2 & [ds' m'] & -> & L1 & [Hds Hm]); cbn [fst snd bind] in *.
      intros w x E; injection E as <- <-. eexists _, _; split; [reflexivity | split; [exact L1 | ]].
      split; [constructor; assumption | exact Hm].
  Qed.

  Lemma fl_update_all ds ds' : Forall2 szd ds ds' -> forall st st' : state T,
    szs st st' -> szs (update_all ds st) (update_all ds' st').
  Proof.
    intros H; unfold update_all; induction H as [ | d d' ds ds' Hd Hds IH]; cbn [fold_left]; intros st st' Hs; [exact Hs | ].
    apply IH, pk_update; [exact Hs | apply fl_as_state; exact Hd].
  Qed.

  Lemma fl_time (st st' : state T) : szs st st' -> state_time st = state_time st'.
  Proof.
    intros H; unfold state_time, dgetE. pose proof (pk_get _ "time" st st' H) as K.
    destruct (dget "time" st) as [[a | s] | ], (dget "time" st') as [[b | t] | ]; cbn in *; try contradiction; try reflexivity.
    subst; reflexivity.
  Qed.

  Theorem follow_run {U V} (same : U -> V -> Prop) (ps : list (process (T:=T) U)) (qs : list (process (T:=T) V)) store store' stop dt :
    Forall2 (follows_step g big small same) ps qs -> follows_store g big small same store store' ->
    forall n u v st st' w log e, same u v -> szs st st' ->
      main_loop n ps store stop dt u st = ((w, log), Some (Ok e)) ->
      exists w' log' e', main_loop n qs store' stop dt v st' = ((w', log'), Some (Ok e')) /\ same w w' /\ Forall2 szs log log' /\ szs e e'.
  Proof.
    intros Hp Hm; induction n as [ | n IH]; intros u v st st' w log e Huv H; cbn [main_loop]; [intros E; discriminate E | ].
    rewrite <- (fl_time st st' H). destruct (state_time st) as [t | er]; [ | intros E; discriminate E].
    destruct (t <? stop)%Z; [ | intros E; injection E as <- <- <-; exists v, [], st'; auto].
    pose proof (fl_processes same ps qs dt Hp u v st st' Huv H) as K.
    destruct (run_processes ps u st dt) as [u1 [[ds nx] | er]]; [ | intros E; discriminate E].
    destruct (K u1 (ds, nx) eq_refl) as (v1 & [ds' nx'] & -> & K1 & [Hd Hn]); cbn [fst snd] in Hd, Hn.
    assert (Hu := fl_update_all ds ds' Hd st st' H).
    pose proof (Hm u1 v1 _ _ K1 Hu) as S.
    destruct (store u1 (update_all ds st)) as [u2 [m | er]]; [ | intros E; discriminate E].
    destruct (S u2 m eq_refl) as (v2 & m' & -> & S1 & _).
    rewrite <- (fl_time _ _ Hu). destruct (state_time (update_all ds st)) as [t1 | er]; [ | intros E; discriminate E].
    assert (Hnx : szs (dset "time" (VTime (t1 + dt)) nx) (dset "time" (VTime (t1 + dt)) nx')) by (apply pk_set; [exact Hn | reflexivity]).
    destruct (main_loop n ps store stop dt u2 (dset "time" (VTime (t1 + dt)) nx)) as [[u3 log1] o] eqn:E1.
    intros E; injection E as <- <- ->.
    destruct (IH u2 v2 _ _ _ _ _ S1 Hnx E1) as (w' & log' & e' & -> & L1 & L2 & L3).
    eexists _, _, e'; split; [reflexivity | split; [exact L1 | split; [constructor; assumption | exact L3]]].
  Qed.

  Theorem follow_leap_run {U V W X} (same : U -> V -> Prop) (same' : W -> X -> Prop) cfg (p : icaller (T:=T) U) (q : icaller (T:=T) V)
    (ps : list (process (T:=T) W)) (qs : list (process (T:=T) X)) store store' stop dt :
    follows g big small same p q -> Forall2 (follows_step g big small same') ps qs -> follows_store g big small same' store store' ->
    forall n s s' w w' st st' s1 w1 log e, pair_of (sized_leap g big small) same s s' -> same' w w' -> szs st st' ->
      leap_main_loop n cfg p ps store stop dt s w st = ((s1, w1, log), Some (Ok e)) ->
      exists s1' w1' log' e', leap_main_loop n cfg q qs store' stop dt s' w' st' = ((s1', w1', log'), Some (Ok e')) /\
        Forall2 szs log log' /\ szs e e'.
  Proof.
    intros Hp Hps Hm; induction n as [ | n IH]; intros s s' w w' st st' sf wf log e Hs Hw H; cbn [leap_main_loop]; [intros E; discriminate E | ].
    rewrite <- (fl_time st st' H). destruct (state_time st) as [t | er]; [ | intros E; discriminate E].
    destruct (t <? stop)%Z; [ | intros E; injection E as <- <- <- <-; exists s', w', [], st'; auto].
    pose proof (follow_leapfrog same cfg p q Hp s s' st st' dt Hs H) as J.
    destruct (leapfrog cfg p s st dt) as [[s1 st1] [[d nw] | er]]; [ | intros E; discriminate E].
    destruct (J (s1, st1) (d, nw) eq_refl) as ([s1' st1'] & [d' nw'] & -> & [J1 J2] & [Hd Hnw]); cbn [fst snd] in J1, J2, Hd, Hnw.
    pose proof (fl_processes same' ps qs dt Hps w w' nw nw' Hw Hnw) as K.
    destruct (run_processes ps w nw dt) as [w1 [[ds nx] | er]]; [ | intros E; discriminate E].
    destruct (K w1 (ds, nx) eq_refl) as (w1' & [ds' nx'] & -> & K1 & [Hds Hn]); cbn [fst snd] in Hds, Hn.
    assert (Hu := fl_update_all (d :: ds) (d' :: ds') (Forall2_cons _ _ Hd Hds) st1 st1' J2).
    pose proof (Hm w1 w1' _ _ K1 Hu) as S.
    destruct (store w1 (update_all (d :: ds) st1)) as [w2 [m | er]]; [ | intros E; discriminate E].
    destruct (S w2 m eq_refl) as (w2' & m' & -> & S1 & _).
    rewrite <- (fl_time _ _ Hu). destruct (state_time (update_all (d :: ds) st1)) as [t1 | er]; [ | intros E; discriminate E].
    assert (Hnx : szs (dset "time" (VTime (t1 + dt)) nx) (dset "time" (VTime (t1 + dt)) nx')) by (apply pk_set; [exact Hn | reflexivity]).
    destruct (leap_main_loop n cfg p ps store stop dt s1 w2 (dset "time" (VTime (t1 + dt)) nx)) as [[[s3 w3] log1] o] eqn:E1.
    intros E; injection E as <- <- <- ->.
    destruct (IH s1 s1' w2 w2' _ _ _ _ _ _ J1 S1 Hnx E1) as (s3' & w3' & log' & e' & -> & L2 & L3).
    eexists _, _, _, e'; split; [reflexivity | split; [constructor; assumption | exact L3]].
  Qed.
End Main.
