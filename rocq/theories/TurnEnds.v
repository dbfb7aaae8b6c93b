(** C101 with C102: the turned run also ends in the way of the other. *)
From Coq Require Import String List Bool Arith ZArith QArith Qcanon.
From Verif Require Import Prelude ArithM NdArray Units DataArrayM Tracers Components Composite Steppers MainLoop LeapLoop SpecTurn TurnMain SpecFrame FrameMain SpecTurnEnds.
Import ListNotations.
Open Scope string_scope.
Open Scope nat_scope.
Open Scope list_scope.

Section Ends.
  Context {R : Registry} (g : turn).

  Lemma blind_beside {T T' M N U V} (sm : M -> N -> Prop) (same : U -> V -> Prop) (p : process (T:=T) U) (q : process (T:=T') V) :
    blind_step same p q -> blind_step (both sm same) (beside p) (beside q).
  Proof.
    intros H [m u] [n v] st st' dt [Hm Hu] Hs; unfold beside; cbn [fst snd] in *.
    pose proof (H u v st st' dt Hu Hs) as [K1 K2].
    destruct (p u st dt), (q v st' dt); cbn [fst snd] in *. split; [split; assumption | exact K2].
  Qed.

  Lemma blind_monitor {T T' M N U V} (sm : M -> N -> Prop) (same : U -> V -> Prop) (mon : M -> state T -> M * res unit) (mon' : N -> state T' -> N * res unit) :
    blind_store sm mon mon' ->
    blind_store (both sm same) (fun w st => let (m1, r) := mon (fst w) st in ((m1, snd w), r)) (fun w st => let (m1, r) := mon' (fst w) st in ((m1, snd w), r)).
  Proof.
    intros H [m u] [n v] st st' [Hm Hu] Hs; cbn [fst snd] in *.
    pose proof (H m n st st' Hm Hs) as [K1 K2].
    destruct (mon m st), (mon' n st'); cbn [fst snd] in *. split; [split; assumption | exact K2].
  Qed.

  Theorem turn_ends_run {W W'} (same : W -> W' -> Prop) (ps : list (process (T:=Qc) W)) (ps' : list (process (T:=Qc) W')) (store : W -> state Qc -> W * res unit) (store' : W' -> state Qc -> W' * res unit) :
    Forall2 (turning_step g same) ps ps' -> Forall2 (blind_step same) ps ps' ->
    (forall u v st st' u' v', same u v -> turned_record g st st' -> store u st = (u', Ok tt) -> store' v st' = (v', Ok tt) -> same u' v') -> blind_store same store store' ->
    forall n stop dt w w' st st', same w w' -> turned_state g st st' -> alike_state st st' ->
    turned_end g (main_loop n ps store stop dt w st) (main_loop n ps' store' stop dt w' st').
  Proof.
    intros Ht Hb Hs Hbs n stop dt w w' st st' Hw Hst Hal.
    pose proof (frame_run same ps ps' store store' stop dt Hb Hbs n w w' st st' Hw Hal) as (_ & _ & K). cbv zeta in K.
    pose proof (turn_loop g same ps ps' store store' Ht Hs n stop dt w w' st st') as L.
    destruct (main_loop n ps store stop dt w st) as [[w1 log] o], (main_loop n ps' store' stop dt w' st') as [[w1' log'] o']; cbn [snd] in K.
    unfold turned_end; cbn [fst snd].
    destruct o as [[e | x] | ], o' as [[e' | x'] | ]; cbn in K; try contradiction; try exact K; try exact I.
    exact (L w1 w1' log log' e e' Hw Hst eq_refl eq_refl).
  Qed.

  Theorem turn_ends_adams_bashforth {U V} (same : U -> V -> Prop) (p : icaller (T:=Qc) U) (q : icaller (T:=Qc) V) :
    turning g same p q -> blind same p q ->
    forall {M N} (sm : M -> N -> Prop) (mon : M -> state Qc -> M * res unit) (mon' : N -> state Qc -> N * res unit), blind_store sm mon mon' ->
    forall cfg o a0 u v, factors_fit g cfg -> new_ab (T:=Qc) o = Ok a0 -> same u v ->
    forall n stop dt m m' st st', sm m m' -> turned_state g st st' -> alike_state st st' ->
    turned_end g (main_loop n [beside (adams_bashforth cfg p)] (fun w st => let (m1, r) := mon (fst w) st in ((m1, snd w), r)) stop dt (m, (a0, u)) st)
                 (main_loop n [beside (adams_bashforth cfg q)] (fun w st => let (m1, r) := mon' (fst w) st in ((m1, snd w), r)) stop dt (m', (a0, v)) st').
  Proof.
    intros Ht Hb M N sm mon mon' Hm cfg o a0 u v Hf Ha Huv n stop dt m m' st st' Hmm Hst Hal.
    pose proof (frame_run (both sm (both alike_ab same)) _ _ _ _ stop dt
      (Forall2_cons _ _ (blind_beside sm _ _ _ (frame_adams_bashforth same cfg p q Hb)) (Forall2_nil _)) (blind_monitor sm (both alike_ab same) mon mon' Hm)
      n (m, (a0, u)) (m', (a0, v)) st st') as K.
    assert (H0 : ab_hist a0 = []) by (unfold new_ab in Ha; destruct (check_order o); [injection Ha as <-; reflexivity | discriminate Ha]).
    assert (Hw : both sm (both (alike_ab (T':=Qc)) same) (m, (a0, u)) (m', (a0, v))).
    { split; [exact Hmm | split; [split; [reflexivity | split; [reflexivity | cbn [fst snd]; rewrite H0; constructor]] | exact Huv]]. }
    specialize (K Hw Hal) as (_ & _ & K).
    pose proof (turn_ab_loop g same p q Ht mon mon' cfg o a0 u v Hf Ha Huv n stop dt m m' st st') as L.
    destruct (main_loop n [beside (adams_bashforth cfg p)] _ stop dt (m, (a0, u)) st) as [[w1 log] x], (main_loop n [beside (adams_bashforth cfg q)] _ stop dt (m', (a0, v)) st') as [[w1' log'] x']; cbn [snd] in K.
    unfold turned_end; cbn [fst snd].
    destruct x as [[e | x] | ], x' as [[e' | x'] | ]; cbn in K; try contradiction; try exact K; try exact I.
    exact (L w1 w1' log log' e e' Hst eq_refl eq_refl).
  Qed.

  Theorem turn_ends_runge_kutta {U V} (same : U -> V -> Prop) (p : icaller (T:=Qc) U) (q : icaller (T:=Qc) V) :
    turning g same p q -> blind same p q ->
    forall {M N} (sm : M -> N -> Prop) (mon : M -> state Qc -> M * res unit) (mon' : N -> state Qc -> N * res unit), blind_store sm mon mon' ->
    forall cfg z k0 u v, factors_fit g cfg -> new_rk (T:=Qc) z = Ok k0 -> same u v ->
    forall n stop dt m m' st st', sm m m' -> turned_state g st st' -> alike_state st st' ->
    turned_end g (main_loop n [beside (ssp_rk cfg p)] (fun w st => let (m1, r) := mon (fst w) st in ((m1, snd w), r)) stop dt (m, (k0, u)) st)
                 (main_loop n [beside (ssp_rk cfg q)] (fun w st => let (m1, r) := mon' (fst w) st in ((m1, snd w), r)) stop dt (m', (k0, v)) st').
  Proof.
    intros Ht Hb M N sm mon mon' Hm cfg z k0 u v Hf Ha Huv n stop dt m m' st st' Hmm Hst Hal.
    pose proof (frame_run (both sm (both alike_rk same)) _ _ _ _ stop dt
      (Forall2_cons _ _ (blind_beside sm _ _ _ (frame_runge_kutta same cfg p q Hb)) (Forall2_nil _)) (blind_monitor sm (both alike_rk same) mon mon' Hm)
      n (m, (k0, u)) (m', (k0, v)) st st') as K.
    assert (H0 : ab_hist (rk_euler k0) = []).
    { unfold new_rk in Ha. destruct (Z.eqb z 2); [injection Ha as <-; reflexivity | destruct (Z.eqb z 3); [injection Ha as <-; reflexivity | discriminate Ha]]. }
    assert (Hw : both sm (both (alike_rk (T':=Qc)) same) (m, (k0, u)) (m', (k0, v))).
    { split; [exact Hmm | split; [split; [reflexivity | split; [reflexivity | split; [reflexivity | cbn [fst snd]; rewrite H0; constructor]]] | exact Huv]]. }
    specialize (K Hw Hal) as (_ & _ & K).
    pose proof (turn_rk_loop g same p q Ht mon mon' cfg z k0 u v Hf Ha Huv n stop dt m m' st st') as L.
    destruct (main_loop n [beside (ssp_rk cfg p)] _ stop dt (m, (k0, u)) st) as [[w1 log] x], (main_loop n [beside (ssp_rk cfg q)] _ stop dt (m', (k0, v)) st') as [[w1' log'] x']; cbn [snd] in K.
    unfold turned_end; cbn [fst snd].
    destruct x as [[e | x] | ], x' as [[e' | x'] | ]; cbn in K; try contradiction; try exact K; try exact I.
    exact (L w1 w1' log log' e e' Hst eq_refl eq_refl).
  Qed.

  Theorem turn_ends_leapfrog {U V} (same : U -> V -> Prop) (p : icaller (T:=Qc) U) (q : icaller (T:=Qc) V) :
    turning g same p q -> blind same p q ->
    forall {W W'} (rest : W -> W' -> Prop) (qs : list (process (T:=Qc) W)) (qs' : list (process (T:=Qc) W')) (store : W -> state Qc -> W * res unit) (store' : W' -> state Qc -> W' * res unit) cfg nu alpha, factors_fit g cfg ->
    Forall2 (turning_step g rest) qs qs' -> Forall2 (blind_step rest) qs qs' ->
    (forall u v st st' u' v', rest u v -> turned_record g st st' -> store u st = (u', Ok tt) -> store' v st' = (v', Ok tt) -> rest u' v') -> blind_store rest store store' ->
    forall n stop dt u u' w w' st st', same u u' -> rest w w' -> turned_state g st st' -> alike_state st st' ->
    turned_end g (leap_main_loop n cfg p qs store stop dt (new_leap nu alpha, u) w st)
                 (leap_main_loop n cfg q qs' store' stop dt (new_leap nu alpha, u') w' st').
  Proof.
    intros Ht Hb W W' rest qs qs' store store' cfg nu alpha Hf Hqs Hbq Hs Hbs n stop dt u u' w w' st st' Hu Hw Hst Hal.
    pose proof (frame_leap_run same rest cfg p q qs qs' store store' stop dt Hb Hbq Hbs n (new_leap nu alpha, u) (new_leap nu alpha, u') w w' st st') as K.
    assert (Hl : both alike_leap same (new_leap nu alpha, u) (new_leap nu alpha, u')) by (split; [split; [reflexivity | split; [reflexivity | exact I]] | exact Hu]).
    specialize (K Hl Hw Hal) as (_ & _ & _ & K).
    pose proof (turn_leap_loop g same p q Ht rest qs qs' store store' cfg nu alpha Hf Hqs Hs n stop dt u u' w w' st st') as L.
    destruct (leap_main_loop n cfg p qs store stop dt (new_leap nu alpha, u) w st) as [[[s1 w1] log] x], (leap_main_loop n cfg q qs' store' stop dt (new_leap nu alpha, u') w' st') as [[[s1' w1'] log'] x']; cbn [snd] in K.
    unfold turned_end; cbn [fst snd].
    destruct x as [[e | x] | ], x' as [[e' | x'] | ]; cbn in K; try contradiction; try exact K; try exact I.
    exact (L s1 s1' w1 w1' log log' e e' Hu Hw Hst eq_refl eq_refl).
  Qed.
End Ends.
