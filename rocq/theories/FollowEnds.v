(** C98: the run on part of the grid returns when the run on the whole grid does, with the part of its states. *)
From Coq Require Import String List Bool Arith ZArith QArith.
From Verif Require Import Prelude ArithM NdArray Units DataArrayM Tracers Components Composite Steppers MainLoop LeapLoop SpecRegion RegionMain SpecFollow FollowFacts FollowMain.
Import ListNotations.
Open Scope string_scope.
Open Scope nat_scope.
Open Scope list_scope.

Section Ends.
  Context {T : Type} {A : Arith T} {R : Registry} (g : cut) (big small : string -> nat).

  Lemma follow_beside {M N U V} (sm : M -> N -> Prop) (same : U -> V -> Prop) (p : process (T:=T) U) (q : process (T:=T) V) :
    follows_step g big small same p q -> follows_step g big small (pair_of sm same) (beside p) (beside q).
  Proof.
    intros H [m u] [n v] st st' dt [Hm Hu] Hs; unfold beside; cbn [fst snd] in *.
    pose proof (H u v st st' dt Hu Hs) as K.
    destruct (p u st dt) as [u1 r]; intros w x E; injection E as <- ->.
    destruct (K u1 x eq_refl) as (v1 & y & -> & K1 & K2). exists (n, v1), y. split; [reflexivity | split; [split; assumption | exact K2]].
  Qed.

  Lemma follow_monitor {M N U V} (sm : M -> N -> Prop) (same : U -> V -> Prop) (mon : M -> state T -> M * res unit) (mon' : N -> state T -> N * res unit) :
    follows_store g big small sm mon mon' ->
    follows_store g big small (pair_of sm same) (fun w st => let (m1, r) := mon (fst w) st in ((m1, snd w), r)) (fun w st => let (m1, r) := mon' (fst w) st in ((m1, snd w), r)).
  Proof.
    intros H [m u] [n v] st st' [Hm Hu] Hs; cbn [fst snd] in *.
    pose proof (H m n st st' Hm Hs) as K.
    destruct (mon m st) as [m1 r]; intros w x E; injection E as <- ->.
    destruct (K m1 x eq_refl) as (n1 & y & -> & K1 & K2). exists (n1, v), y. split; [reflexivity | split; [split; assumption | exact K2]].
  Qed.

  Theorem follow_ends_run {W W'} (same near : W -> W' -> Prop) (ps : list (process (T:=T) W)) (ps' : list (process (T:=T) W')) (store : W -> state T -> W * res unit) (store' : W' -> state T -> W' * res unit) :
    Forall2 (local_step g same) ps ps' -> Forall2 (follows_step g big small near) ps ps' ->
    (forall u v st st' u' v', same u v -> part_record g st st' -> store u st = (u', Ok tt) -> store' v st' = (v', Ok tt) -> same u' v') -> follows_store g big small near store store' ->
    forall n stop dt w w' st st' w1 log e, same w w' -> near w w' -> part_state g st st' -> sized_state g big small st st' ->
    main_loop n ps store stop dt w st = ((w1, log), Some (Ok e)) ->
    exists w1' log' e', main_loop n ps' store' stop dt w' st' = ((w1', log'), Some (Ok e')) /\ Forall2 (part_record g) log log' /\ part_state g e e'.
  Proof.
    intros Ht Hb Hs Hbs n stop dt w w' st st' w1 log e Hw Hn Hst Hal E.
    destruct (follow_run g big small near ps ps' store store' stop dt Hb Hbs n w w' st st' w1 log e Hn Hal E) as (w1' & log' & e' & E' & _).
    exists w1', log', e'. split; [exact E' | ].
    exact (region_loop g same ps ps' store store' Ht Hs n stop dt w w' st st' w1 w1' log log' e e' Hw Hst E E').
  Qed.

  Theorem follow_ends_adams_bashforth {U V} (same near : U -> V -> Prop) (p : icaller (T:=T) U) (q : icaller (T:=T) V) :
    local g same p q -> follows g big small near p q ->
    forall {M N} (sm : M -> N -> Prop) (mon : M -> state T -> M * res unit) (mon' : N -> state T -> N * res unit), follows_store g big small sm mon mon' ->
    forall cfg o a0 u v, new_ab (T:=T) o = Ok a0 -> same u v -> near u v ->
    forall n stop dt m m' st st' w log e, sm m m' -> part_state g st st' -> sized_state g big small st st' ->
    main_loop n [beside (adams_bashforth cfg p)] (fun w st => let (m1, r) := mon (fst w) st in ((m1, snd w), r)) stop dt (m, (a0, u)) st = ((w, log), Some (Ok e)) ->
    exists w' log' e',
      main_loop n [beside (adams_bashforth cfg q)] (fun w st => let (m1, r) := mon' (fst w) st in ((m1, snd w), r)) stop dt (m', (a0, v)) st' = ((w', log'), Some (Ok e')) /\
      Forall2 (part_record g) log log' /\ part_state g e e'.
  Proof.
    intros Ht Hb M N sm mon mon' Hm cfg o a0 u v Ha Huv Hnv n stop dt m m' st st' w log e Hmm Hst Hal E.
    assert (H0 : ab_hist a0 = []) by (unfold new_ab in Ha; destruct (check_order o); [injection Ha as <-; reflexivity | discriminate Ha]).
    assert (Hw : pair_of sm (pair_of (sized_ab (T:=T) g big small) near) (m, (a0, u)) (m', (a0, v))).
    { split; [exact Hmm | split; [split; [reflexivity | split; [reflexivity | cbn [fst snd]; rewrite H0; constructor]] | exact Hnv]]. }
    destruct (follow_run g big small (pair_of sm (pair_of (sized_ab g big small) near)) _ _ _ _ stop dt
      (Forall2_cons _ _ (follow_beside sm _ _ _ (follow_adams_bashforth g big small near cfg p q Hb)) (Forall2_nil _)) (follow_monitor sm (pair_of (sized_ab g big small) near) mon mon' Hm)
      n _ _ st st' w log e Hw Hal E) as (w' & log' & e' & E' & _).
    exists w', log', e'. split; [exact E' | ].
    exact (region_ab_loop g same p q Ht mon mon' cfg o a0 u v Ha Huv n stop dt m m' st st' w w' log log' e e' Hst E E').
  Qed.

  Theorem follow_ends_runge_kutta {U V} (same near : U -> V -> Prop) (p : icaller (T:=T) U) (q : icaller (T:=T) V) :
    local g same p q -> follows g big small near p q ->
    forall {M N} (sm : M -> N -> Prop) (mon : M -> state T -> M * res unit) (mon' : N -> state T -> N * res unit), follows_store g big small sm mon mon' ->
    forall cfg z k0 u v, new_rk (T:=T) z = Ok k0 -> same u v -> near u v ->
    forall n stop dt m m' st st' w log e, sm m m' -> part_state g st st' -> sized_state g big small st st' ->
    main_loop n [beside (ssp_rk cfg p)] (fun w st => let (m1, r) := mon (fst w) st in ((m1, snd w), r)) stop dt (m, (k0, u)) st = ((w, log), Some (Ok e)) ->
    exists w' log' e',
      main_loop n [beside (ssp_rk cfg q)] (fun w st => let (m1, r) := mon' (fst w) st in ((m1, snd w), r)) stop dt (m', (k0, v)) st' = ((w', log'), Some (Ok e')) /\
      Forall2 (part_record g) log log' /\ part_state g e e'.
  Proof.
    intros Ht Hb M N sm mon mon' Hm cfg z k0 u v Ha Huv Hnv n stop dt m m' st st' w log e Hmm Hst Hal E.
    assert (H0 : ab_hist (rk_euler k0) = []) by (unfold new_rk in Ha; repeat (match type of Ha with context [if ?b then _ else _] => destruct b end); try discriminate Ha; injection Ha as <-; reflexivity).
    assert (Hw : pair_of sm (pair_of (sized_rk (T:=T) g big small) near) (m, (k0, u)) (m', (k0, v))).
    { split; [exact Hmm | split; [split; [reflexivity | split; [reflexivity | split; [reflexivity | cbn [fst snd]; rewrite H0; constructor]]] | exact Hnv]]. }
    destruct (follow_run g big small (pair_of sm (pair_of (sized_rk g big small) near)) _ _ _ _ stop dt
      (Forall2_cons _ _ (follow_beside sm _ _ _ (follow_runge_kutta g big small near cfg p q Hb)) (Forall2_nil _)) (follow_monitor sm (pair_of (sized_rk g big small) near) mon mon' Hm)
      n _ _ st st' w log e Hw Hal E) as (w' & log' & e' & E' & _).
    exists w', log', e'. split; [exact E' | ].
    exact (region_rk_loop g same p q Ht mon mon' cfg z k0 u v Ha Huv n stop dt m m' st st' w w' log log' e e' Hst E E').
  Qed.

  Theorem follow_ends_leapfrog {U V W W'} (same near : U -> V -> Prop) (rest rest' : W -> W' -> Prop) (p : icaller (T:=T) U) (q : icaller (T:=T) V) (qs : list (process (T:=T) W)) (qs' : list (process (T:=T) W')) (store : W -> state T -> W * res unit) (store' : W' -> state T -> W' * res unit) cfg nu alpha :
    local g same p q -> follows g big small near p q -> Forall2 (local_step g rest) qs qs' -> Forall2 (follows_step g big small rest') qs qs' ->
    (forall u v st st' u' v', rest u v -> part_record g st st' -> store u st = (u', Ok tt) -> store' v st' = (v', Ok tt) -> rest u' v') -> follows_store g big small rest' store store' ->
    forall n stop dt u u' w w' st st' s1 w1 log e, same u u' -> near u u' -> rest w w' -> rest' w w' -> part_state g st st' -> sized_state g big small st st' ->
    leap_main_loop n cfg p qs store stop dt (new_leap nu alpha, u) w st = ((s1, w1, log), Some (Ok e)) ->
    exists s1' w1' log' e', leap_main_loop n cfg q qs' store' stop dt (new_leap nu alpha, u') w' st' = ((s1', w1', log'), Some (Ok e')) /\
      Forall2 (part_record g) log log' /\ part_state g e e'.
  Proof.
    intros Ht Hb Hq Hbq Hs Hbs n stop dt u u' w w' st st' s1 w1 log e Hu Hnu Hw Hnw Hst Hal E.
    assert (H0 : pair_of (sized_leap (T:=T) g big small) near (new_leap nu alpha, u) (new_leap nu alpha, u')).
    { split; [split; [reflexivity | split; [reflexivity | exact I]] | exact Hnu]. }
    destruct (follow_leap_run g big small near rest' cfg p q qs qs' store store' stop dt Hb Hbq Hbs n _ _ w w' st st' s1 w1 log e H0 Hnw Hal E)
      as (s1' & w1' & log' & e' & E' & _).
    exists s1', w1', log', e'. split; [exact E' | ].
    exact (region_leap_loop g same rest p q qs qs' store store' cfg nu alpha Ht Hq Hs n stop dt u u' w w' st st' s1 s1' w1 w1' log log' e e' Hu Hw Hst E E').
  Qed.
End Ends.
