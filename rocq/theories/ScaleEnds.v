(** C103 with C102: the run from the rescaled state also ends in the way of the other. *)
From Coq Require Import String List Bool Arith ZArith QArith Qcanon.
From Verif Require Import Prelude ArithM NdArray Units DataArrayM Tracers Components Composite Steppers MainLoop LeapLoop SpecFrame FrameMain TurnEnds SpecScale ScaleMain ScaleRuns.
Import ListNotations.
Open Scope string_scope.
Open Scope nat_scope.
Open Scope list_scope.

Section Ends.
  Context {R : Registry} (f : string -> Qc).

  Lemma scaled_alike (st : state Qc) : alike_state st (by_name times_value f st).
  Proof. unfold alike_state, same_keys, by_name. induction st as [ | [k [a | t]] st IH]; cbn [map]; constructor; try exact IH; (split; [reflexivity | ]); cbn; repeat split. Qed.

  Theorem scale_ends_adams_bashforth {U} (p : icaller (T:=Qc) U) :
    scales f p -> blind eq p p ->
    forall {M N} (sm : M -> N -> Prop) (mon : M -> state Qc -> M * res unit) (mon' : N -> state Qc -> N * res unit), blind_store sm mon mon' ->
    forall cfg o a0 u, rates_fit f cfg -> new_ab (T:=Qc) o = Ok a0 ->
    forall n stop dt m m' st, sm m m' -> linear_state f st ->
    scaled_end f (main_loop n [beside (adams_bashforth cfg p)] (fun w st => let (m1, r) := mon (fst w) st in ((m1, snd w), r)) stop dt (m, (a0, u)) st)
                 (main_loop n [beside (adams_bashforth cfg p)] (fun w st => let (m1, r) := mon' (fst w) st in ((m1, snd w), r)) stop dt (m', (a0, u)) (by_name times_value f st)).
  Proof.
    intros Ht Hb M N sm mon mon' Hm cfg o a0 u Hf Ha n stop dt m m' st Hmm Hst. pose proof (scaled_alike st) as Hal. set (st' := by_name times_value f st) in *.
    pose proof (frame_run (both sm (both alike_ab eq)) _ _ _ _ stop dt
      (Forall2_cons _ _ (blind_beside sm _ _ _ (frame_adams_bashforth eq cfg p p Hb)) (Forall2_nil _)) (blind_monitor sm (both alike_ab eq) mon mon' Hm)
      n (m, (a0, u)) (m', (a0, u)) st st') as K.
    assert (H0 : ab_hist a0 = []) by (unfold new_ab in Ha; destruct (check_order o); [injection Ha as <-; reflexivity | discriminate Ha]).
    assert (Hw : both sm (both (alike_ab (T':=Qc)) eq) (m, (a0, u)) (m', (a0, u))).
    { split; [exact Hmm | split; [split; [reflexivity | split; [reflexivity | cbn [fst snd]; rewrite H0; constructor]] | reflexivity]]. }
    specialize (K Hw Hal) as (_ & _ & K).
    pose proof (scale_adams_bashforth f p Ht mon mon' cfg o a0 u Hf Ha n stop dt m m' st) as L. fold st' in L.
    destruct (main_loop n [beside (adams_bashforth cfg p)] _ stop dt (m, (a0, u)) st) as [[w1 log] x], (main_loop n [beside (adams_bashforth cfg p)] _ stop dt (m', (a0, u)) st') as [[w1' log'] x']; cbn [snd] in K.
    unfold scaled_end; cbn [fst snd].
    destruct x as [[e | x] | ], x' as [[e' | x'] | ]; cbn in K; try contradiction; try exact K; try exact I.
    exact (L w1 w1' log log' e e' Hst eq_refl eq_refl).
  Qed.

  Theorem scale_ends_runge_kutta {U} (p : icaller (T:=Qc) U) :
    scales f p -> blind eq p p ->
    forall {M N} (sm : M -> N -> Prop) (mon : M -> state Qc -> M * res unit) (mon' : N -> state Qc -> N * res unit), blind_store sm mon mon' ->
    forall cfg z k0 u, rates_fit f cfg -> new_rk (T:=Qc) z = Ok k0 ->
    forall n stop dt m m' st, sm m m' -> linear_state f st ->
    scaled_end f (main_loop n [beside (ssp_rk cfg p)] (fun w st => let (m1, r) := mon (fst w) st in ((m1, snd w), r)) stop dt (m, (k0, u)) st)
                 (main_loop n [beside (ssp_rk cfg p)] (fun w st => let (m1, r) := mon' (fst w) st in ((m1, snd w), r)) stop dt (m', (k0, u)) (by_name times_value f st)).
  Proof.
    intros Ht Hb M N sm mon mon' Hm cfg z k0 u Hf Ha n stop dt m m' st Hmm Hst. pose proof (scaled_alike st) as Hal. set (st' := by_name times_value f st) in *.
    pose proof (frame_run (both sm (both alike_rk eq)) _ _ _ _ stop dt
      (Forall2_cons _ _ (blind_beside sm _ _ _ (frame_runge_kutta eq cfg p p Hb)) (Forall2_nil _)) (blind_monitor sm (both alike_rk eq) mon mon' Hm)
      n (m, (k0, u)) (m', (k0, u)) st st') as K.
    assert (H0 : ab_hist (rk_euler k0) = []).
    { unfold new_rk in Ha. destruct (Z.eqb z 2); [injection Ha as <-; reflexivity | destruct (Z.eqb z 3); [injection Ha as <-; reflexivity | discriminate Ha]]. }
    assert (Hw : both sm (both (alike_rk (T':=Qc)) eq) (m, (k0, u)) (m', (k0, u))).
    { split; [exact Hmm | split; [split; [reflexivity | split; [reflexivity | split; [reflexivity | cbn [fst snd]; rewrite H0; constructor]]] | reflexivity]]. }
    specialize (K Hw Hal) as (_ & _ & K).
    pose proof (scale_runge_kutta f p Ht mon mon' cfg z k0 u Hf Ha n stop dt m m' st) as L. fold st' in L.
    destruct (main_loop n [beside (ssp_rk cfg p)] _ stop dt (m, (k0, u)) st) as [[w1 log] x], (main_loop n [beside (ssp_rk cfg p)] _ stop dt (m', (k0, u)) st') as [[w1' log'] x']; cbn [snd] in K.
    unfold scaled_end; cbn [fst snd].
    destruct x as [[e | x] | ], x' as [[e' | x'] | ]; cbn in K; try contradiction; try exact K; try exact I.
    exact (L w1 w1' log log' e e' Hst eq_refl eq_refl).
  Qed.

  Theorem scale_ends_leapfrog {U} (p : icaller (T:=Qc) U) :
    scales f p -> blind eq p p ->
    forall {M N} (sm : M -> N -> Prop) (mon : M -> state Qc -> M * res unit) (mon' : N -> state Qc -> N * res unit), blind_store sm mon mon' ->
    forall cfg nu alpha u, rates_fit f cfg ->
    forall n stop dt m m' st, sm m m' -> linear_state f st ->
    scaled_end f (leap_main_loop n cfg p [] mon stop dt (new_leap nu alpha, u) m st)
                 (leap_main_loop n cfg p [] mon' stop dt (new_leap nu alpha, u) m' (by_name times_value f st)).
  Proof.
    intros Ht Hb M N sm mon mon' Hm cfg nu alpha u Hf n stop dt m m' st Hmm Hst. pose proof (scaled_alike st) as Hal. set (st' := by_name times_value f st) in *.
    pose proof (frame_leap_run eq sm cfg p p [] [] mon mon' stop dt Hb (Forall2_nil _) Hm n (new_leap nu alpha, u) (new_leap nu alpha, u) m m' st st') as K.
    assert (Hl : both alike_leap eq (new_leap nu alpha, u) (new_leap nu alpha, u)) by (split; [split; [reflexivity | split; [reflexivity | exact I]] | reflexivity]).
    specialize (K Hl Hmm Hal) as (_ & _ & _ & K).
    pose proof (scale_leapfrog f p Ht mon mon' cfg nu alpha u Hf n stop dt m m' st) as L.
    fold st' in L.
    destruct (leap_main_loop n cfg p [] mon stop dt (new_leap nu alpha, u) m st) as [[[s1 w1] log] x], (leap_main_loop n cfg p [] mon' stop dt (new_leap nu alpha, u) m' st') as [[[s1' w1'] log'] x']; cbn [snd] in K.
    unfold scaled_end; cbn [fst snd].
    destruct x as [[e | x] | ], x' as [[e' | x'] | ]; cbn in K; try contradiction; try exact K; try exact I.
    exact (L s1 s1' w1 w1' log log' e e' Hst eq_refl eq_refl).
  Qed.
End Ends.
