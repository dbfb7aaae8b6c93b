(** Facts about UpdateFrequencyWrapper in memory (C94). *)
From Coq Require Import String List Bool Arith ZArith Lia.
From Verif Require Import Prelude PreludeFacts ArithM NdArray Units DataArrayM Heap GetNp Components Composite Steppers Basic Wrapped SpecHeap
  HeapFacts HeapComposite HeapSteppers HeapLeap HeapWrapped SpecHeapWrapped WrappedFacts.
Import ListNotations.
Open Scope string_scope.
Open Scope nat_scope.
Open Scope list_scope.

Section Main.
  Context {T : Type} {A : Arith T} {R : Registry}.

  Lemma state_time_load : forall (h : heap T) st, state_time (load_state h st) = h_state_time st.
  Proof.
    intros h st. unfold state_time, dgetE, h_state_time. rewrite dget_load_state.
    destruct (dget "time" st) as [[a|t]|]; reflexivity.
  Qed.

  Lemma dict_in_changed : forall X (h h' : heap T) d, changed_in X h h' -> dict_in h d -> dict_in h' d.
  Proof. intros X h h' d (L & _) H c Hc. apply H in Hc. lia. Qed.

  Lemma proper_changed : forall (X : cells) (h h' : heap T) d, changed_in X h h' -> dict_in h d -> avoids (cells_of d) X ->
    proper_dict h d -> proper_dict h' d.
  Proof.
    intros X h h' d Hc Hi Ha (N & W). split; auto. intros k a Hk. rewrite (load_same X h h' a Hc); eauto.
    - intros c Hcc. apply Hi. exists k, a. auto.
    - intros c Hcc. apply Ha. exists k, a. auto.
  Qed.

  Lemma kept_changed : forall (X X' : cells) (h h' : heap T) w, changed_in X h h' -> (forall c, c < length h -> X' c -> X c) ->
    kept_apart X h w -> load_kept h' w = load_kept h w /\ kept_apart X' h' w.
  Proof.
    intros X X' h h' [[[t d]|] l] Hc Hs K; unfold load_kept, kept_apart in *; cbn [hu_cache hu_last] in *; [|split; [auto|discriminate]].
    destruct (K t d eq_refl) as (K1 & K2 & K3 & K4 & K5 & K6). split.
    - rewrite (load_changed_dict X h h' t), (load_changed_dict X h h' d); auto.
    - intros t0 d0 E. injection E as <- <-. split; [eapply dict_in_changed; eauto|]. split; [eapply dict_in_changed; eauto|].
      split; [eapply proper_changed; eauto|]. split; auto. split; intros c Hcc Hx.
      + apply (K5 c Hcc). apply Hs; auto.
      + apply (K6 c Hcc). apply Hs; auto.
  Qed.

  Lemma main_wrapper_stable : forall {UH UV} (I : invariant (T:=T) UH UV), stable I -> stable (wrapper_inv I).
  Proof.
    intros UH UV I HI X X' h h' [w u] [vw v] (E & K & Hi) Hc Hs. cbn [fst snd] in *.
    destruct (kept_changed X X' h h' w Hc Hs K) as (E' & K'). split; [cbn [fst]; congruence|]. split; auto. cbn [snd]. eapply HI; eauto.
  Qed.

  Section Behaves.
    Context (P : Prop) {UH UV : Type} (I : invariant (T:=T) UH UV) (HI : stable I).

    Lemma called_behaves : forall hc c, behaves_stepping P I hc c -> forall ts,
      behaves_if P I (fun u h st (_ : Z) => h_call_component hc u h st ts) (fun v st _ => call_component c v st ts).
    Proof.
      intros hc c Hb [dt|]; [|exact (Hb None)]. intros X h u v st z u' h' r Hi HX Hs Hx H. cbn in H.
      destruct (hc u h st (Some dt)) as [[u1 h1] r1] eqn:E1.
      destruct (Hb (Some dt) X h u v st z u1 h1 r1 Hi HX Hs Hx E1) as (G1 & (v1 & V1 & I1) & O1).
      destruct r1 as [o|e]; [|destruct e];
        try (injection H as <- <- <-; split; [auto|]; split; [|exact O1]; exists v1; split; [|exact I1]; cbn [call_component]; rewrite V1;
             try (destruct o); reflexivity).
      assert (Hs1 : state_in h1 st) by (intros y Hy; apply Hs in Hy; destruct G1 as (n & ->); rewrite app_length; lia).
      assert (HX1 : forall x, X x -> x < length h1) by (intros y Hy; apply HX in Hy; destruct G1 as (n & ->); rewrite app_length; lia).
      destruct (Hb None X h1 u1 v1 st z u' h' r I1 HX1 Hs1 Hx H) as (G2 & (v2 & V2 & I2) & O2).
      split; [eapply grown_trans; eauto|]. split; [|exact O2]. exists v2. split; [|exact I2]. cbn [call_component]. rewrite V1. cbn [load_out].
      rewrite <- (load_changed_state no_cells h h1 st) by (try (apply grown_changed; exact G1); auto; intros y _ []). exact V2.
    Qed.

    Lemma main_wrapper_behaves : forall hc c interval implicit, behaves_stepping P I hc c ->
      behaves_if P (wrapper_inv I) (fun s h st dt => h_wrapper_call hc interval (step_of implicit dt) s h st)
                                   (fun s st dt => wrapper_call c interval (step_of implicit dt) s st).
    Proof.
      intros hc c interval implicit Hb X h [w u] [vw v] st dt s' h' r (Ev & K & Hi) HX Hs Hx H. cbn [fst snd] in *. subst vw.
      unfold h_wrapper_call in H. unfold wrapper_call, uf_call, update_due. cbn [load_kept uf_last]. rewrite state_time_load.
      set (ts := step_of implicit dt) in *.
      assert (Same : forall e, s' = (w, u) -> h' = h -> r = Err e ->
        grown h h' /\ (exists v', ((load_kept h w, v), @Err (tends T) e) = (v', load_out h' r) /\ wrapper_inv I X h' s' v') /\
        match r with Err _ => True | Ok (t, d) => dict_in h' t /\ dict_in h' d /\ proper_dict h' t /\ NoDup (keys d) /\
                     avoids (cells_of t) X /\ avoids (cells_of d) X end).
      { intros e -> -> ->. split; [exists []; rewrite app_nil_r; auto|]. split; auto. eexists. split; [reflexivity|]. split; auto. }
      assert (Due : match h_call_component hc u h st ts with
          | ((u', h'), Err e) => (((w, u'), h'), Err e)
          | ((u', h'), Ok o) => match h_state_time st with
              | Err e => (((mkhufw (Some o) (hu_last w), u'), h'), Err e)
              | Ok t => (((mkhufw (Some o) (Some t), u'), h'), Ok o) end end = ((s', h'), r) ->
        grown h h' /\
        (exists v', (let (s', r) := match call_component c v (load_state h st) ts with
            | (u', Err e) => ((load_kept h w, u'), Err e)
            | (u', Ok o) => match h_state_time st with
                | Err e => ((mkufw (Some o) (hu_last w), u'), Err e)
                | Ok t => ((mkufw (Some o) (Some t), u'), Ok (Some o)) end end in
            (s', let* o := r in match o with Some td => Ok td | None => Err EType end)) = (v', load_out h' r) /\ wrapper_inv I X h' s' v') /\
        match r with Err _ => True | Ok (t, d) => dict_in h' t /\ dict_in h' d /\ proper_dict h' t /\ NoDup (keys d) /\
                     avoids (cells_of t) X /\ avoids (cells_of d) X end).
      { clear H Same. intros H. destruct (h_call_component hc u h st ts) as [[u1 h1] r1] eqn:E1.
        destruct (called_behaves hc c Hb ts X h u v st 0%Z u1 h1 r1 Hi HX Hs Hx E1) as (G1 & (v1 & V1 & I1) & O1). rewrite V1.
        destruct (kept_changed X X h h1 w (grown_changed X h h1 G1) (fun c _ K => K) K) as (EK & K1).
        destruct r1 as [[t d]|e]; cbn [load_out].
        - assert (K2 : forall l, kept_apart X h1 (mkhufw (Some (t, d)) l)).
          { intros l t0 d0 E. injection E as <- <-. exact O1. }
          destruct (h_state_time st) as [tm|e]; injection H as <- <- <-; (split; [auto|]; split; [|try exact O1; auto]);
            eexists; (split; [reflexivity|]); (split; [reflexivity|]); (split; [apply K2|exact I1]).
        - injection H as <- <- <-. split; auto. split; auto. eexists. split; [reflexivity|]. split; [cbn [fst]; congruence|]. split; auto. }
      destruct (hu_last w) as [t0|] eqn:El.
      - destruct (h_state_time st) as [tm|e] eqn:Et; cbn [bind] in H |- *.
        + destruct (Z.leb (t0 + interval) tm); [auto|]. injection H as <- <- <-.
          split; [exists []; rewrite app_nil_r; auto|]. split.
          * exists (load_kept h w, v). split; [|split; [reflexivity|]; split; auto]. cbn [bind]. unfold load_kept. cbn [uf_cache]. rewrite El. destruct (hu_cache w) as [[t d]|]; reflexivity.
          * destruct (hu_cache w) as [[t d]|] eqn:Ec; auto.
        + injection H as <- <- <-. apply (Same e); auto.
      - auto.
    Qed.

    (** Other components keep behaving beside the wrapper. *)
    Lemma beside_behaves : forall hc c, behaves_either P I hc c -> behaves_either P (wrapper_inv I) (h_beside hc) (beside c).
    Proof.
      assert (G : forall (f : hicaller (T:=T) UH) (g : icaller (T:=T) UV), behaves_if P I f g ->
        behaves_if P (wrapper_inv I) (fun s h st dt => let '((u', h'), r) := f (snd s) h st dt in (((fst s, u'), h'), r))
                                     (fun s st dt => let (u', r) := g (snd s) st dt in ((fst s, u'), r))).
      { intros f g Hb X h [w u] [vw v] st dt s' h' r (Ev & K & Hi) HX Hs Hx H. cbn [fst snd] in *.
        destruct (f u h st dt) as [[u1 h1] r1] eqn:E1. injection H as <- <- <-.
        destruct (Hb X h u v st dt u1 h1 r1 Hi HX Hs Hx E1) as (G1 & (v1 & V1 & I1) & O1).
        destruct (kept_changed X X h h1 w (grown_changed X h h1 G1) (fun c _ K => K) K) as (EK & K1).
        split; auto. split; auto. rewrite V1. eexists. split; [reflexivity|]. split; [cbn [fst]; congruence|]. split; auto. }
      intros [f|f] [g|g] H; cbn [behaves_either h_beside beside] in *; try contradiction; [exact (G f g H)|].
      exact (G (no_step f) (no_step_v g) H).
    Qed.

    Lemma main_among_behaves : forall hc c interval implicit hpre pre hpost post, behaves_stepping P I hc c ->
      Forall2 (behaves_either P I) hpre pre -> Forall2 (behaves_either P I) hpost post ->
      behaves_if P (wrapper_inv I) (h_wrapped_among hc interval implicit hpre hpost) (wrapped_among c interval implicit pre post).
    Proof.
      intros hc c interval implicit hpre pre hpost post Hb Hpre Hpost. unfold h_wrapped_among, wrapped_among.
      apply (main_implicit_behaves P (wrapper_inv I) (main_wrapper_stable I HI)).
      apply Forall2_app.
      - clear -HI Hpre. induction Hpre; cbn [map]; constructor; auto. apply beside_behaves; auto.
      - constructor.
        + pose proof (main_wrapper_behaves hc c interval implicit Hb) as G. destruct implicit; exact G.
        + clear -HI Hpost. induction Hpost; cbn [map]; constructor; auto. apply beside_behaves; auto.
    Qed.
  End Behaves.

  (** While the kept output is in use, the very arrays kept are returned, and nothing in
      memory changes. *)
  Lemma main_same_arrays : forall {U} (hc : hstepping T U) interval ts w u h st t t0 o, dget "time" st = Some (HTime t) ->
    hu_last w = Some t0 -> (t < t0 + interval)%Z -> hu_cache w = Some o ->
    h_wrapper_call hc interval ts (w, u) h st = (((w, u), h), Ok o).
  Proof.
    intros U hc interval ts w u h st t t0 o Ht Hl Hlt Hc. unfold h_wrapper_call. rewrite Hl. unfold h_state_time. rewrite Ht. cbn [bind].
    destruct (Z.leb_spec (t0 + interval) t); [lia|]. rewrite Hc. reflexivity.
  Qed.
End Main.

Section Runs.
  Context {T : Type} {A : Arith T} {R : Registry}.

  (** A new wrapper stands for a new wrapper. *)
  Lemma main_wrapper_new : forall {UH UV} (I : invariant (T:=T) UH UV) X h u v, I X h u v -> wrapper_inv I X h (new_hufw, u) (new_ufw, v).
  Proof. intros UH UV I X h u v H. split; [reflexivity|]. split; [|exact H]. intros t d E. discriminate E. Qed.

  Lemma main_wrapped_ab : forall {UH UV} (I : invariant (T:=T) UH UV), stable I ->
    forall hc c interval implicit hpre pre hpost post, behaves_stepping True I hc c ->
    Forall2 (behaves_either True I) hpre pre -> Forall2 (behaves_either True I) hpost post ->
    forall cfg (X : cells) h s w st dt a' u' h' r,
    ab_inv (wrapper_inv I) X h s w -> (forall c, X c -> c < length h) -> state_in h st -> avoids (state_cells st) X ->
    h_adams_bashforth cfg (h_wrapped_among hc interval implicit hpre hpost) s h st dt = ((a', u', h'), r) ->
    grown h h' /\
    (exists w', adams_bashforth cfg (wrapped_among c interval implicit pre post) w (load_state h st) dt = (w', load_stepped h' r) /\
                ab_inv (wrapper_inv I) X h' (a', u') w') /\
    step_out_in X h' r.
  Proof.
    intros UH UV I HI hc c interval implicit hpre pre hpost post Hc Hpre Hpost cfg X h s w st dt a' u' h' r Hi HX Hs Hx H.
    eapply (main_ab_memory (wrapper_inv I) (main_wrapper_stable I HI)); [apply main_among_behaves; eauto|exact Hi|exact HX|exact Hs|exact Hx|exact H].
  Qed.

  Lemma main_wrapped_rk : forall {UH UV} (I : invariant (T:=T) UH UV), stable I ->
    forall hc c interval implicit hpre pre hpost post, behaves_stepping True I hc c ->
    Forall2 (behaves_either True I) hpre pre -> Forall2 (behaves_either True I) hpost post ->
    forall cfg (X : cells) h s w st dt k' u' h' r,
    rk_inv (wrapper_inv I) X h s w -> (forall c, X c -> c < length h) -> state_in h st -> avoids (state_cells st) X ->
    h_ssp_rk cfg (h_wrapped_among hc interval implicit hpre hpost) s h st dt = ((k', u', h'), r) ->
    grown h h' /\
    (exists w', ssp_rk cfg (wrapped_among c interval implicit pre post) w (load_state h st) dt = (w', load_stepped h' r) /\
                rk_inv (wrapper_inv I) X h' (k', u') w') /\
    step_out_in X h' r.
  Proof.
    intros UH UV I HI hc c interval implicit hpre pre hpost post Hc Hpre Hpost cfg X h s w st dt k' u' h' r Hi HX Hs Hx H.
    eapply (main_rk_memory (wrapper_inv I) (main_wrapper_stable I HI)); [apply main_among_behaves; eauto|exact Hi|exact HX|exact Hs|exact Hx|exact H].
  Qed.

  Lemma main_wrapped_leap : forall {UH UV} (I : invariant (T:=T) UH UV), stable I ->
    forall hc c interval implicit hpre pre hpost post, behaves_stepping False I hc c ->
    Forall2 (behaves_either False I) hpre pre -> Forall2 (behaves_either False I) hpost post ->
    forall cfg h l u v st dt l' u' h' r, leap_ready (wrapper_inv I) h l u v st ->
    h_leapfrog cfg (h_wrapped_among hc interval implicit hpre hpost) (l, u) h st dt = ((l', u', h'), r) ->
    changed_in (state_cells st) h h' /\
    exists vl' v', leapfrog cfg (wrapped_among c interval implicit pre post) (load_leap h l, v) (load_state h st) dt =
                   ((vl', v'), load_state h' st, load_stepped h' r) /\
    match r with
    | Ok (d, new) => vl' = load_leap h' l' /\ leap_ready (wrapper_inv I) h' l' u' v' new /\ dict_in h' d /\ avoids (cells_of d) (state_cells st)
    | Err _ => wrapper_inv I (state_cells st) h' u' v'
    end.
  Proof.
    intros UH UV I HI hc c interval implicit hpre pre hpost post Hc Hpre Hpost cfg h l u v st dt l' u' h' r Hr H.
    eapply (main_leap_memory (wrapper_inv I) (main_wrapper_stable I HI)); [apply main_among_behaves; eauto|exact Hr|exact H].
  Qed.
End Runs.
