(** C102: the components that come with sympl, and the wrappers. *)
From Coq Require Import String List Bool Arith ZArith QArith.
From Verif Require Import Prelude PreludeFacts ArithM NdArray Units DataArrayM Tracers Components Composite Steppers Basic MainLoop Wrapped SpecFrame FrameFacts FrameCalls FrameMain.
Import ListNotations.
Open Scope string_scope.
Open Scope nat_scope.
Open Scope list_scope.

Section Wrap.
  Context {T T' : Type} {A : Arith T} {A' : Arith T'} {R : Registry}.

  Lemma fr_raw_array k (raw : dict (rval T)) (raw' : dict (rval T')) :
    alike_raw raw raw' -> same_outcome alike_array (get_raw_array k raw) (get_raw_array k raw').
  Proof.
    intros H; unfold get_raw_array. eapply so_bind; [exact (sk_getE _ k raw raw' H) | ].
    intros [a | s] [b | t]; cbn; auto; contradiction.
  Qed.

  Lemma fr_relaxation q : blind_arrays (T:=T) (T':=T') alike_two eq (fun (_ : unit) raw => (tt, relaxation_array q raw)) (fun _ raw => (tt, relaxation_array q raw)).
  Proof.
    intros u v raw raw' _ H; cbn [fst snd]; split; [reflexivity | ]. unfold relaxation_array.
    eapply so_bind; [exact (fr_raw_array q raw raw' H) | intros x x' Hx].
    eapply so_bind; [exact (fr_raw_array (equilibrium_name q) raw raw' H) | intros e e' He].
    eapply so_bind; [exact (fr_raw_array (timescale_name q) raw raw' H) | intros s s' Hs].
    eapply so_bind; [exact (ar_binop _ _ _ _ _ _ He Hx) | intros d d' Hd].
    eapply so_bind; [exact (ar_binop _ _ _ _ _ _ Hd Hs) | intros t t' Ht].
    split; cbn [fst snd]; [ | constructor]. constructor; [split; [reflexivity | exact Ht] | constructor].
  Qed.

  Theorem frame_relaxation c q (st : state T) (st' : state T') :
    alike_state st st' -> same_outcome alike_rates (relaxation_call c q st) (relaxation_call c q st').
  Proof. intros H. exact (proj2 (frame_tendency eq empty_treg c _ _ (fr_relaxation q) tt tt st st' eq_refl H)). Qed.

  Lemma fr_constant (d : dict (da T)) (d' : dict (da T')) : alike_dict d d' -> alike_arrays (constant_arrays d) (constant_arrays d').
  Proof. intros H; induction H as [ | x y l l' [H1 H2] Hl IH]; cbn; constructor; auto. split; [exact H1 | apply H2]. Qed.

  Theorem frame_constant_tendency c (t d : dict (da T)) (t' d' : dict (da T')) (st : state T) (st' : state T') :
    alike_dict t t' -> alike_dict d d' -> alike_state st st' ->
    same_outcome alike_rates (constant_tendency_call c t d st) (constant_tendency_call c t' d' st').
  Proof.
    intros Ht Hd H. refine (proj2 (frame_tendency eq empty_treg c _ _ _ tt tt st st' eq_refl H)).
    intros u v raw raw' _ _; cbn; split; [reflexivity | split; apply fr_constant; assumption].
  Qed.

  Theorem frame_constant_diagnostic c (d : dict (da T)) (d' : dict (da T')) (st : state T) (st' : state T') :
    alike_dict d d' -> alike_state st st' ->
    same_outcome alike_dict (constant_diagnostic_call c d st) (constant_diagnostic_call c d' st').
  Proof.
    intros Hd H. refine (proj2 (frame_diagnostic eq c _ _ _ tt tt st st' eq_refl H)).
    intros u v raw raw' _ _; cbn; split; [reflexivity | apply fr_constant; assumption].
  Qed.

  Theorem frame_differencing {U V} (same : U -> V -> Prop) outp (p : U -> state T -> Z -> U * res (stepped T)) (q : V -> state T' -> Z -> V * res (stepped T')) :
    blind_step same p q -> blind same (differencing_call outp p) (differencing_call outp q).
  Proof.
    intros Hp u v st st' dt Huv H; unfold differencing_call.
    pose proof (Hp u v st st' dt Huv H) as [K1 K2].
    destruct (p u st dt) as [u1 r], (q v st' dt) as [v1 r']; cbn [fst snd] in *.
    split; [exact K1 | ]. eapply so_bind; [exact K2 | intros x y [Hx1 Hx2]].
    eapply so_bind with (P := alike_dict); [ | intros a b Hab; split; assumption].
    eapply so_foldM; [exact Hx2 | | constructor].
    intros s s' [k a] [k' b] Hs [Hk Hv]; cbn [fst snd] in Hk, Hv; subst k'; unfold difference_step; cbn [fst snd].
    destruct a as [a | a], b as [b | b]; cbn in Hv; try contradiction.
    - destruct (dget k outp) as [pr | ]; [ | exact Hs].
      pose proof (sk_get _ k st st' H) as G.
      destruct (dget k st) as [[o | o] | ], (dget k st') as [[o' | o'] | ]; cbn in G; try contradiction; try reflexivity.
      cbn [bind]. rewrite <- (al_attrs _ _ Hv).
      eapply so_bind; [apply so_refl | intros w ? <-].
      eapply so_bind; [exact (al_units _ _ w G) | intros o1 o1' Ho1].
      eapply so_bind; [exact (al_sub _ _ _ _ Hv Ho1) | intros d d' Hd].
      eapply so_bind; [apply so_refl | intros ou ? <-].
      eapply so_bind with (P := alike); [ | intros t t' Ht; cbn; apply sk_set; assumption].
      apply al_units. destruct Hd as (D1 & D2 & D3). repeat split; cbn; auto.
    - destruct (String.eqb k "time"); [exact Hs | reflexivity].
  Qed.

  Theorem frame_update_frequency {U V} (same : U -> V -> Prop) (p : U -> state T -> option Z -> U * res (tends T)) (q : V -> state T' -> option Z -> V * res (tends T')) interval ts :
    blind_maybe same p q -> blind_plain (both alike_wrapper same) (wrapper_call p interval ts) (wrapper_call q interval ts).
  Proof.
    intros Hp [w u] [x v] st st' [[Hl Hc] Huv] H; cbn [fst snd] in *; unfold wrapper_call, uf_call; unfold tends in *.
    assert (D : update_due interval w st = update_due interval x st').
    { unfold update_due. rewrite <- Hl, <- (fr_time st st' H). reflexivity. }
    rewrite <- D. destruct (update_due interval w st) as [[ | ] | e]; cbn [fst snd].
    - assert (K : same (fst (call_component p u st ts)) (fst (call_component q v st' ts)) /\
                  same_outcome alike_rates (snd (call_component p u st ts)) (snd (call_component q v st' ts))).
      { unfold call_component. destruct ts as [dt | ]; [ | exact (Hp None u v st st' Huv H)].
        pose proof (Hp (Some dt) u v st st' Huv H) as [K1 K2].
        destruct (p u st (Some dt)) as [u1 r], (q v st' (Some dt)) as [v1 r']; cbn [fst snd] in K1, K2.
        destruct r as [o | e], r' as [o' | e']; cbn in K2; try contradiction; [split; assumption | subst e'].
        destruct e; try (split; [exact K1 | reflexivity]). exact (Hp None u1 v1 st st' K1 H). }
      destruct K as [K1 K2].
      destruct (call_component p u st ts) as [u1 r], (call_component q v st' ts) as [v1 r']; cbn [fst snd] in K1, K2.
      destruct r as [o | e], r' as [o' | e']; cbn in K2; try contradiction.
      + rewrite <- (fr_time st st' H). destruct (state_time st) as [t | e]; cbn [fst snd bind].
        * split; [split; [split; [reflexivity | exact K2] | exact K1] | exact K2].
        * split; [split; [split; [exact Hl | exact K2] | exact K1] | reflexivity].
      + subst e'. split; [split; [split; assumption | exact K1] | reflexivity].
    - split; [split; [split; assumption | exact Huv] | ]. cbn [bind].
      destruct (uf_cache w), (uf_cache x); try contradiction; [exact Hc | reflexivity].
    - split; [split; [split; assumption | exact Huv] | reflexivity].
  Qed.
End Wrap.
