(** C102: lemmas. *)
From Coq Require Import String List Bool Arith ZArith QArith.
From Verif Require Import Prelude PreludeFacts ArithM NdArray Units DataArrayM Tracers Components Composite Steppers SpecFrame.
Import ListNotations.
Open Scope string_scope.
Open Scope nat_scope.
Open Scope list_scope.

(** ** Results and dictionaries *)

Lemma so_bind {A B A' B'} (P : A -> A' -> Prop) (Q : B -> B' -> Prop) r r' f f' :
  same_outcome P r r' -> (forall x y, P x y -> same_outcome Q (f x) (f' y)) -> same_outcome Q (bind r f) (bind r' f').
Proof. destruct r, r'; cbn; intros H K; try contradiction; auto. Qed.

Lemma so_mapM {A B A' B'} (P : A -> A' -> Prop) (Q : B -> B' -> Prop) f f' l l' :
  Forall2 P l l' -> (forall x y, P x y -> same_outcome Q (f x) (f' y)) ->
  same_outcome (Forall2 Q) (mapM f l) (mapM f' l').
Proof.
  intros H K; induction H as [ | x y l l' Hxy Hl IH]; cbn [mapM]; [constructor | ].
  eapply so_bind; [exact (K x y Hxy) | intros b b' Hb].
  eapply so_bind; [exact IH | intros c c' Hc].
  cbn. constructor; assumption.
Qed.

Lemma so_foldM {A S A' S'} (P : A -> A' -> Prop) (Q : S -> S' -> Prop) f f' l l' :
  Forall2 P l l' -> (forall s s' x y, Q s s' -> P x y -> same_outcome Q (f s x) (f' s' y)) ->
  forall s s', Q s s' -> same_outcome Q (foldM f l s) (foldM f' l' s').
Proof.
  intros H K; induction H as [ | x y l l' Hxy Hl IH]; cbn [foldM]; intros s s' Hs; [exact Hs | ].
  eapply so_bind; [exact (K s s' x y Hs Hxy) | intros b b' Hb; exact (IH b b' Hb)].
Qed.

Lemma Forall2_eq_refl {A} (l : list A) : Forall2 eq l l.
Proof. induction l; constructor; auto. Qed.

Section Dicts.
  Context {A B : Type} (P : A -> B -> Prop).

  Lemma sk_nil : same_keys P [] [].
  Proof. constructor. Qed.

  Lemma sk_get k d d' : same_keys P d d' ->
    match dget k d, dget k d' with Some a, Some b => P a b | None, None => True | _, _ => False end.
  Proof.
    intros H; induction H as [ | x y d d' [Hk Hv] Hd IH]; cbn; [exact I | ].
    destruct x as [k1 a], y as [k2 b]; cbn in *; subst k2.
    destruct (String.eqb k k1); [exact Hv | exact IH].
  Qed.

  Lemma sk_getE k d d' : same_keys P d d' -> same_outcome P (dgetE k d) (dgetE k d').
  Proof.
    intros H; unfold dgetE; pose proof (sk_get k d d' H) as K.
    destruct (dget k d), (dget k d'); cbn; auto.
  Qed.

  Lemma sk_mem k d d' : same_keys P d d' -> dmem k d = dmem k d'.
  Proof.
    intros H; unfold dmem; pose proof (sk_get k d d' H) as K.
    destruct (dget k d), (dget k d'); auto; contradiction.
  Qed.

  Lemma sk_set k a b d d' : same_keys P d d' -> P a b -> same_keys P (dset k a d) (dset k b d').
  Proof.
    intros H Hab; induction H as [ | x y d d' [Hk Hv] Hd IH]; cbn; [repeat constructor; assumption | ].
    destruct x as [k1 a1], y as [k2 b1]; cbn in *; subst k2.
    destruct (String.eqb k k1); constructor; cbn; auto.
  Qed.

  Lemma sk_keys d d' : same_keys P d d' -> keys d = keys d'.
  Proof. intros H; induction H as [ | x y d d' [Hk Hv] Hd IH]; cbn; [reflexivity | ]; unfold keys in IH; rewrite Hk, IH; reflexivity. Qed.

  Lemma sk_update d d' e e' : same_keys P d d' -> same_keys P e e' -> same_keys P (dupdate d e) (dupdate d' e').
  Proof.
    intros H He; revert d d' H; unfold dupdate.
    induction He as [ | x y e e' [Hk Hv] He IH]; cbn; intros d d' H; [exact H | ].
    apply IH. rewrite Hk. apply sk_set; assumption.
  Qed.
End Dicts.

Section Da.
  Context {T T' : Type} {A : Arith T} {A' : Arith T'} {R : Registry}.

  Lemma al_len (a : da T) (b : da T') d : alike a b -> dim_len a d = dim_len b d.
  Proof. intros (H1 & H2 & _); unfold dim_len; rewrite H1, H2; reflexivity. Qed.

  Lemma al_map f f' at' (a : da T) (b : da T') : alike a b -> alike (da_map f at' a) (da_map f' at' b).
  Proof. intros (H1 & H2 & H3); repeat split; cbn; auto. Qed.

  Lemma al_attrs (a : da T) (b : da T') : alike a b -> attrs a = attrs b.
  Proof. intros H; apply H. Qed.

  Lemma al_units (a : da T) (b : da T') u : alike a b -> same_outcome alike (to_units a u) (to_units b u).
  Proof.
    intros H; unfold to_units; rewrite <- (al_attrs a b H).
    destruct (dget "units" (attrs a)); [ | cbn; reflexivity].
    unfold parseE; destruct (parse s); [ | cbn; reflexivity]; cbn [bind].
    destruct (parse u); [ | cbn; reflexivity]; cbn [bind].
    destruct (negb (one_eqb u0 u1)); [ | exact H].
    destruct (udim_eqb u0 u1); [ | cbn; reflexivity].
    cbn [same_outcome]. apply al_map; exact H.
  Qed.

  Lemma al_bin op op' at' (a c : da T) (b d : da T') :
    alike a b -> alike c d -> same_outcome alike (da_binop op at' a c) (da_binop op' at' b d).
  Proof.
    intros H K; unfold da_binop.
    assert (Hs : sizes_agree a c = sizes_agree b d).
    { unfold sizes_agree. rewrite <- (proj1 H).
      induction (dims a) as [ | x l IH]; cbn [forallb]; [reflexivity | ].
      rewrite <- (al_len a b x H), <- (al_len c d x K), IH; reflexivity. }
    rewrite <- Hs; destruct (sizes_agree a c); [ | cbn; reflexivity].
    cbn [same_outcome].
    assert (Hd : bin_dims a c = bin_dims b d) by (unfold bin_dims; rewrite (proj1 H), (proj1 K); reflexivity).
    repeat split; cbn; [exact Hd | ].
    rewrite <- Hd. apply map_ext; intros x; unfold bin_len.
    rewrite <- (al_len a b x H), <- (al_len c d x K); reflexivity.
  Qed.

  Lemma al_add (a c : da T) (b d : da T') : alike a b -> alike c d -> same_outcome alike (da_add a c) (da_add b d).
  Proof. intros H K; unfold da_add; rewrite <- (al_attrs a b H); apply al_bin; assumption. Qed.
  Lemma al_sub (a c : da T) (b d : da T') : alike a b -> alike c d -> same_outcome alike (da_sub a c) (da_sub b d).
  Proof. intros H K; unfold da_sub; rewrite <- (al_attrs a b H); apply al_bin; assumption. Qed.
  Lemma al_scale (a : da T) (b : da T') x x' : alike a b -> alike (da_scale a x) (da_scale b x').
  Proof. intros H; apply al_map; exact H. Qed.
  Lemma al_lscale (a : da T) (b : da T') x x' : alike a b -> alike (da_lscale x a) (da_lscale x' b).
  Proof. intros H; apply al_map; exact H. Qed.
  Lemma al_divs (a : da T) (b : da T') x x' : alike a b -> alike (da_divs a x) (da_divs b x').
  Proof. intros H; apply al_map; exact H. Qed.
  Lemma al_iadd (a c : da T) (b d : da T') : alike a b -> alike c d -> same_outcome alike (da_iadd a c) (da_iadd b d).
  Proof.
    intros H K; unfold da_iadd. rewrite <- (proj1 H), <- (proj1 K).
    destruct (forallb _ _); [apply al_add; assumption | cbn; reflexivity].
  Qed.

  (** ** States *)

  Lemma as_da k (st : state T) (st' : state T') : alike_state st st' -> same_outcome alike (state_da k st) (state_da k st').
  Proof.
    intros H; unfold state_da; eapply so_bind; [exact (sk_getE _ k st st' H) | ].
    intros x y Hxy; destruct x, y; cbn in *; auto; contradiction.
  Qed.

  Lemma as_untouched (o n : state T) (o' n' : state T') :
    alike_state o o' -> alike_state n n' -> alike_state (copy_untouched o n) (copy_untouched o' n').
  Proof.
    intros H; revert n n'; unfold copy_untouched.
    induction H as [ | x y o o' [Hk Hv] Ho IH]; cbn [fold_left]; intros n n' Hn; [exact Hn | ].
    apply IH. rewrite <- Hk, <- (sk_mem _ (fst x) n n' Hn).
    destruct (dmem (fst x) n); [exact Hn | apply sk_set; assumption].
  Qed.

  Lemma as_time_first (st : state T) (st' : state T') : alike_state st st' -> alike_state (time_first st) (time_first st').
  Proof.
    intros H; unfold time_first; pose proof (sk_get _ "time" st st' H) as K.
    destruct (dget "time" st), (dget "time" st'); try contradiction; [ | constructor].
    constructor; [split; [reflexivity | exact K] | constructor].
  Qed.

  Lemma as_add (a c : state T) (b d : state T') :
    alike_state a b -> alike_state c d -> same_outcome alike_state (add_states a c) (add_states b d).
  Proof.
    intros H K; unfold add_states.
    eapply so_foldM; [exact H | | apply as_time_first; exact H].
    intros s s' x y Hs [Hk Hv]; unfold add_states_step. rewrite <- Hk.
    destruct (String.eqb (fst x) "time"); [exact Hs | ].
    destruct x as [k v], y as [k' v']; cbn [fst snd] in *; subst k'.
    destruct v as [v | v], v' as [v' | v']; cbn in Hv; try contradiction; [ | cbn; reflexivity].
    eapply so_bind; [exact (as_da k c d K) | intros e f He].
    eapply so_bind; [exact (al_add _ _ _ _ Hv He) | intros e2 f2 He2].
    cbn. apply sk_set; assumption.
  Qed.

  Lemma as_multiply x x' (a : state T) (b : state T') :
    alike_state a b -> same_outcome alike_state (multiply x a) (multiply x' b).
  Proof.
    intros H; unfold multiply.
    eapply so_foldM; [exact H | | apply as_time_first; exact H].
    intros s s' p q Hs [Hk Hv]; unfold multiply_step. rewrite <- Hk.
    destruct (String.eqb (fst p) "time"); [exact Hs | ].
    destruct p as [k v], q as [k' v']; cbn [fst snd] in *; subst k'.
    destruct v as [v | v], v' as [v' | v']; cbn in Hv; try contradiction; [ | cbn; reflexivity].
    cbn [same_outcome]. apply sk_set; [exact Hs | ].
    cbn. rewrite <- (al_attrs _ _ Hv). apply al_map; exact Hv.
  Qed.

  Lemma as_convert (st : state T) (st' : state T') t t' :
    alike_state st st' -> alike_dict t t' -> same_outcome alike_dict (convert_tendencies st t) (convert_tendencies st' t').
  Proof.
    intros H K; unfold convert_tendencies. eapply so_mapM; [exact K | ].
    intros [k x] [k' y] [Hk Hv]; cbn [fst snd] in *; subst k'; unfold convert_one.
    rewrite <- (al_attrs _ _ Hv). destruct (dget "units" (attrs x)); [ | cbn; auto].
    eapply so_bind; [exact (sk_getE _ k st st' H) | intros v w Hvw].
    destruct v as [v | v], w as [w | w]; cbn in Hvw; try contradiction; [ | cbn; reflexivity].
    rewrite <- (al_attrs _ _ Hvw). destruct (dget "units" (attrs v)); [ | cbn; reflexivity].
    eapply so_bind; [exact (al_units _ _ _ Hv) | intros e f He]. cbn; auto.
  Qed.

  Lemma as_for_keys f f' ks :
    (forall k, same_outcome alike (f k) (f' k)) -> same_outcome alike_state (for_keys (T:=T) f ks) (for_keys (T:=T') f' ks).
  Proof.
    intros H; unfold for_keys. eapply so_mapM; [exact (Forall2_eq_refl ks) | ].
    intros k k' <-. eapply so_bind; [exact (H k) | intros x y Hxy]. cbn; auto.
  Qed.

  Definition alike_hist : list (dict (da T)) -> list (dict (da T')) -> Prop := Forall2 alike_dict.

  Lemma F2_nth {X Y} (P : X -> Y -> Prop) l l' n : Forall2 P l l' ->
    match nth_error l n, nth_error l' n with Some a, Some b => P a b | None, None => True | _, _ => False end.
  Proof. intros H; revert n; induction H; intros [ | n]; cbn; auto; apply IHForall2. Qed.

  Lemma F2_rev {X Y} (P : X -> Y -> Prop) l l' : Forall2 P l l' -> Forall2 P (rev l) (rev l').
  Proof. intros H; induction H; cbn; [constructor | apply Forall2_app; auto]. Qed.

  Lemma ah_past h h' n k : alike_hist h h' -> same_outcome alike (past h n k) (past h' n k).
  Proof.
    intros H; unfold past; pose proof (F2_nth _ _ _ n (F2_rev _ _ _ H)) as K.
    destruct (nth_error (rev h) n), (nth_error (rev h') n); try contradiction; [ | cbn; reflexivity].
    apply sk_getE; exact K.
  Qed.

  Lemma as_euler (st : state T) (st' : state T') t t' dt :
    alike_state st st' -> alike_dict t t' -> same_outcome alike_state (step_forward_euler st t dt) (step_forward_euler st' t' dt).
  Proof.
    intros H K; unfold step_forward_euler. rewrite <- (sk_keys _ _ _ K). apply as_for_keys; intros k; unfold euler_one.
    eapply so_bind; [exact (as_da k st st' H) | intros x y Hx].
    eapply so_bind; [exact (sk_getE _ k t t' K) | intros z w Hz].
    apply al_add; [exact Hx | apply al_scale; exact Hz].
  Qed.

  Ltac past_ H n k z w Hz := eapply so_bind; [exact (ah_past _ _ n k H) | intros z w Hz].

  Lemma as_perform n h h' (st : state T) (st' : state T') dt :
    alike_hist h h' -> alike_state st st' -> same_outcome alike_state (perform_step n h st dt) (perform_step n h' st' dt).
  Proof.
    intros H K; unfold perform_step.
    assert (Hl : length h' = length h) by (clear -H; induction H; cbn; congruence). rewrite Hl.
    assert (Ho : same_outcome eq (oldest_keys h) (oldest_keys h')).
    { destruct H as [ | d d' h h' Hd H]; cbn; [reflexivity | exact (sk_keys _ _ _ Hd)]. }
    destruct (Nat.min n (length h)) as [ | [ | [ | [ | [ | m]]]]]; try reflexivity.
    - pose proof (F2_nth _ _ _ 0 (F2_rev _ _ _ H)) as K1.
      destruct (nth_error (rev h) 0), (nth_error (rev h') 0); try contradiction; [ | cbn; reflexivity].
      apply as_euler; assumption.
    - eapply so_bind; [exact Ho | intros ks ? <-]. apply as_for_keys; intros k; unfold ab2_one.
      eapply so_bind; [exact (as_da k st st' K) | intros x y Hx].
      past_ H 0 k z1 w1 H1. past_ H 1 k z2 w2 H2.
      eapply so_bind; [apply al_sub; apply al_lscale; eassumption | intros s s' Hs].
      apply al_add; [exact Hx | apply al_lscale; exact Hs].
    - eapply so_bind; [exact Ho | intros ks ? <-]. apply as_for_keys; intros k; unfold ab3_one.
      eapply so_bind; [exact (as_da k st st' K) | intros x y Hx].
      past_ H 0 k z1 w1 H1. past_ H 1 k z2 w2 H2.
      eapply so_bind; [apply al_sub; apply al_lscale; eassumption | intros s s' Hs].
      past_ H 2 k z3 w3 H3.
      eapply so_bind; [apply al_add; [exact Hs | apply al_lscale; exact H3] | intros s2 s2' Hs2].
      apply al_add; [exact Hx | apply al_lscale; exact Hs2].
    - eapply so_bind; [exact Ho | intros ks ? <-]. apply as_for_keys; intros k; unfold ab4_one.
      eapply so_bind; [exact (as_da k st st' K) | intros x y Hx].
      past_ H 0 k z1 w1 H1. past_ H 1 k z2 w2 H2.
      eapply so_bind; [apply al_sub; apply al_lscale; eassumption | intros s s' Hs].
      past_ H 2 k z3 w3 H3.
      eapply so_bind; [apply al_add; [exact Hs | apply al_lscale; exact H3] | intros s2 s2' Hs2].
      past_ H 3 k z4 w4 H4.
      eapply so_bind; [apply al_sub; [exact Hs2 | apply al_lscale; exact H4] | intros s3 s3' Hs3].
      apply al_add; [exact Hx | apply al_lscale; exact Hs3].
  Qed.

  (** ** TendencyStepper.__call__ *)

  Lemma as_insert cfg dt (st n : state T) (st' n' : state T') d d' :
    alike_state st st' -> alike_state n n' -> alike_dict d d' ->
    same_outcome alike_dict (insert_differences cfg dt st n d) (insert_differences cfg dt st' n' d').
  Proof.
    intros H K Hd; unfold insert_differences.
    eapply so_foldM; [exact (Forall2_eq_refl (ts_out cfg)) | | exact Hd].
    intros s s' p ? Hs <-; unfold insert_one.
    rewrite <- (sk_mem _ _ s s' Hs). destruct (dmem _ s); [cbn; reflexivity | ].
    assert (Hp : same_outcome eq (dgetE (fst p) (ts_inp cfg)) (dgetE (fst p) (ts_inp cfg))) by (destruct (dgetE _ _); reflexivity).
    eapply so_bind; [exact Hp | intros pp ? <-].
    destruct (p_units pp) as [b | ]; [ | cbn; reflexivity]; cbn [bind].
    eapply so_bind; [exact (sk_getE _ (fst p) n n' K) | intros v w Hv].
    destruct v as [v | v], w as [w | w]; cbn in Hv; try contradiction; [ | cbn; reflexivity].
    eapply so_bind; [exact (al_units v w b Hv) | intros e f He].
    eapply so_bind; [exact (sk_getE _ (fst p) st st' H) | intros v2 w2 Hv2].
    destruct v2 as [v2 | v2], w2 as [w2 | w2]; cbn in Hv2; try contradiction; [ | cbn; reflexivity].
    eapply so_bind; [exact (al_units v2 w2 b Hv2) | intros e2 f2 He2].
    eapply so_bind; [exact (al_sub _ _ _ _ He He2) | intros q r Hq].
    cbn [same_outcome]. apply sk_set; [exact Hs | ].
    destruct Hq as (Q1 & Q2 & _). repeat split; cbn; auto.
  Qed.

  Lemma as_finish cfg dt (st : state T) (st' : state T') r r' :
    alike_state st st' -> same_outcome alike_step r r' ->
    same_outcome alike_step (finish_step cfg dt st r) (finish_step cfg dt st' r').
  Proof.
    intros H K; unfold finish_step. eapply so_bind; [exact K | intros [d n] [d' n'] [Hd Hn]]; cbn [fst snd] in *.
    assert (Hu := as_untouched _ _ _ _ H Hn).
    destruct (ts_tid cfg).
    - eapply so_bind; [apply as_insert; eassumption | intros e f He]. split; assumption.
    - cbn. split; assumption.
  Qed.
End Da.
