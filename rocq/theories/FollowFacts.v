(** C98: lemmas on runs on part of the grid that return. *)
From Coq Require Import String List Bool Arith ZArith QArith.
From Verif Require Import Prelude PreludeFacts ArithM NdArray Units DataArrayM Tracers Components Composite Steppers SpecRegion SpecFollow.
Import ListNotations.
Open Scope string_scope.
Open Scope nat_scope.
Open Scope list_scope.

Lemma rt_ok {A B} (P : A -> B -> Prop) a b : P a b -> returns_too P (Ok a) (Ok b).
Proof. intros H x E; injection E as <-; exists b; auto. Qed.
Lemma rt_err {A B} (P : A -> B -> Prop) e r : returns_too P (Err e) r.
Proof. intros x E; discriminate E. Qed.
Lemma rt_refl {A} (r : res A) : returns_too eq r r.
Proof. intros x E; exists x; auto. Qed.
#[global] Hint Resolve rt_err : rt.

Lemma rt_bind {A B A' B'} (P : A -> A' -> Prop) (Q : B -> B' -> Prop) r r' f f' :
  returns_too P r r' -> (forall x y, P x y -> returns_too Q (f x) (f' y)) -> returns_too Q (bind r f) (bind r' f').
Proof.
  intros H K b E. destruct r as [a | e]; [ | discriminate E].
  destruct (H a eq_refl) as (a' & -> & Haa). exact (K a a' Haa b E).
Qed.

Lemma rt_mapM {A B A' B'} (P : A -> A' -> Prop) (Q : B -> B' -> Prop) f f' l l' :
  Forall2 P l l' -> (forall x y, P x y -> returns_too Q (f x) (f' y)) ->
  returns_too (Forall2 Q) (mapM f l) (mapM f' l').
Proof.
  intros H K; induction H as [ | x y l l' Hxy Hl IH]; cbn [mapM]; [apply rt_ok; constructor | ].
  eapply rt_bind; [exact (K x y Hxy) | intros b b' Hb].
  eapply rt_bind; [exact IH | intros c c' Hc].
  apply rt_ok. constructor; assumption.
Qed.

Lemma rt_foldM {A S A' S'} (P : A -> A' -> Prop) (Q : S -> S' -> Prop) f f' l l' :
  Forall2 P l l' -> (forall s s' x y, Q s s' -> P x y -> returns_too Q (f s x) (f' s' y)) ->
  forall s s', Q s s' -> returns_too Q (foldM f l s) (foldM f' l' s').
Proof.
  intros H K; induction H as [ | x y l l' Hxy Hl IH]; cbn [foldM]; intros s s' Hs; [apply rt_ok; exact Hs | ].
  eapply rt_bind; [exact (K s s' x y Hs Hxy) | intros b b' Hb; exact (IH b b' Hb)].
Qed.

Lemma F2_refl {A} (l : list A) : Forall2 eq l l.
Proof. induction l; constructor; auto. Qed.

Lemma dget_map_len (f : string -> nat) ds d n : dget d (combine ds (map f ds)) = Some n -> n = f d /\ In d ds.
Proof.
  induction ds as [ | x ds IH]; cbn [combine map dget]; intros E; [discriminate E | ].
  destruct (String.eqb d x) eqn:Ex; [apply String.eqb_eq in Ex as ->; injection E as <-; split; [reflexivity | left; reflexivity] | ].
  destruct (IH E) as [H1 H2]. split; [exact H1 | right; exact H2].
Qed.

Lemma dget_combine_in {B} ds (sh : list B) d : length ds = length sh -> In d ds -> exists n, dget d (combine ds sh) = Some n.
Proof.
  revert sh; induction ds as [ | x ds IH]; intros [ | n sh] L H; cbn in *; try contradiction; try discriminate L.
  destruct (String.eqb d x) eqn:Ex; [exists n; reflexivity | ].
  destruct H as [-> | H]; [rewrite String.eqb_refl in Ex; discriminate Ex | ]. injection L as L. exact (IH sh L H).
Qed.

Section Dicts.
  Context {A B : Type} (P : A -> B -> Prop).

  Lemma pk_nil : per_key P [] [].
  Proof. constructor. Qed.

  Lemma pk_get k d d' : per_key P d d' ->
    match dget k d, dget k d' with Some a, Some b => P a b | None, None => True | _, _ => False end.
  Proof.
    intros H; induction H as [ | x y d d' [Hk Hv] Hd IH]; cbn; [exact I | ].
    destruct x as [k1 a], y as [k2 b]; cbn in *; subst k2.
    destruct (String.eqb k k1); [exact Hv | exact IH].
  Qed.

  Lemma pk_getE k d d' : per_key P d d' -> returns_too P (dgetE k d) (dgetE k d').
  Proof.
    intros H; unfold dgetE; pose proof (pk_get k d d' H) as K.
    destruct (dget k d), (dget k d'); try contradiction; [apply rt_ok; exact K | apply rt_err].
  Qed.

  Lemma pk_mem k d d' : per_key P d d' -> dmem k d = dmem k d'.
  Proof.
    intros H; unfold dmem; pose proof (pk_get k d d' H) as K.
    destruct (dget k d), (dget k d'); auto; contradiction.
  Qed.

  Lemma pk_set k a b d d' : per_key P d d' -> P a b -> per_key P (dset k a d) (dset k b d').
  Proof.
    intros H Hab; induction H as [ | x y d d' [Hk Hv] Hd IH]; cbn; [repeat constructor; assumption | ].
    destruct x as [k1 a1], y as [k2 b1]; cbn in *; subst k2.
    destruct (String.eqb k k1); constructor; cbn; auto.
  Qed.

  Lemma pk_keys d d' : per_key P d d' -> keys d = keys d'.
  Proof. intros H; induction H as [ | x y d d' [Hk Hv] Hd IH]; cbn; [reflexivity | ]; unfold keys in IH; rewrite Hk, IH; reflexivity. Qed.

  Lemma pk_update d d' e e' : per_key P d d' -> per_key P e e' -> per_key P (dupdate d e) (dupdate d' e').
  Proof.
    intros H He; revert d d' H; unfold dupdate.
    induction He as [ | x y e e' [Hk Hv] He IH]; cbn; intros d d' H; [exact H | ].
    apply IH. rewrite Hk. apply pk_set; assumption.
  Qed.
End Dicts.

Section Da.
  Context {T : Type} {A : Arith T} {R : Registry} (g : cut) (big small : string -> nat).
  Local Notation "'sz'" := (sized (T:=T) g big small).
  Local Notation "'szs'" := (sized_state (T:=T) g big small).
  Local Notation "'szd'" := (sized_dict (T:=T) g big small).

  Lemma al_attrs (a b : da T) : sz a b -> attrs a = attrs b.
  Proof. intros H; apply H. Qed.

  Lemma al_frame (a b : da T) a1 b1 : sz a b -> dims a1 = dims a -> dims b1 = dims b -> shape (arr a1) = shape (arr a) -> shape (arr b1) = shape (arr b) ->
    attrs a1 = attrs b1 -> sz a1 b1.
  Proof.
    intros (_ & [H1 H2] & [H3 H4] & H5) E1 E2 E3 E4 E5. unfold sized, on_grid, dim_len in *. rewrite E1, E2, E3, E4.
    split; [exact E5 | split; [split; assumption | split; [split; assumption | exact H5]]].
  Qed.

  Lemma al_map f f' at' (a b : da T) : sz a b -> sz (da_map f at' a) (da_map f' at' b).
  Proof. intros H; apply (al_frame a b); auto. Qed.

  Lemma al_units (a b : da T) u : sz a b -> returns_too sz (to_units a u) (to_units b u).
  Proof.
    intros H; unfold to_units; rewrite <- (al_attrs a b H).
    destruct (dget "units" (attrs a)); [ | apply rt_err].
    unfold parseE; destruct (parse s); [ | apply rt_err]; cbn [bind].
    destruct (parse u); [ | apply rt_err]; cbn [bind].
    destruct (negb (one_eqb u0 u1)); [ | apply rt_ok; exact H].
    destruct (udim_eqb u0 u1); [ | apply rt_err].
    apply rt_ok, al_map; exact H.
  Qed.

  Lemma grid_agree size (a c : da T) : on_grid size a -> on_grid size c -> sizes_agree a c = true.
  Proof.
    intros [_ H] [_ K]; unfold sizes_agree. apply forallb_forall; intros d _.
    destruct (dim_len a d) as [n | ] eqn:En; [ | reflexivity]. destruct (dim_len c d) as [m | ] eqn:Em; [ | reflexivity].
    rewrite (H d n En), (K d m Em). apply Nat.eqb_refl.
  Qed.

  Lemma mem_in d l : mem d l = true <-> In d l.
  Proof.
    unfold mem; rewrite existsb_exists; split.
    - intros (x & Hx & E). apply String.eqb_eq in E as ->. exact Hx.
    - intros H; exists d; split; [exact H | apply String.eqb_refl].
  Qed.

  Lemma bin_in (a c : da T) d : In d (bin_dims a c) <-> In d (dims a) \/ In d (dims c).
  Proof.
    unfold bin_dims. rewrite in_app_iff, filter_In. split; [tauto | ]. intros [H | H]; [left; exact H | ].
    destruct (mem d (dims a)) eqn:E; [left; apply mem_in; exact E | right; auto].
  Qed.

  Lemma grid_bin size (op : T -> T -> T) at' (a c : da T) : on_grid size a -> on_grid size c ->
    on_grid size (mkda (bin_dims a c) (build (map (bin_len a c) (bin_dims a c))
      (fun idx => op (at_ (arr a) (map (coord (bin_dims a c) idx) (dims a))) (at_ (arr c) (map (coord (bin_dims a c) idx) (dims c))))) at').
  Proof.
    intros [La Ha] [Lc Hc]. split; cbn [dims arr shape build]; [rewrite map_length; reflexivity | ].
    intros d n E; unfold dim_len in E; cbn [dims arr shape build] in E.
    apply dget_map_len in E as [-> Hin]. unfold bin_len.
    destruct (dim_len a d) as [m | ] eqn:Em; [exact (Ha d m Em) | ].
    apply bin_in in Hin as [Hin | Hin].
    - destruct (dget_combine_in _ _ d La Hin) as [m Hm]. unfold dim_len in Em. rewrite Hm in Em; discriminate Em.
    - destruct (dget_combine_in _ _ d Lc Hin) as [m Hm]. assert (Hm' : dim_len c d = Some m) by exact Hm. rewrite Hm'. exact (Hc d m Hm').
  Qed.

  Lemma al_bin (op op' : T -> T -> T) at' (a c b d : da T) : sz a b -> sz c d -> returns_too sz (da_binop op at' a c) (da_binop op' at' b d).
  Proof.
    intros (H1 & H2 & H3 & H4) (K1 & K2 & K3 & K4). unfold da_binop.
    rewrite (grid_agree big a c H2 K2), (grid_agree small b d H3 K3). apply rt_ok.
    split; [reflexivity | split; [apply grid_bin; assumption | split; [apply grid_bin; assumption | ]]].
    intros x; cbn [dims]. rewrite !bin_in, H4, K4. tauto.
  Qed.

  Lemma al_add (a c b d : da T) : sz a b -> sz c d -> returns_too sz (da_add a c) (da_add b d).
  Proof. intros H K; unfold da_add; rewrite <- (al_attrs a b H); apply al_bin; assumption. Qed.
  Lemma al_sub (a c b d : da T) : sz a b -> sz c d -> returns_too sz (da_sub a c) (da_sub b d).
  Proof. intros H K; unfold da_sub; rewrite <- (al_attrs a b H); apply al_bin; assumption. Qed.
  Lemma al_scale (a b : da T) x x' : sz a b -> sz (da_scale a x) (da_scale b x').
  Proof. intros H; apply al_map; exact H. Qed.
  Lemma al_lscale (a b : da T) x x' : sz a b -> sz (da_lscale x a) (da_lscale x' b).
  Proof. intros H; apply al_map; exact H. Qed.
  Lemma al_iadd (a c b d : da T) : sz a b -> sz c d -> returns_too sz (da_iadd a c) (da_iadd b d).
  Proof.
    intros H K; unfold da_iadd.
    destruct (forallb (fun x => mem x (dims a)) (dims c)) eqn:E; [ | apply rt_err].
    assert (E' : forallb (fun x => mem x (dims b)) (dims d) = true).
    { rewrite forallb_forall in E |- *. intros x Hx. apply mem_in.
      destruct H as (_ & _ & _ & H), K as (_ & _ & _ & K). apply K in Hx as [Hx Hf]. apply H. split; [ | exact Hf].
      apply mem_in, E; exact Hx. }
    rewrite E'. apply al_add; assumption.
  Qed.

  (** ** States *)

  Lemma as_da k (st : state T) (st' : state T) : szs st st' -> returns_too sz (state_da k st) (state_da k st').
  Proof.
    intros H; unfold state_da; eapply rt_bind; [exact (pk_getE _ k st st' H) | ].
    intros x y Hxy; destruct x, y; cbn in Hxy; try contradiction; [apply rt_ok; exact Hxy | apply rt_err].
  Qed.

  Lemma as_untouched (o n : state T) (o' n' : state T) :
    szs o o' -> szs n n' -> szs (copy_untouched o n) (copy_untouched o' n').
  Proof.
    intros H; revert n n'; unfold copy_untouched.
    induction H as [ | x y o o' [Hk Hv] Ho IH]; cbn [fold_left]; intros n n' Hn; [exact Hn | ].
    apply IH. rewrite <- Hk, <- (pk_mem _ (fst x) n n' Hn).
    destruct (dmem (fst x) n); [exact Hn | apply pk_set; assumption].
  Qed.

  Lemma as_time_first (st : state T) (st' : state T) : szs st st' -> szs (time_first st) (time_first st').
  Proof.
    intros H; unfold time_first; pose proof (pk_get _ "time" st st' H) as K.
    destruct (dget "time" st), (dget "time" st'); try contradiction; [ | constructor].
    constructor; [split; [reflexivity | exact K] | constructor].
  Qed.

  Lemma as_add (a c : state T) (b d : state T) :
    szs a b -> szs c d -> returns_too szs (add_states a c) (add_states b d).
  Proof.
    intros H K; unfold add_states.
    eapply rt_foldM; [exact H | | apply as_time_first; exact H].
    intros s s' x y Hs [Hk Hv]; unfold add_states_step. rewrite <- Hk.
    destruct (String.eqb (fst x) "time"); [apply rt_ok; exact Hs | ].
    destruct x as [k v], y as [k' v']; cbn [fst snd] in *; subst k'.
    destruct v as [v | v], v' as [v' | v']; cbn in Hv; try contradiction; [ | apply rt_err].
    eapply rt_bind; [exact (as_da k c d K) | intros e f He].
    eapply rt_bind; [exact (al_add _ _ _ _ Hv He) | intros e2 f2 He2].
    apply rt_ok, pk_set; assumption.
  Qed.

  Lemma as_multiply x x' (a : state T) (b : state T) :
    szs a b -> returns_too szs (multiply x a) (multiply x' b).
  Proof.
    intros H; unfold multiply.
    eapply rt_foldM; [exact H | | apply as_time_first; exact H].
    intros s s' p q Hs [Hk Hv]; unfold multiply_step. rewrite <- Hk.
    destruct (String.eqb (fst p) "time"); [apply rt_ok; exact Hs | ].
    destruct p as [k v], q as [k' v']; cbn [fst snd] in *; subst k'.
    destruct v as [v | v], v' as [v' | v']; cbn in Hv; try contradiction; [ | apply rt_err].
    apply rt_ok, pk_set; [exact Hs | ].
    cbn. rewrite <- (al_attrs _ _ Hv). apply al_map; exact Hv.
  Qed.

  Lemma as_convert (st : state T) (st' : state T) t t' :
    szs st st' -> szd t t' -> returns_too szd (convert_tendencies st t) (convert_tendencies st' t').
  Proof.
    intros H K; unfold convert_tendencies. eapply rt_mapM; [exact K | ].
    intros [k x] [k' y] [Hk Hv]; cbn [fst snd] in *; subst k'; unfold convert_one.
    rewrite <- (al_attrs _ _ Hv). destruct (dget "units" (attrs x)); [ | apply rt_ok; split; [reflexivity | exact Hv]].
    eapply rt_bind; [exact (pk_getE _ k st st' H) | intros v w Hvw].
    destruct v as [v | v], w as [w | w]; cbn in Hvw; try contradiction; [ | apply rt_err].
    rewrite <- (al_attrs _ _ Hvw). destruct (dget "units" (attrs v)); [ | apply rt_err].
    eapply rt_bind; [exact (al_units _ _ _ Hv) | intros e f He]. apply rt_ok; split; [reflexivity | exact He].
  Qed.

  Lemma as_for_keys f f' ks :
    (forall k, returns_too sz (f k) (f' k)) -> returns_too szs (for_keys (T:=T) f ks) (for_keys (T:=T) f' ks).
  Proof.
    intros H; unfold for_keys. eapply rt_mapM; [exact (F2_refl ks) | ].
    intros k k' <-. eapply rt_bind; [exact (H k) | intros x y Hxy]. apply rt_ok; split; [reflexivity | exact Hxy].
  Qed.

  Definition szh : list (dict (da T)) -> list (dict (da T)) -> Prop := Forall2 szd.

  Lemma F2_nth {X Y} (P : X -> Y -> Prop) l l' n : Forall2 P l l' ->
    match nth_error l n, nth_error l' n with Some a, Some b => P a b | None, None => True | _, _ => False end.
  Proof. intros H; revert n; induction H; intros [ | n]; cbn; auto; apply IHForall2. Qed.

  Lemma F2_rev {X Y} (P : X -> Y -> Prop) l l' : Forall2 P l l' -> Forall2 P (rev l) (rev l').
  Proof. intros H; induction H; cbn; [constructor | apply Forall2_app; auto]. Qed.

  Lemma ah_past h h' n k : szh h h' -> returns_too sz (past h n k) (past h' n k).
  Proof.
    intros H; unfold past; pose proof (F2_nth _ _ _ n (F2_rev _ _ _ H)) as K.
    destruct (nth_error (rev h) n), (nth_error (rev h') n); try contradiction; [ | apply rt_err].
    apply pk_getE; exact K.
  Qed.

  Lemma as_euler (st : state T) (st' : state T) t t' dt :
    szs st st' -> szd t t' -> returns_too szs (step_forward_euler st t dt) (step_forward_euler st' t' dt).
  Proof.
    intros H K; unfold step_forward_euler. rewrite <- (pk_keys _ _ _ K). apply as_for_keys; intros k; unfold euler_one.
    eapply rt_bind; [exact (as_da k st st' H) | intros x y Hx].
    eapply rt_bind; [exact (pk_getE _ k t t' K) | intros z w Hz].
    apply al_add; [exact Hx | apply al_scale; exact Hz].
  Qed.

  Ltac past_ H n k z w Hz := eapply rt_bind; [exact (ah_past _ _ n k H) | intros z w Hz].

  Lemma as_perform n h h' (st : state T) (st' : state T) dt :
    szh h h' -> szs st st' -> returns_too szs (perform_step n h st dt) (perform_step n h' st' dt).
  Proof.
    intros H K; unfold perform_step.
    assert (Hl : length h' = length h) by (clear -H; induction H; cbn; congruence). rewrite Hl.
    assert (Ho : returns_too eq (oldest_keys h) (oldest_keys h')).
    { destruct H as [ | d d' h h' Hd H]; cbn [oldest_keys]; [apply rt_err | apply rt_ok; exact (pk_keys _ _ _ Hd)]. }
    destruct (Nat.min n (length h)) as [ | [ | [ | [ | [ | m]]]]]; try apply rt_err.
    - pose proof (F2_nth _ _ _ 0 (F2_rev _ _ _ H)) as K1.
      destruct (nth_error (rev h) 0), (nth_error (rev h') 0); try contradiction; [ | apply rt_err].
      apply as_euler; assumption.
    - eapply rt_bind; [exact Ho | intros ks ? <-]. apply as_for_keys; intros k; unfold ab2_one.
      eapply rt_bind; [exact (as_da k st st' K) | intros x y Hx].
      past_ H 0 k z1 w1 H1. past_ H 1 k z2 w2 H2.
      eapply rt_bind; [apply al_sub; apply al_lscale; eassumption | intros s s' Hs].
      apply al_add; [exact Hx | apply al_lscale; exact Hs].
    - eapply rt_bind; [exact Ho | intros ks ? <-]. apply as_for_keys; intros k; unfold ab3_one.
      eapply rt_bind; [exact (as_da k st st' K) | intros x y Hx].
      past_ H 0 k z1 w1 H1. past_ H 1 k z2 w2 H2.
      eapply rt_bind; [apply al_sub; apply al_lscale; eassumption | intros s s' Hs].
      past_ H 2 k z3 w3 H3.
      eapply rt_bind; [apply al_add; [exact Hs | apply al_lscale; exact H3] | intros s2 s2' Hs2].
      apply al_add; [exact Hx | apply al_lscale; exact Hs2].
    - eapply rt_bind; [exact Ho | intros ks ? <-]. apply as_for_keys; intros k; unfold ab4_one.
      eapply rt_bind; [exact (as_da k st st' K) | intros x y Hx].
      past_ H 0 k z1 w1 H1. past_ H 1 k z2 w2 H2.
      eapply rt_bind; [apply al_sub; apply al_lscale; eassumption | intros s s' Hs].
      past_ H 2 k z3 w3 H3.
      eapply rt_bind; [apply al_add; [exact Hs | apply al_lscale; exact H3] | intros s2 s2' Hs2].
      past_ H 3 k z4 w4 H4.
      eapply rt_bind; [apply al_sub; [exact Hs2 | apply al_lscale; exact H4] | intros s3 s3' Hs3].
      apply al_add; [exact Hx | apply al_lscale; exact Hs3].
  Qed.

  (** ** TendencyStepper.__call__ *)

  Lemma as_insert cfg dt (st n : state T) (st' n' : state T) d d' :
    szs st st' -> szs n n' -> szd d d' ->
    returns_too szd (insert_differences cfg dt st n d) (insert_differences cfg dt st' n' d').
  Proof.
    intros H K Hd; unfold insert_differences.
    eapply rt_foldM; [exact (F2_refl (ts_out cfg)) | | exact Hd].
    intros s s' p ? Hs <-; unfold insert_one.
    rewrite <- (pk_mem _ _ s s' Hs). destruct (dmem _ s); [apply rt_err | ].
    assert (Hp : returns_too eq (dgetE (fst p) (ts_inp cfg)) (dgetE (fst p) (ts_inp cfg))) by apply rt_refl.
    eapply rt_bind; [exact Hp | intros pp ? <-].
    destruct (p_units pp) as [b | ]; [ | apply rt_err]; cbn [bind].
    eapply rt_bind; [exact (pk_getE _ (fst p) n n' K) | intros v w Hv].
    destruct v as [v | v], w as [w | w]; cbn in Hv; try contradiction; [ | apply rt_err].
    eapply rt_bind; [exact (al_units v w b Hv) | intros e f He].
    eapply rt_bind; [exact (pk_getE _ (fst p) st st' H) | intros v2 w2 Hv2].
    destruct v2 as [v2 | v2], w2 as [w2 | w2]; cbn in Hv2; try contradiction; [ | apply rt_err].
    eapply rt_bind; [exact (al_units v2 w2 b Hv2) | intros e2 f2 He2].
    eapply rt_bind; [exact (al_sub _ _ _ _ He He2) | intros q r Hq].
    apply rt_ok, pk_set; [exact Hs | ].
    apply (al_frame q r); auto.
  Qed.

  Lemma as_finish cfg dt (st : state T) (st' : state T) r r' :
    szs st st' -> returns_too (sized_step g big small) r r' ->
    returns_too (sized_step g big small) (finish_step cfg dt st r) (finish_step cfg dt st' r').
  Proof.
    intros H K; unfold finish_step. eapply rt_bind; [exact K | intros [d n] [d' n'] [Hd Hn]]; cbn [fst snd] in *.
    assert (Hu := as_untouched _ _ _ _ H Hn).
    destruct (ts_tid cfg).
    - eapply rt_bind; [apply as_insert; eassumption | intros e f He]. apply rt_ok; split; assumption.
    - apply rt_ok; split; assumption.
  Qed.
End Da.
