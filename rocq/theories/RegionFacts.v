(** Time steppers work point by point (C98): whatever relation between DataArrays holds point by point is
    kept by every step. *)
From Coq Require Import String List Bool Arith ZArith QArith Lia.
From Verif Require Import Prelude PreludeFacts ArithM NdArray Units DataArrayM SpecDa DaFacts Tracers Components Composite Steppers Basic MainLoop LeapLoop SpecRegion.
Import ListNotations.
Open Scope string_scope.
Open Scope nat_scope.
Open Scope list_scope.

(** If both return, the results are related. *)
Definition oks {X Y} (P : X -> Y -> Prop) (r : res X) (s : res Y) : Prop :=
  forall x y, r = Ok x -> s = Ok y -> P x y.

Lemma oks_ok : forall {X Y} (P : X -> Y -> Prop) x y, P x y -> oks P (Ok x) (Ok y).
Proof. intros X Y P x y H a b Ha Hb. injection Ha as <-. injection Hb as <-. exact H. Qed.

Lemma oks_bind : forall {X Y X' Y'} (P : X -> Y -> Prop) (Q : X' -> Y' -> Prop) r s f g,
  oks P r s -> (forall x y, P x y -> oks Q (f x) (g y)) -> oks Q (let* x := r in f x) (let* y := s in g y).
Proof.
  intros X Y X' Y' P Q r s f g H Hf. destruct r as [x|]; [|intros a b Ha; discriminate Ha].
  destruct s as [y|]; [|intros a b _ Hb; discriminate Hb]. cbn. apply Hf, H; reflexivity.
Qed.

Lemma oks_foldM : forall {X Y S S'} (P : X -> Y -> Prop) (Q : S -> S' -> Prop) f g l l',
  Forall2 P l l' -> (forall s s' x y, Q s s' -> P x y -> oks Q (f s x) (g s' y)) ->
  forall s s', Q s s' -> oks Q (foldM f l s) (foldM g l' s').
Proof.
  intros X Y S S' P Q f g l l' H Hf. induction H as [|x y l l' Hxy H IH]; intros s s' Hs; cbn [foldM]; [apply oks_ok; exact Hs|].
  eapply oks_bind; [apply Hf; eassumption|]. exact IH.
Qed.

Lemma oks_mapM : forall {X Y X' Y'} (P : X -> Y -> Prop) (Q : X' -> Y' -> Prop) f g l l',
  Forall2 P l l' -> (forall x y, P x y -> oks Q (f x) (g y)) -> oks (Forall2 Q) (mapM f l) (mapM g l').
Proof.
  intros X Y X' Y' P Q f g l l' H Hf. induction H as [|x y l l' Hxy H IH]; cbn [mapM]; [apply oks_ok; constructor|].
  eapply oks_bind; [apply Hf; eassumption|]. intros x' y' Hx. eapply oks_bind; [exact IH|]. intros. apply oks_ok. constructor; assumption.
Qed.

(** Dictionaries with the same names and related values. *)
Section Dicts.
  Context {V W : Type} (P : string -> V -> W -> Prop).
  Definition dicts (d : dict V) (e : dict W) : Prop := Forall2 (fun x y => fst x = fst y /\ P (fst x) (snd x) (snd y)) d e.

  Lemma dicts_get : forall d e k, dicts d e ->
    (exists x y, dget k d = Some x /\ dget k e = Some y /\ P k x y) \/ (dget k d = None /\ dget k e = None).
  Proof.
    intros d e k H. induction H as [|[a x] [b y] d e (Hk & Hv) H IH]; cbn in *; [auto|]. subst b.
    destruct (String.eqb k a) eqn:Ek; [|exact IH]. apply String.eqb_eq in Ek. subst a. left. eauto.
  Qed.

  Lemma dicts_getE : forall d e k, dicts d e -> oks (P k) (dgetE k d) (dgetE k e).
  Proof.
    intros d e k H. unfold dgetE. destruct (dicts_get d e k H) as [(x & y & -> & -> & Hp)|(-> & ->)]; [apply oks_ok; exact Hp|].
    intros a b Ha. discriminate Ha.
  Qed.

  Lemma dicts_mem : forall d e k, dicts d e -> dmem k d = dmem k e.
  Proof. intros d e k H. unfold dmem. destruct (dicts_get d e k H) as [(x & y & -> & -> & _)|(-> & ->)]; reflexivity. Qed.

  Lemma dicts_set : forall d e k x y, dicts d e -> P k x y -> dicts (dset k x d) (dset k y e).
  Proof.
    intros d e k x y H Hp. induction H as [|[a v] [b w] d e (Hk & Hv) H IH]; cbn in *; [constructor; auto; constructor|]. subst b.
    destruct (String.eqb k a) eqn:Ek; constructor; cbn; auto. apply String.eqb_eq in Ek. subst a. auto.
  Qed.

  Lemma dicts_update : forall d' e', dicts d' e' -> forall d e, dicts d e -> dicts (dupdate d d') (dupdate e e').
  Proof.
    intros d' e' H. unfold dupdate. induction H as [|[a v] [b w] d' e' (Hk & Hv) H IH]; intros d e Hd; cbn in *; [exact Hd|]. subst b.
    apply IH, dicts_set; assumption.
  Qed.

  Lemma dicts_keys : forall d e, dicts d e -> keys d = keys e.
  Proof. intros d e H. induction H as [|x y d e (Hk & _) H IH]; cbn; [reflexivity|]. rewrite Hk. f_equal. exact IH. Qed.
End Dicts.

(** The functions that time steppers apply to arrays, besides conversions of units. *)
Inductive by_scalar {T : Type} {A : Arith T} : (T -> T) -> Prop :=
| scalar_right x : by_scalar (fun y => amul y x)
| scalar_left x : by_scalar (fun y => amul x y)
| scalar_under x : by_scalar (fun y => adiv y x).

Section Param.
  Context {T : Type} {A : Arith T} {R : Registry}.
  Context (P : string -> da T -> da T -> Prop) (P0 : string -> da T -> da T -> Prop) (P_any : forall k a b, P k a b -> P0 k a b).
  Context (P_attrs : forall k a b, P k a b -> attrs a = attrs b).
  Context (P_units : forall k a b u, P k a b -> oks (P k) (to_units a u) (to_units b u)).
  Context (P_map : forall k g at' a b, by_scalar g -> at' = [] \/ at' = attrs a -> P k a b -> P k (da_map g at' a) (da_map g at' b)).
  Context (P_bin : forall k op a b a' b', op = aadd \/ op = asub -> P k a b -> P k a' b' -> oks (P k) (da_binop op (attrs a) a a') (da_binop op (attrs a) b b')).

  Definition pv (k : string) (v w : pval T) : Prop :=
    match v, w with
    | VDA a, VDA b => P k a b
    | VTime s, VTime t => s = t
    | _, _ => False
    end.
  Definition pv0 (k : string) (v w : pval T) : Prop :=
    match v, w with
    | VDA a, VDA b => P0 k a b
    | VTime s, VTime t => s = t
    | _, _ => False
    end.
  Notation PS := (dicts pv).
  Notation PS0 := (dicts pv0).
  Notation PD := (dicts P).
  Notation PD0 := (dicts P0).

  Ltac pmap := apply P_map; [solve [apply scalar_right | apply scalar_left | apply scalar_under]|solve [left; reflexivity | right; reflexivity]|].

  Lemma par_add : forall k a b a' b', P k a b -> P k a' b' -> oks (P k) (da_add a a') (da_add b b').
  Proof. intros k a b a' b' H H'. unfold da_add. rewrite <- (P_attrs _ _ _ H). apply P_bin; auto. Qed.
  Lemma par_sub : forall k a b a' b', P k a b -> P k a' b' -> oks (P k) (da_sub a a') (da_sub b b').
  Proof. intros k a b a' b' H H'. unfold da_sub. rewrite <- (P_attrs _ _ _ H). apply P_bin; auto. Qed.
  Lemma par_iadd : forall k a b a' b', P k a b -> P k a' b' -> oks (P k) (da_iadd a a') (da_iadd b b').
  Proof.
    intros k a b a' b' H H' x y. unfold da_iadd. destruct (forallb _ (dims a')); [|intro Hx; discriminate Hx].
    destruct (forallb _ (dims b')); [|intros _ Hy; discriminate Hy]. apply par_add; assumption.
  Qed.

  Lemma par_quantities : forall k a b a' b', P k a b -> P k a' b' -> oks (P k) (add_quantities a a') (add_quantities b b').
  Proof.
    intros k a b a' b' H H'. unfold add_quantities. rewrite <- (P_attrs _ _ _ H), <- (P_attrs _ _ _ H').
    destruct (dget "units" (attrs a)) as [u|]; [|intros x y Hx; discriminate Hx]. destruct (dget "units" (attrs a')); [|intros x y Hx; discriminate Hx].
    eapply oks_bind; [apply P_units; exact H'|]. intros x y Hxy. apply par_add; assumption.
  Qed.

  Lemma par_adding : forall d d' e e', PD d e -> PD d' e' -> oks PD (update_dict_by_adding_another d d') (update_dict_by_adding_another e e').
  Proof.
    intros d d' e e' H H'. unfold update_dict_by_adding_another. eapply oks_foldM; [exact H'| |exact H].
    intros s s' [k x] [k' y] Hs (Hk & Hxy). cbn in *. subst k'.
    destruct (dicts_get P s s' k Hs) as [(a & b & -> & -> & Hab)|(-> & ->)]; [|apply oks_ok, dicts_set; assumption].
    eapply oks_bind; [apply par_quantities; eassumption|]. intros. apply oks_ok, dicts_set; assumption.
  Qed.

  Lemma par_state_da : forall st st' k, PS st st' -> oks (P k) (state_da k st) (state_da k st').
  Proof.
    intros st st' k H. unfold state_da. eapply oks_bind; [apply dicts_getE; exact H|].
    intros [a|t] [b|t'] Hv; cbn in Hv; try contradiction; [apply oks_ok; exact Hv|intros x y Hx; discriminate Hx].
  Qed.

  Lemma par_untouched : forall old old' new new', PS old old' -> PS new new' -> PS (copy_untouched old new) (copy_untouched old' new').
  Proof.
    intros old old' new new' H. unfold copy_untouched. revert new new'.
    induction H as [|[k v] [k' w] old old' (Hk & Hv) H IH]; intros new new' Hn; cbn [fold_left fst snd] in *; [exact Hn|]. subst k'.
    apply IH. rewrite <- (dicts_mem pv _ _ k Hn). destruct (dmem k new); [exact Hn|apply dicts_set; assumption].
  Qed.

  Lemma par_time_first : forall st st', PS st st' -> PS (time_first st) (time_first st').
  Proof.
    intros st st' H. unfold time_first. destruct (dicts_get pv st st' "time" H) as [(x & y & -> & -> & Hp)|(-> & ->)]; [|constructor].
    constructor; [cbn; auto|constructor].
  Qed.

  Lemma par_add_states : forall a a' b b', PS a a' -> PS b b' -> oks PS (add_states a b) (add_states a' b').
  Proof.
    intros a a' b b' H H'. unfold add_states. eapply oks_foldM; [exact H| |apply par_time_first; exact H].
    intros s s' [k v] [k' w] Hs (Hk & Hv). cbn in Hk, Hv. subst k'. unfold add_states_step. cbn [fst snd].
    destruct (String.eqb k "time"); [apply oks_ok; exact Hs|]. destruct v as [x|t], w as [y|t']; cbn in Hv; try contradiction; [|intros ? ? X; discriminate X].
    eapply oks_bind; [apply par_state_da; exact H'|]. intros x' y' Hx. eapply oks_bind; [apply par_add; eassumption|]. intros. apply oks_ok, dicts_set; assumption.
  Qed.

  Lemma par_multiply : forall x a a', PS a a' -> oks PS (multiply x a) (multiply x a').
  Proof.
    intros x a a' H. unfold multiply. eapply oks_foldM; [exact H| |apply par_time_first; exact H].
    intros s s' [k v] [k' w] Hs (Hk & Hv). cbn in Hk, Hv. subst k'. unfold multiply_step. cbn [fst snd].
    destruct (String.eqb k "time"); [apply oks_ok; exact Hs|]. destruct v as [y|t], w as [z|t']; cbn in Hv; try contradiction; [|intros ? ? X; discriminate X].
    apply oks_ok, dicts_set; [exact Hs|]. cbn. rewrite <- (P_attrs _ _ _ Hv). pmap. exact Hv.
  Qed.

  Lemma par_convert : forall st st' t t', PS st st' -> PD t t' -> oks PD (convert_tendencies st t) (convert_tendencies st' t').
  Proof.
    intros st st' t t' H H'. unfold convert_tendencies. eapply oks_mapM; [exact H'|].
    intros [k x] [k' y] (Hk & Hxy). cbn in Hk, Hxy. subst k'. unfold convert_one. rewrite <- (P_attrs _ _ _ Hxy).
    destruct (dget "units" (attrs x)); [|apply oks_ok; cbn; auto].
    eapply oks_bind; [apply dicts_getE; exact H|]. intros [a|t0] [b|t1] Hv; cbn in Hv; try contradiction; [|intros ? ? X; discriminate X].
    rewrite <- (P_attrs _ _ _ Hv). destruct (dget "units" (attrs a)) as [us|]; [|intros ? ? X; discriminate X].
    eapply oks_bind; [apply P_units; exact Hxy|]. intros. apply oks_ok. cbn. auto.
  Qed.

  Lemma par_for_keys : forall g g' ks, (forall k, oks (P k) (g k) (g' k)) -> oks PS (for_keys g ks) (for_keys g' ks).
  Proof.
    intros g g' ks H. unfold for_keys. eapply (oks_mapM eq); [induction ks; constructor; auto|].
    intros k k' <-. eapply oks_bind; [apply H|]. intros. apply oks_ok. cbn. auto.
  Qed.

  Lemma par_euler : forall st st' t t' dt, PS st st' -> PD t t' -> oks PS (step_forward_euler st t dt) (step_forward_euler st' t' dt).
  Proof.
    intros st st' t t' dt H H'. unfold step_forward_euler. rewrite <- (dicts_keys P _ _ H'). apply par_for_keys. intros k. unfold euler_one.
    eapply oks_bind; [apply par_state_da; exact H|]. intros x y Hxy. eapply oks_bind; [apply dicts_getE; exact H'|]. intros a b Hab.
    apply par_add; [exact Hxy|]. pmap. exact Hab.
  Qed.

  Lemma Forall2_nth_oks : forall {X Y} (Q : X -> Y -> Prop) l l' n, Forall2 Q l l' ->
    (exists x y, nth_error l n = Some x /\ nth_error l' n = Some y /\ Q x y) \/ (nth_error l n = None /\ nth_error l' n = None).
  Proof.
    intros X Y Q l l' n H. revert n. induction H as [|x y l l' Hxy H IH]; intros [|n]; cbn; [right; auto|right; auto|left; eauto|apply IH].
  Qed.

  Lemma Forall2_rev' : forall {X Y} (Q : X -> Y -> Prop) l l', Forall2 Q l l' -> Forall2 Q (rev l) (rev l').
  Proof.
    intros X Y Q l l' H. induction H as [|x y l l' Hxy H IH]; cbn; [constructor|]. apply Forall2_app; [exact IH|]. constructor; [exact Hxy|constructor].
  Qed.

  Lemma Forall2_len : forall {X Y} (Q : X -> Y -> Prop) l l', Forall2 Q l l' -> length l = length l'.
  Proof. intros X Y Q l l' H. induction H; cbn; auto. Qed.

  Lemma par_past : forall h h' n k, Forall2 PD h h' -> oks (P k) (past h n k) (past h' n k).
  Proof.
    intros h h' n k H. unfold past. destruct (Forall2_nth_oks _ _ _ n (Forall2_rev' _ _ _ H)) as [(x & y & -> & -> & Hxy)|(-> & ->)]; [|intros ? ? X; discriminate X].
    apply dicts_getE. exact Hxy.
  Qed.

  Lemma par_oldest : forall h h', Forall2 PD h h' -> oks eq (oldest_keys h) (oldest_keys h').
  Proof.
    intros h h' H. destruct H as [|x y h h' Hxy H]; cbn; [intros ? ? X; discriminate X|]. apply oks_ok. apply (dicts_keys P). exact Hxy.
  Qed.

  Ltac par := repeat (first
    [ eapply oks_bind; [first [apply par_state_da; eassumption | apply par_past; eassumption |
        apply par_sub; [first [eassumption | pmap; eassumption] | first [eassumption | pmap; eassumption]] |
        apply par_add; [first [eassumption | pmap; eassumption] | first [eassumption | pmap; eassumption]]]|intros ? ? ?]
    | apply par_add; [eassumption | pmap; eassumption] ]).

  Lemma par_perform : forall order h h' st st' dt, Forall2 PD h h' -> PS st st' -> oks PS (perform_step order h st dt) (perform_step order h' st' dt).
  Proof.
    intros order h h' st st' dt Hh H. unfold perform_step. rewrite <- (Forall2_len _ _ _ Hh).
    destruct (Nat.min order (length h)) as [|[|[|[|[|n]]]]]; try (intros ? ? X; discriminate X).
    - destruct (Forall2_nth_oks _ _ _ 0 (Forall2_rev' _ _ _ Hh)) as [(x & y & -> & -> & Hxy)|(-> & ->)]; [|intros ? ? X; discriminate X]. apply par_euler; assumption.
    - eapply oks_bind; [apply par_oldest; exact Hh|]. intros ks ks' <-. apply par_for_keys. intros k. unfold ab2_one, da_lscale. par.
    - eapply oks_bind; [apply par_oldest; exact Hh|]. intros ks ks' <-. apply par_for_keys. intros k. unfold ab3_one, da_lscale. par.
    - eapply oks_bind; [apply par_oldest; exact Hh|]. intros ks ks' <-. apply par_for_keys. intros k. unfold ab4_one, da_lscale. par.
  Qed.

  (** *** Calls *)
  Section Calls.
    Context {U V : Type} (same : U -> V -> Prop).
    Definition loc (p : icaller (T:=T) U) (q : icaller (T:=T) V) : Prop :=
      forall u v st st' dt u' v' t d t' d', same u v -> PS st st' ->
        p u st dt = (u', Ok (t, d)) -> q v st' dt = (v', Ok (t', d')) -> same u' v' /\ PD t t' /\ PD0 d d'.

    Definition abs (x : ab T * U) (y : ab T * V) : Prop :=
      ab_order (fst x) = ab_order (fst y) /\ ab_dt (fst x) = ab_dt (fst y) /\ Forall2 PD (ab_hist (fst x)) (ab_hist (fst y)) /\ same (snd x) (snd y).

    Definition stepping (r : dict (da T) * state T) (r' : dict (da T) * state T) : Prop := PD0 (fst r) (fst r') /\ PS (snd r) (snd r').

    Context (p : icaller (T:=T) U) (q : icaller (T:=T) V) (Hl : loc p q).

    Lemma par_ab : forall x y st st' dt x' y' r r', abs x y -> PS st st' ->
      ab_call p x st dt = (x', Ok r) -> ab_call q y st' dt = (y', Ok r') -> abs x' y' /\ stepping r r'.
    Proof.
      intros [a u] [b v] st st' dt x' y' r r' (H1 & H2 & H3 & H4) Hs Hx Hy. cbn [fst snd] in *. unfold ab_call in *. rewrite <- H2 in Hy.
      destruct (ensure_timestep (ab_dt a) dt); [|discriminate Hx].
      destruct (p u st dt) as [u' [[t d]|]] eqn:Ep; [|discriminate Hx]. destruct (q v st' dt) as [v' [[t' d']|]] eqn:Eq; [|discriminate Hy].
      destruct (Hl _ _ _ _ _ _ _ _ _ _ _ H4 Hs Ep Eq) as (K1 & K2 & K3). cbn [bind fst snd] in *.
      assert (K4 := par_convert _ _ _ _ Hs K2). destruct (convert_tendencies st t) as [c|]; [|discriminate Hx]. destruct (convert_tendencies st' t') as [c'|]; [|discriminate Hy].
      specialize (K4 _ _ eq_refl eq_refl). cbn [bind] in *.
      assert (Hh : Forall2 PD (ab_hist a ++ [c]) (ab_hist b ++ [c'])) by (apply Forall2_app; [exact H3|constructor; [exact K4|constructor]]).
      assert (K5 := par_perform (ab_order a) _ _ _ _ dt Hh Hs). rewrite <- H1, <- (Forall2_len _ _ _ Hh) in Hy.
      destruct (perform_step (ab_order a) (ab_hist a ++ [c]) st dt) as [n|]; [|discriminate Hx]. destruct (perform_step (ab_order a) (ab_hist b ++ [c']) st' dt) as [n'|]; [|discriminate Hy].
      specialize (K5 _ _ eq_refl eq_refl). injection Hx as <- <-. injection Hy as <- <-.
      split; [split; [reflexivity|split; [reflexivity|split; [|exact K1]]]|split; [exact K3|apply par_untouched; assumption]].
      cbn [ab_hist fst]. destruct (Nat.eqb _ _); [|exact Hh]. destruct Hh; [constructor|assumption].
    Qed.

    Definition named_rates (cfg : tstep) : Prop :=
      ts_tid cfg = true -> forall k at' a b, P k a b -> P0 (tendency_name (ts_name cfg) k) (mkda (dims a) (arr a) at') (mkda (dims b) (arr b) at').

    Lemma par_insert : forall cfg, named_rates cfg -> ts_tid cfg = true -> forall dt st st' new new', PS st st' -> PS new new' -> forall d d', PD0 d d' ->
      oks PD0 (insert_differences cfg dt st new d) (insert_differences cfg dt st' new' d').
    Proof.
      intros cfg Hw Ht dt st st' new new' H H' d d' Hd. unfold insert_differences. eapply (oks_foldM eq); [|  |exact Hd].
      { generalize (ts_out cfg). intros l0. induction l0; constructor; auto. }
      intros s s' [name pr] y Hs <-. unfold insert_one. cbn [fst]. rewrite <- (dicts_mem P0 _ _ (tendency_name (ts_name cfg) name) Hs).
      destruct (dmem (tendency_name (ts_name cfg) name) s); [intros ? ? X; discriminate X|].
      eapply (oks_bind eq); [intros ? ? X Y; congruence|]. intros p0 ? <-. eapply (oks_bind eq); [intros ? ? X Y; congruence|]. intros base ? <-.
      eapply oks_bind; [apply dicts_getE; exact H'|]. intros vn vn' Hv. eapply (oks_bind (P name)).
      { destruct vn, vn'; cbn in Hv; try contradiction; [apply P_units; exact Hv|intros ? ? X; discriminate X]. }
      intros n n' Hn. eapply oks_bind; [apply dicts_getE; exact H|]. intros vo vo' Hvo. eapply (oks_bind (P name)).
      { destruct vo, vo'; cbn in Hvo; try contradiction; [apply P_units; exact Hvo|intros ? ? X; discriminate X]. }
      intros o o' Ho. eapply oks_bind; [apply par_sub; eassumption|]. intros e e' He. apply oks_ok, dicts_set; [exact Hs|].
      assert (E2 : P name (da_scale (da_divs e (total_seconds dt)) (total_seconds 1000000)) (da_scale (da_divs e' (total_seconds dt)) (total_seconds 1000000))) by (pmap; pmap; exact He).
      apply (Hw Ht). exact E2.
    Qed.

    Lemma par_finish : forall cfg, named_rates cfg -> forall dt st st' r r', PS st st' -> oks stepping r r' -> oks stepping (finish_step cfg dt st r) (finish_step cfg dt st' r').
    Proof.
      intros cfg Hw dt st st' r r' H Hr. unfold finish_step. eapply oks_bind; [exact Hr|]. intros [d n] [d' n'] (K1 & K2). cbn [fst snd] in *. cbv zeta.
      assert (K3 : PS (copy_untouched st n) (copy_untouched st' n')) by (apply par_untouched; assumption).
      eapply (oks_bind PD0).
      { destruct (ts_tid cfg) eqn:Ht; [apply par_insert; assumption|apply oks_ok; exact K1]. }
      intros x y Hxy. apply oks_ok. split; assumption.
    Qed.

    Lemma par_adams_bashforth : forall cfg, named_rates cfg -> forall x y st st' dt x' y' r r', abs x y -> PS st st' ->
      adams_bashforth cfg p x st dt = (x', Ok r) -> adams_bashforth cfg q y st' dt = (y', Ok r') -> abs x' y' /\ stepping r r'.
    Proof.
      intros cfg Hw x y st st' dt x' y' r r' Hxy Hs Hx Hy. unfold adams_bashforth in *.
      destruct (ab_call p x st dt) as [x1 rx] eqn:Ex. destruct (ab_call q y st' dt) as [y1 ry] eqn:Ey. injection Hx as <- Hx. injection Hy as <- Hy.
      destruct rx as [rx|]; [|discriminate Hx]. destruct ry as [ry|]; [|discriminate Hy].
      destruct (par_ab _ _ _ _ _ _ _ _ _ Hxy Hs Ex Ey) as (K1 & K2). split; [exact K1|].
      exact (par_finish cfg Hw dt _ _ _ _ Hs (oks_ok _ _ _ K2) _ _ Hx Hy).
    Qed.

    Lemma par_inner : forall x y st st' dt x' y' r r', abs x y -> PS st st' ->
      inner_euler p x st dt = (x', Ok r) -> inner_euler q y st' dt = (y', Ok r') -> abs x' y' /\ stepping r r'.
    Proof.
      intros x y st st' dt x' y' r r' Hxy Hs Hx Hy. unfold inner_euler in *.
      destruct (ab_call p x st dt) as [x1 rx] eqn:Ex. destruct (ab_call q y st' dt) as [y1 ry] eqn:Ey. injection Hx as <- Hx. injection Hy as <- Hy.
      destruct rx as [rx|]; [|discriminate Hx]. destruct ry as [ry|]; [|discriminate Hy]. cbn in Hx, Hy. injection Hx as <-. injection Hy as <-.
      destruct (par_ab _ _ _ _ _ _ _ _ _ Hxy Hs Ex Ey) as (K1 & K2 & K3). split; [exact K1|]. split; [exact K2|]. apply par_untouched; assumption.
    Qed.

    Lemma par_rk2 : forall x y st st' dt x' y' r r', abs x y -> PS st st' ->
      rk2 p x st dt = (x', Ok r) -> rk2 q y st' dt = (y', Ok r') -> abs x' y' /\ stepping r r'.
    Proof.
      intros x y st st' dt x' y' r r' Hxy Hs Hx Hy. unfold rk2 in *.
      destruct (inner_euler p x st dt) as [x1 [[d n]|]] eqn:Ex; [|discriminate Hx]. destruct (inner_euler q y st' dt) as [y1 [[d' n']|]] eqn:Ey; [|discriminate Hy].
      destruct (par_inner _ _ _ _ _ _ _ _ _ Hxy Hs Ex Ey) as (K1 & K2 & K3). cbn [fst snd] in *.
      destruct (inner_euler p x1 n dt) as [x2 [[d2 n2]|]] eqn:Ex2; [|discriminate Hx]. destruct (inner_euler q y1 n' dt) as [y2 [[d2' n2']|]] eqn:Ey2; [|discriminate Hy].
      destruct (par_inner _ _ _ _ _ _ _ _ _ K1 K3 Ex2 Ey2) as (K4 & K5 & K6). cbn [fst snd bind] in *. injection Hx as <- Hx. injection Hy as <- Hy.
      split; [exact K4|]. enough (K0 : oks stepping (let* sum := add_states st n2 in let* out := multiply (aofQ (1 # 2)) sum in Ok (d, out)) (let* sum := add_states st' n2' in let* out := multiply (aofQ (1 # 2)) sum in Ok (d', out))) by exact (K0 _ _ Hx Hy).
      eapply oks_bind; [apply par_add_states; eassumption|]. intros s s' Hss. eapply oks_bind; [apply par_multiply; exact Hss|]. intros o o' Ho. apply oks_ok. split; assumption.
    Qed.

    Lemma par_rk3 : forall x y st st' dt x' y' r r', abs x y -> PS st st' ->
      rk3 p x st dt = (x', Ok r) -> rk3 q y st' dt = (y', Ok r') -> abs x' y' /\ stepping r r'.
    Proof.
      intros x y st st' dt x' y' r r' Hxy Hs Hx Hy. unfold rk3 in *.
      destruct (inner_euler p x st dt) as [x1 [[d n]|]] eqn:Ex; [|discriminate Hx]. destruct (inner_euler q y st' dt) as [y1 [[d' n']|]] eqn:Ey; [|discriminate Hy].
      destruct (par_inner _ _ _ _ _ _ _ _ _ Hxy Hs Ex Ey) as (K1 & K2 & K3). cbn [fst snd] in *.
      destruct (inner_euler p x1 n dt) as [x2 [[d2 n2]|]] eqn:Ex2; [|discriminate Hx]. destruct (inner_euler q y1 n' dt) as [y2 [[d2' n2']|]] eqn:Ey2; [|discriminate Hy].
      destruct (par_inner _ _ _ _ _ _ _ _ _ K1 K3 Ex2 Ey2) as (K4 & K5 & K6). cbn [fst snd bind] in *.
      assert (M1 := par_multiply (aofQ (3 # 4)) _ _ Hs). destruct (multiply (aofQ (3 # 4)) st) as [m1|]; [|discriminate Hx]. destruct (multiply (aofQ (3 # 4)) st') as [m1'|]; [|discriminate Hy].
      specialize (M1 _ _ eq_refl eq_refl).
      assert (M2 := par_multiply (aofQ (1 # 4)) _ _ K6). destruct (multiply (aofQ (1 # 4)) n2) as [m2|]; [|discriminate Hx]. destruct (multiply (aofQ (1 # 4)) n2') as [m2'|]; [|discriminate Hy].
      specialize (M2 _ _ eq_refl eq_refl).
      cbn [bind] in Hx, Hy. assert (K7 := par_add_states _ _ _ _ M1 M2). destruct (add_states m1 m2) as [m|]; [|discriminate Hx]. destruct (add_states m1' m2') as [m'|]; [|discriminate Hy].
      specialize (K7 _ _ eq_refl eq_refl).
      destruct (inner_euler p x2 m dt) as [x3 [[d3 n3]|]] eqn:Ex3; [|discriminate Hx]. destruct (inner_euler q y2 m' dt) as [y3 [[d3' n3']|]] eqn:Ey3; [|discriminate Hy].
      destruct (par_inner _ _ _ _ _ _ _ _ _ K4 K7 Ex3 Ey3) as (K8 & K9 & K10). cbn [fst snd bind] in *. injection Hx as <- Hx. injection Hy as <- Hy.
      split; [exact K8|]. enough (K0 : oks stepping (let* a := multiply (aofQ (1 # 3)) st in let* b := multiply (aofQ (2 # 3)) n3 in let* out := add_states a b in Ok (d, out))
        (let* a := multiply (aofQ (1 # 3)) st' in let* b := multiply (aofQ (2 # 3)) n3' in let* out := add_states a b in Ok (d', out))) by exact (K0 _ _ Hx Hy).
      eapply oks_bind; [apply par_multiply; exact Hs|]. intros a a' Ha. eapply oks_bind; [apply par_multiply; exact K10|]. intros b b' Hb.
      eapply oks_bind; [apply par_add_states; eassumption|]. intros o o' Ho. apply oks_ok. split; assumption.
    Qed.

    Definition rks (x : rk T * U) (y : rk T * V) : Prop :=
      rk_stages (fst x) = rk_stages (fst y) /\ abs (rk_euler (fst x), snd x) (rk_euler (fst y), snd y).

    Lemma par_ssp_rk : forall cfg, named_rates cfg -> forall x y st st' dt x' y' r r', rks x y -> PS st st' ->
      ssp_rk cfg p x st dt = (x', Ok r) -> ssp_rk cfg q y st' dt = (y', Ok r') -> rks x' y' /\ stepping r r'.
    Proof.
      intros cfg Hw [k u] [k' v] st st' dt x' y' r r' (H1 & H2) Hs Hx Hy. cbn [fst snd] in *. unfold ssp_rk in *. rewrite <- H1 in Hy.
      assert (G : forall a1 u1 rx a2 v2 ry, (if Nat.eqb (rk_stages k) 2 then rk2 else rk3) p (rk_euler k, u) st dt = ((a1, u1), Ok rx) ->
        (if Nat.eqb (rk_stages k) 2 then rk2 else rk3) q (rk_euler k', v) st' dt = ((a2, v2), Ok ry) -> abs (a1, u1) (a2, v2) /\ stepping rx ry).
      { intros a1 u1 rx a2 v2 ry X Y. destruct (Nat.eqb (rk_stages k) 2); [eapply par_rk2; eassumption|eapply par_rk3; eassumption]. }
      destruct ((if Nat.eqb (rk_stages k) 2 then rk2 else rk3) p (rk_euler k, u) st dt) as [[a1 u1] rx].
      destruct ((if Nat.eqb (rk_stages k) 2 then rk2 else rk3) q (rk_euler k', v) st' dt) as [[a2 v2] ry].
      injection Hx as <- Hx. injection Hy as <- Hy. destruct rx as [rx|]; [|discriminate Hx]. destruct ry as [ry|]; [|discriminate Hy].
      destruct (G _ _ _ _ _ _ eq_refl eq_refl) as (K1 & K2). split; [split; [reflexivity|exact K1]|].
      exact (par_finish cfg Hw dt _ _ _ _ Hs (oks_ok _ _ _ K2) _ _ Hx Hy).
    Qed.

    Definition leaps (x : leap T * U) (y : leap T * V) : Prop :=
      lf_nu (fst x) = lf_nu (fst y) /\ lf_alpha (fst x) = lf_alpha (fst y) /\ lf_dt (fst x) = lf_dt (fst y) /\
      match lf_old (fst x), lf_old (fst y) with Some o, Some o' => PS o o' | None, None => True | _, _ => False end /\ same (snd x) (snd y).

    Lemma par_leap_one : forall sec nu old old' st st' t t' k, PS old old' -> PS st st' -> PD t t' ->
      oks (fun r r' => P k (fst r) (fst r') /\ P k (snd r) (snd r')) (leap_one sec nu old st t k) (leap_one sec nu old' st' t' k).
    Proof.
      intros sec nu old old' st st' t t' k Ho Hs Ht. unfold leap_one, da_lscale, da_scale.
      eapply oks_bind; [apply par_state_da; exact Ho|]. intros o o' H1. eapply oks_bind; [apply dicts_getE; exact Ht|]. intros x x' H2.
      eapply oks_bind; [apply par_add; [exact H1|pmap; pmap; exact H2]|]. intros n n' H3. eapply oks_bind; [apply par_state_da; exact Hs|]. intros y y' H4.
      eapply oks_bind; [apply par_sub; [exact H1|pmap; exact H4]|]. intros w w' H5. eapply oks_bind; [apply par_add; [exact H5|exact H3]|]. intros z z' H6.
      apply oks_ok. split; [exact H3|pmap; exact H6].
    Qed.

    Lemma par_leap_loop : forall sec nu alpha old old' t t', PS old old' -> PD t t' -> forall ks st st' new new', PS st st' -> PS new new' ->
      forall s1 s2 n1 n2, leap_loop sec nu alpha old t ks st new = (s1, Ok n1) -> leap_loop sec nu alpha old' t' ks st' new' = (s2, Ok n2) -> PS s1 s2 /\ PS n1 n2.
    Proof.
      intros sec nu alpha old old' t t' Ho Ht. induction ks as [|k ks IH]; intros st st' new new' Hs Hn s1 s2 n1 n2 Hx Hy; cbn [leap_loop] in Hx, Hy.
      - injection Hx as <- <-. injection Hy as <- <-. auto.
      - assert (K := par_leap_one sec nu _ _ _ _ _ _ k Ho Hs Ht).
        destruct (leap_one sec nu old st t k) as [[n i]|]; [|discriminate Hx]. destruct (leap_one sec nu old' st' t' k) as [[n' i']|]; [|discriminate Hy].
        destruct (K _ _ eq_refl eq_refl) as (K1 & K2). cbn [fst snd bind] in *.
        assert (K3 := par_state_da _ _ k Hs). destruct (state_da k st) as [x|]; [|discriminate Hx]. destruct (state_da k st') as [x'|]; [|discriminate Hy].
        specialize (K3 _ _ eq_refl eq_refl). cbn [bind] in *.
        assert (K4 := par_iadd _ _ _ _ _ K3 (P_map k (fun y => amul alpha y) [] _ _ (scalar_left alpha) (or_introl eq_refl) K2)). fold (da_lscale alpha i) in K4. fold (da_lscale alpha i') in K4.
        destruct (da_iadd x (da_lscale alpha i)) as [y|]; [|discriminate Hx]. destruct (da_iadd x' (da_lscale alpha i')) as [y'|]; [|discriminate Hy].
        specialize (K4 _ _ eq_refl eq_refl). cbn [bind] in *.
        assert (K5 : oks (P k) (if aeqb alpha (aofQ (1 # 1)) then Ok n else da_iadd n (da_lscale (asub alpha (aofQ (1 # 1))) i))
          (if aeqb alpha (aofQ (1 # 1)) then Ok n' else da_iadd n' (da_lscale (asub alpha (aofQ (1 # 1))) i'))).
        { destruct (aeqb alpha (aofQ (1 # 1))); [apply oks_ok; exact K1|]. apply par_iadd; [exact K1|pmap; exact K2]. }
        destruct (if aeqb alpha (aofQ (1 # 1)) then Ok n else _) as [m|]; [|discriminate Hx].
        destruct (if aeqb alpha (aofQ (1 # 1)) then Ok n' else _) as [m'|]; [|discriminate Hy].
        specialize (K5 _ _ eq_refl eq_refl).
        refine (IH _ _ _ _ _ _ _ _ _ _ Hx Hy); apply dicts_set; assumption.
    Qed.

    Lemma par_leapfrog : forall cfg, named_rates cfg -> forall x y st st' dt x' y' s1 s2 r r', leaps x y -> PS st st' ->
      leapfrog cfg p x st dt = (x', s1, Ok r) -> leapfrog cfg q y st' dt = (y', s2, Ok r') -> leaps x' y' /\ PS s1 s2 /\ stepping r r'.
    Proof.
      intros cfg Hw [a u] [b v] st st' dt x' y' s1 s2 r r' (H1 & H2 & H3 & H4 & H5) Hs Hx Hy. cbn [fst snd] in *. unfold leapfrog, leap_call in *. rewrite <- H1, <- H2, <- H3 in Hy.
      destruct (ensure_timestep (lf_dt a) dt); [|discriminate Hx].
      destruct (p u st dt) as [u' [[t d]|]] eqn:Ep; [|discriminate Hx]. destruct (q v st' dt) as [v' [[t' d']|]] eqn:Eq; [|discriminate Hy].
      destruct (Hl _ _ _ _ _ _ _ _ _ _ _ H5 Hs Ep Eq) as (K1 & K2 & K3). cbn [bind fst snd] in *.
      assert (K4 := par_convert _ _ _ _ Hs K2). destruct (convert_tendencies st t) as [c|]; [|discriminate Hx]. destruct (convert_tendencies st' t') as [c'|]; [|discriminate Hy].
      specialize (K4 _ _ eq_refl eq_refl). cbn [bind] in *.
      assert (Fin : forall z1 z2 m1 m2, PS z1 z2 -> PS m1 m2 ->
        (mkleap (lf_nu a) (lf_alpha a) (Some dt) (Some z1), u', z1, finish_step cfg dt z1 (Ok (d, copy_untouched z1 m1))) = (x', s1, Ok r) ->
        (mkleap (lf_nu a) (lf_alpha a) (Some dt) (Some z2), v', z2, finish_step cfg dt z2 (Ok (d', copy_untouched z2 m2))) = (y', s2, Ok r') ->
        leaps x' y' /\ PS s1 s2 /\ stepping r r').
      { intros z1 z2 m1 m2 K6 K7 X Y. injection X as <- <- X. injection Y as <- <- Y.
        split; [repeat (split; [first [exact H1|exact H2|reflexivity|exact K6]|]); exact K1|]. split; [exact K6|].
        refine (par_finish cfg Hw dt _ _ (Ok (d, copy_untouched z1 m1)) (Ok (d', copy_untouched z2 m2)) K6 _ _ _ X Y). apply oks_ok. split; [exact K3|]. apply par_untouched; assumption. }
      destruct (lf_old a) as [o|], (lf_old b) as [o'|]; try contradiction.
      - rewrite <- (dicts_keys P _ _ K4) in Hy.
        assert (K5 := par_leap_loop (total_seconds dt) (lf_nu a) (lf_alpha a) _ _ _ _ H4 K4 (keys c) _ _ [] [] Hs (Forall2_nil _)).
        destruct (leap_loop (total_seconds dt) (lf_nu a) (lf_alpha a) o c (keys c) st []) as [z1 [m1|]]; [|injection Hx as _ _ Hx; discriminate Hx].
        destruct (leap_loop (total_seconds dt) (lf_nu a) (lf_alpha a) o' c' (keys c) st' []) as [z2 [m2|]]; [|injection Hy as _ _ Hy; discriminate Hy].
        destruct (K5 _ _ _ _ eq_refl eq_refl) as (K6 & K7). exact (Fin _ _ _ _ K6 K7 Hx Hy).
      - assert (K5 := par_euler _ _ _ _ dt Hs K4).
        destruct (step_forward_euler st c dt) as [m1|]; [|injection Hx as _ _ Hx; discriminate Hx]. destruct (step_forward_euler st' c' dt) as [m2|]; [|injection Hy as _ _ Hy; discriminate Hy].
        exact (Fin _ _ _ _ Hs (K5 _ _ eq_refl eq_refl) Hx Hy).
    Qed.

    (** *** Composites *)
    Lemma par_composite : forall cs cs', Forall2 (fun c c' => loc (fun u st _ => c u st) (fun v st _ => c' v st)) cs cs' ->
      forall u v st st' t t' d d' u' v' r r', same u v -> PS st st' -> PD t t' -> PD0 d d' ->
      composite_loop cs u st t d = (u', Ok r) -> composite_loop cs' v st' t' d' = (v', Ok r') ->
      same u' v' /\ PD (fst r) (fst r') /\ PD0 (snd r) (snd r').
    Proof.
      intros cs cs' H. induction H as [|c c' cs cs' Hc H IH]; intros u v st st' t t' d d' u' v' r r' Hu Hs Ht Hd Hx Hy; cbn [composite_loop] in Hx, Hy.
      - injection Hx as <- <-. injection Hy as <- <-. auto.
      - destruct (c u st) as [u1 [[t1 d1]|]] eqn:Ec; [|discriminate Hx]. destruct (c' v st') as [v1 [[t2 d2]|]] eqn:Ec'; [|discriminate Hy].
        destruct (Hc u v st st' 0%Z _ _ _ _ _ _ Hu Hs Ec Ec') as (K1 & K2 & K3). cbn [bind fst snd] in *.
        assert (K4 := par_adding _ _ _ _ Ht K2). destruct (update_dict_by_adding_another t t1) as [t3|]; [|discriminate Hx].
        destruct (update_dict_by_adding_another t' t2) as [t4|]; [|discriminate Hy]. specialize (K4 _ _ eq_refl eq_refl). cbn [bind] in *.
        refine (IH _ _ _ _ _ _ _ _ _ _ _ _ K1 Hs K4 _ Hx Hy). apply dicts_update; assumption.
    Qed.

    (** *** The main loop *)
    Definition loc_step (f : process (T:=T) U) (g : process (T:=T) V) : Prop :=
      forall u v st st' dt u' v' d n d' n', same u v -> PS st st' ->
        f u st dt = (u', Ok (d, n)) -> g v st' dt = (v', Ok (d', n')) -> same u' v' /\ PD0 d d' /\ PS n n'.

    Lemma par_processes : forall fs gs, Forall2 loc_step fs gs -> forall u v st st' dt u' v' ds n ds' n', same u v -> PS st st' ->
      run_processes fs u st dt = (u', Ok (ds, n)) -> run_processes gs v st' dt = (v', Ok (ds', n')) -> same u' v' /\ Forall2 PD0 ds ds' /\ PS n n'.
    Proof.
      intros fs gs H. induction H as [|f g fs gs Hf H IH]; intros u v st st' dt u' v' ds n ds' n' Hu Hs Hx Hy; cbn [run_processes] in Hx, Hy.
      - injection Hx as <- <- <-. injection Hy as <- <- <-. auto.
      - destruct (f u st dt) as [u1 [[d1 n1]|]] eqn:Ef; [|discriminate Hx]. destruct (g v st' dt) as [v1 [[d2 n2]|]] eqn:Eg; [|discriminate Hy].
        destruct (Hf _ _ _ _ _ _ _ _ _ _ _ Hu Hs Ef Eg) as (K1 & K2 & K3).
        destruct (run_processes fs u1 n1 dt) as [u2 [[e1 m1]|]] eqn:Er; [|discriminate Hx]. destruct (run_processes gs v1 n2 dt) as [v2 [[e2 m2]|]] eqn:Er'; [|discriminate Hy].
        destruct (IH _ _ _ _ _ _ _ _ _ _ _ K1 K3 Er Er') as (K4 & K5 & K6). cbn in Hx, Hy. injection Hx as <- <- <-. injection Hy as <- <- <-. auto.
    Qed.

    Lemma ps0 : forall st st', PS st st' -> PS0 st st'.
    Proof.
      intros st st' H. induction H as [|x y st st' (Hk & Hv) H IH]; constructor; [|exact IH]. split; [exact Hk|].
      destruct (snd x), (snd y); cbn in *; try contradiction; [|exact Hv]. eapply P_any; exact Hv.
    Qed.

    Lemma par_update_all : forall ds ds', Forall2 PD0 ds ds' -> forall st st', PS0 st st' -> PS0 (update_all ds st) (update_all ds' st').
    Proof.
      intros ds ds' H. unfold update_all. induction H as [|d d' ds ds' Hd H IH]; intros st st' Hs; cbn [fold_left]; [exact Hs|].
      apply IH, dicts_update; [|exact Hs]. unfold as_state. clear - Hd. induction Hd as [|x y d d' (Hk & Hv) Hd IH]; cbn; constructor; auto.
    Qed.

    Lemma par_time : forall st st', PS0 st st' -> oks eq (state_time st) (state_time st').
    Proof.
      intros st st' H. unfold state_time. eapply oks_bind; [apply dicts_getE; exact H|]. intros [a|t] [b|t'] Hv; cbn in Hv; try contradiction; [intros ? ? X; discriminate X|].
      apply oks_ok. exact Hv.
    Qed.

    Lemma par_main_loop : forall fs gs (store : U -> state T -> U * res unit) (store' : V -> state T -> V * res unit), Forall2 loc_step fs gs ->
      (forall u v st st' u' v', same u v -> PS0 st st' -> store u st = (u', Ok tt) -> store' v st' = (v', Ok tt) -> same u' v') ->
      forall n stop dt u v st st' u' v' log log' e e', same u v -> PS st st' ->
      main_loop n fs store stop dt u st = ((u', log), Some (Ok e)) -> main_loop n gs store' stop dt v st' = ((v', log'), Some (Ok e')) ->
      same u' v' /\ Forall2 PS0 log log' /\ PS e e'.
    Proof.
      intros fs gs store store' Hf Hst. induction n as [|n IH]; intros stop dt u v st st' u' v' log log' e e' Hu Hs Hx Hy; [discriminate Hx|].
      cbn [main_loop] in Hx, Hy. assert (K := par_time _ _ (ps0 _ _ Hs)). destruct (state_time st) as [t|]; [|discriminate Hx]. destruct (state_time st') as [t'|]; [|discriminate Hy].
      specialize (K _ _ eq_refl eq_refl). subst t'. destruct (t <? stop)%Z.
      2: { injection Hx as <- <- <-. injection Hy as <- <- <-. auto. }
      destruct (run_processes fs u st dt) as [u1 [[ds m]|]] eqn:Ef; [|discriminate Hx]. destruct (run_processes gs v st' dt) as [v1 [[ds' m']|]] eqn:Eg; [|discriminate Hy].
      destruct (par_processes _ _ Hf _ _ _ _ _ _ _ _ _ _ _ Hu Hs Ef Eg) as (K1 & K2 & K3). cbv zeta in Hx, Hy.
      assert (K4 := par_update_all _ _ K2 _ _ (ps0 _ _ Hs)). set (w := update_all ds st) in *. set (w' := update_all ds' st') in *.
      destruct (store u1 w) as [u2 [[]|]] eqn:Es; [|discriminate Hx]. destruct (store' v1 w') as [v2 [[]|]] eqn:Es'; [|discriminate Hy].
      assert (K5 := Hst _ _ _ _ _ _ K1 K4 Es Es'). assert (K6 := par_time _ _ K4). destruct (state_time w) as [t1|]; [|discriminate Hx]. destruct (state_time w') as [t1'|]; [|discriminate Hy].
      specialize (K6 _ _ eq_refl eq_refl). subst t1'.
      destruct (main_loop n fs store stop dt u2 (dset "time" (VTime (t1 + dt)) m)) as [[u3 l] rr] eqn:El. destruct (main_loop n gs store' stop dt v2 (dset "time" (VTime (t1 + dt)) m')) as [[v3 l'] rr'] eqn:El'.
      injection Hx as <- <- ->. injection Hy as <- <- ->.
      destruct (IH _ _ _ _ _ _ _ _ _ _ _ _ K5 (dicts_set pv _ _ "time" (VTime (t1 + dt)) (VTime (t1 + dt)) K3 eq_refl) El El') as (K7 & K8 & K9).
      split; [exact K7|]. split; [constructor; assumption|exact K9].
    Qed.
  End Calls.
End Param.
