(** C102: component calls. *)
From Coq Require Import String List Bool Arith ZArith QArith.
From Verif Require Import Prelude PreludeFacts ArithM NdArray Units DataArrayM Wildcard GetNp Restore InitNp Tracers Components SpecFrame FrameFacts.
Import ListNotations.
Open Scope string_scope.
Open Scope nat_scope.
Open Scope list_scope.

Lemma so_refl {A} (r : res A) : same_outcome eq r r.
Proof. destruct r; reflexivity. Qed.
Lemma so_eq {A} (r r' : res A) : r = r' -> same_outcome eq r r'.
Proof. intros ->; apply so_refl. Qed.

Section Calls.
  Context {T T' : Type} {A : Arith T} {A' : Arith T'} {R : Registry}.
  Local Notation alarr := (alike_array (T:=T) (T':=T')).

  Lemma ar_reshape (a : nd T) (b : nd T') sh : alarr a b -> same_outcome alarr (reshape a sh) (reshape b sh).
  Proof. unfold alike_array; intros H; unfold reshape; rewrite H. destruct (Nat.eqb _ _); reflexivity. Qed.

  Lemma ar_transpose (a : nd T) (b : nd T') ax : alarr a b -> same_outcome alarr (transpose a ax) (transpose b ax).
  Proof. unfold alike_array; intros H; unfold transpose; rewrite H. destruct (is_axes _ _); [ | reflexivity]. cbn. reflexivity. Qed.

  Lemma ar_broadcast (a : nd T) (b : nd T') sh : alarr a b -> same_outcome alarr (broadcast_to a sh) (broadcast_to b sh).
  Proof. unfold alike_array; intros H; unfold broadcast_to; rewrite H. destruct (bcast_ok _ _); reflexivity. Qed.

  Lemma ar_flatten (a : nd T) (b : nd T') i j : alarr a b -> same_outcome alarr (flatten_wildcard_dims a i j) (flatten_wildcard_dims b i j).
  Proof.
    intros H; unfold flatten_wildcard_dims. unfold alike_array in H; rewrite <- H.
    destruct (Nat.ltb _ _); [reflexivity | ]. destruct (Nat.ltb j i); [reflexivity | ].
    destruct (Nat.eqb i j); apply ar_reshape; exact H.
  Qed.

  Lemma ar_expand (a : nd T) (b : nd T') sh : alarr a b -> same_outcome alarr (expand_array_wildcard_dims a sh) (expand_array_wildcard_dims b sh).
  Proof.
    intros H; unfold expand_array_wildcard_dims; pose proof (ar_reshape a b sh H) as K.
    destruct (reshape a sh), (reshape b sh); cbn in *; auto; contradiction.
  Qed.

  Lemma ar_numpy (a : da T) (b : da T') od dl : alike a b -> same_outcome alarr (get_numpy_array a od dl) (get_numpy_array b od dl).
  Proof.
    intros (H1 & H2 & _); unfold get_numpy_array. rewrite <- H1, <- H2.
    destruct (Nat.eqb (length (shape (arr a))) 0 && Nat.eqb (length od) 0); [exact H2 | ].
    destruct (list_eqb (dims a) od); [exact H2 | ].
    remember (filter (fun d => negb (mem d (dims a))) od) as ms eqn:Ems; clear Ems.
    destruct (negb (Nat.eqb (length ms) 0)).
    - eapply so_bind; [exact (ar_reshape _ _ _ H2) | intros v w Hv].
      eapply so_bind with (P := alarr).
      + destruct (list_eqb _ _); [exact Hv | ].
        eapply so_bind; [apply so_refl | intros ax ? <-]. apply ar_transpose; exact Hv.
      + intros x y Hx. pose proof Hx as Hs; unfold alike_array in Hs; rewrite <- Hs.
        destruct (nats_eqb _ _); [exact Hx | apply ar_broadcast; exact Hx].
    - eapply so_bind with (P := alarr); [exact H2 | intros v w Hv].
      eapply so_bind with (P := alarr).
      + destruct (list_eqb _ _); [exact Hv | ].
        eapply so_bind; [apply so_refl | intros ax ? <-]. apply ar_transpose; exact Hv.
      + intros x y Hx. exact Hx.
  Qed.

  Lemma ar_get (v : pval T) (w : pval T') u od dl : alike_val v w -> same_outcome alarr (get_array v u od dl) (get_array w u od dl).
  Proof.
    destruct v as [a | s], w as [b | t]; cbn [alike_val]; try contradiction; [ | reflexivity].
    intros H; unfold get_array. rewrite <- (al_attrs a b H).
    destruct (negb (dmem "units" (attrs a))); [reflexivity | ].
    eapply so_bind with (P := alike).
    - pose proof (al_units a b u H) as K.
      destruct (to_units a u) as [x | e], (to_units b u) as [y | f]; cbn in K; try contradiction; [exact K | subst f].
      destruct e; reflexivity.
    - intros x y Hx. apply ar_numpy; exact Hx.
  Qed.

  Lemma ar_wildcard (st : state T) (st' : state T') pd :
    alike_state st st' -> get_wildcard_matches_and_dim_lengths st pd = get_wildcard_matches_and_dim_lengths st' pd.
  Proof.
    intros H; unfold get_wildcard_matches_and_dim_lengths.
    assert (K : forall l acc, foldM (wildcard_step st) l acc = foldM (wildcard_step st') l acc).
    { induction l as [ | np l IH]; intros acc; cbn [foldM]; [reflexivity | ].
      assert (Hs : wildcard_step st acc np = wildcard_step st' acc np).
      { unfold wildcard_step. destruct (dims_and_units (snd np)) as [[d u] | e]; cbn [bind]; [ | reflexivity].
        pose proof (sk_getE _ (fst np) st st' H) as G.
        destruct (dgetE (fst np) st) as [v | e], (dgetE (fst np) st') as [w | f]; cbn in G; try contradiction; [ | subst f; reflexivity].
        cbn [bind]. destruct v as [a | s], w as [b | t]; cbn in G; try contradiction; [ | reflexivity].
        destruct G as (G1 & G2 & _). rewrite <- G1, <- G2. reflexivity. }
      rewrite <- Hs. destruct (wildcard_step st acc np); cbn [bind]; [apply IH | reflexivity]. }
    rewrite K. reflexivity.
  Qed.

  Lemma ar_extract (st : state T) (st' : state T') pd :
    alike_state st st' -> same_outcome alike_arrays (get_numpy_arrays_with_properties st pd) (get_numpy_arrays_with_properties st' pd).
  Proof.
    intros H; unfold get_numpy_arrays_with_properties. rewrite <- (ar_wildcard st st' pd H).
    eapply so_bind; [apply so_refl | intros [wn dl] ? <-].
    eapply so_foldM; [exact (Forall2_eq_refl pd) | | constructor].
    intros s s' np ? Hs <-; unfold extract_step.
    eapply so_bind; [apply so_refl | intros [ds u] ? <-].
    eapply so_bind; [exact (sk_getE _ (fst np) st st' H) | intros v w Hv].
    eapply so_bind with (P := alarr).
    - destruct (index_of "*" ds) as [i | ]; [ | apply ar_get; exact Hv].
      destruct wn as [wn | ]; [ | reflexivity].
      eapply so_bind; [exact (ar_get v w u _ dl Hv) | intros x y Hx]. apply ar_flatten; exact Hx.
    - intros x y Hx. cbn. apply sk_set; assumption.
  Qed.

  Lemma ar_restore (raw : dict (nd T)) (raw' : dict (nd T')) outp (st : state T) (st' : state T') inp ign im :
    alike_arrays raw raw' -> alike_state st st' ->
    same_outcome alike_dict (restore_data_arrays_with_properties raw outp st inp ign im)
                            (restore_data_arrays_with_properties raw' outp st' inp ign im).
  Proof.
    intros Hr H; unfold restore_data_arrays_with_properties.
    assert (Hi : filter (fun n => negb (dmem n raw)) (keys outp) = filter (fun n => negb (dmem n raw')) (keys outp)).
    { apply filter_ext; intros n. rewrite (sk_mem _ n raw raw' Hr); reflexivity. }
    rewrite <- Hi. remember (if im then _ else ign) as ig eqn:Eig; clear Eig Hi.
    rewrite <- (ar_wildcard st st' inp H).
    eapply so_bind; [apply so_refl | intros [wn dl] ? <-].
    eapply so_bind; [apply so_refl | intros dd ? <-].
    eapply so_bind with (P := fun x y => fst x = fst y /\ alike_dict (snd x) (snd y)).
    - eapply so_foldM; [exact (Forall2_eq_refl dd) | | split; [reflexivity | constructor]].
      intros [l s] [l' s'] [name od] ? [Hl Hs] <-; cbn [fst snd] in Hl, Hs; subst l'; unfold restore_step.
      destruct (mem name ig); [split; [reflexivity | exact Hs] | ].
      eapply so_bind; [apply so_refl | intros rn ? <-].
      eapply so_bind with (P := fun x y => fst x = fst y /\ alarr (snd x) (snd y)).
      + destruct (mem "*" od).
        * eapply so_bind; [exact (sk_getE _ rn raw raw' Hr) | intros x y Hx].
          pose proof Hx as Hx'; unfold alike_array in Hx'; rewrite <- Hx'.
          eapply so_bind; [apply so_refl | intros [ds tg] ? <-].
          eapply so_bind; [exact (ar_expand x y tg Hx) | intros x2 y2 Hx2]. cbn; auto.
        * eapply so_bind; [exact (sk_getE _ rn raw raw' Hr) | intros x y Hx].
          eapply so_bind; [ | intros c c' Hc; cbn; split; [reflexivity | exact Hx]].
          apply so_eq; unfold check_array_shape. unfold alike_array in Hx; rewrite <- Hx. reflexivity.
      + intros [[l1 ds1] o1] [[l2 ds2] o2] [He Ho]; cbn [fst snd] in He, Ho; injection He as <- <-.
        eapply so_bind; [apply so_refl | intros p ? <-].
        eapply so_bind; [apply so_refl | intros u ? <-].
        eapply so_bind with (P := alike).
        * unfold create_quantity. unfold alike_array in Ho; rewrite <- Ho.
          destruct (Nat.eqb _ _); [ | reflexivity]. repeat split; cbn; exact Ho.
        * intros q r Hq. cbn. split; [reflexivity | apply sk_set; assumption].
    - intros [l s] [l' s'] [_ Hs]; exact Hs.
  Qed.

  Lemma ar_pack g p (st : state T) (st' : state T') :
    alike_state st st' -> same_outcome alarr (pack g p st) (pack g p st').
  Proof.
    intros H; unfold pack. eapply so_bind; [exact (ar_extract st st' _ H) | intros raw raw' Hr].
    eapply so_bind with (P := eq).
    - destruct (tracer_names g p) as [ | n ns]; [reflexivity | ].
      eapply so_bind; [exact (sk_getE _ n raw raw' Hr) | intros x y Hx].
      unfold alike_array in Hx; rewrite <- Hx; reflexivity.
    - intros sh ? <-. eapply so_foldM; [exact (Forall2_eq_refl _) | | reflexivity].
      intros s s' [i n] ? Hs <-. eapply so_bind; [exact (sk_getE _ n raw raw' Hr) | intros x y Hx].
      cbn [fst snd]. unfold set_slice, alike_array in *. rewrite <- Hs, <- Hx.
      destruct (Nat.ltb _ _); [ | reflexivity]. destruct (nats_eqb _ _); [ | reflexivity]. reflexivity.
  Qed.

  Lemma ar_unpack g p (a : nd T) (b : nd T') (st : state T) (st' : state T') m :
    alarr a b -> alike_state st st' -> same_outcome alike_dict (unpack g p a st m) (unpack g p b st' m).
  Proof.
    intros Ha H; unfold unpack.
    eapply so_bind with (P := alike_arrays); [ | intros raw raw' Hr; apply ar_restore; assumption].
    eapply so_foldM; [exact (Forall2_eq_refl _) | | constructor].
    intros s s' [i n] ? Hs <-; cbn [fst snd].
    eapply so_bind with (P := alarr); [ | intros x y Hx; cbn; apply sk_set; assumption].
    unfold get_slice, alike_array in *. rewrite <- Ha.
    destruct (nth_error _ _); [ | reflexivity]. destruct (Nat.ltb _ _); reflexivity.
  Qed.

  Lemma ar_raw_state g inp pk (st : state T) (st' : state T') :
    alike_state st st' -> same_outcome alike_raw (raw_state g inp pk st) (raw_state g inp pk st').
  Proof.
    intros H; unfold raw_state.
    eapply so_bind with (P := eq).
    { apply so_eq; unfold check_inputs. generalize tt as u.
      induction inp as [ | np l IH]; intros u; cbn [foldM]; [reflexivity | ].
      rewrite (sk_mem _ (fst np) st st' H). destruct (dmem (fst np) st'); cbn [bind]; [apply IH | reflexivity]. }
    intros _ _ _. eapply so_bind; [exact (ar_extract st st' inp H) | intros raw raw' Hr].
    assert (Hm : alike_raw (map (fun kv => (fst kv, RArr (snd kv))) raw) (map (fun kv => (fst kv, RArr (snd kv))) raw')).
    { clear -Hr; induction Hr as [ | x y l l' [H1 H2] Hl IH]; cbn; constructor; auto. }
    eapply so_bind with (P := alike_raw).
    - destruct pk as [p | ]; [ | exact Hm].
      eapply so_bind; [exact (ar_pack g p st st' H) | intros x y Hx]. cbn. apply sk_set; assumption.
    - intros r r' Hrr. eapply so_bind; [exact (sk_getE _ "time" st st' H) | intros v w Hv].
      cbn. apply sk_set; assumption.
  Qed.

  Lemma sk_del {X Y} (P : X -> Y -> Prop) k d d' : same_keys P d d' -> same_keys P (ddel k d) (ddel k d').
  Proof.
    intros H; induction H as [ | x y d d' [Hk Hv] Hd IH]; cbn; [constructor | ].
    destruct x as [k1 a], y as [k2 b]; cbn in *; subst k2.
    destruct (String.eqb k k1); [exact Hd || exact IH | constructor; cbn; auto].
  Qed.

  Lemma ar_unpack_tracers g pk m (raw : dict (nd T)) (raw' : dict (nd T')) (st : state T) (st' : state T') :
    alike_arrays raw raw' -> alike_state st st' ->
    same_outcome (fun x y => alike_dict (fst x) (fst y) /\ alike_arrays (snd x) (snd y))
      (unpack_tracers g pk m raw st) (unpack_tracers g pk m raw' st').
  Proof.
    intros Hr H; unfold unpack_tracers. destruct pk as [p | ]; [ | split; [constructor | exact Hr]].
    eapply so_bind; [exact (sk_getE _ "tracers" raw raw' Hr) | intros x y Hx].
    eapply so_bind; [exact (ar_unpack g p x y st st' m Hx H) | intros o o' Ho].
    split; [exact Ho | apply sk_del; exact Hr].
  Qed.

  Lemma ar_check outp inp ign (raw : dict (nd T)) (raw' : dict (nd T')) :
    alike_arrays raw raw' -> check_outputs outp inp ign raw = check_outputs outp inp ign raw'.
  Proof.
    intros H; unfold check_outputs, check_missing, check_extra. rewrite <- (sk_keys _ raw raw' H).
    f_equal. f_equal. induction outp as [ | np l IH]; cbn [existsb]; [reflexivity | ].
    rewrite IH, (sk_mem _ (fst np) raw raw' H). f_equal. f_equal. f_equal.
    induction (wanted_aliases inp np) as [ | al als IHa]; cbn [existsb]; [reflexivity | ].
    rewrite IHa, (sk_mem _ al raw raw' H). reflexivity.
  Qed.

  Lemma ar_tendency_finish g c (st : state T) (st' : state T') o o' :
    alike_state st st' -> alike_two o o' -> same_outcome alike_rates (tendency_finish g c st o) (tendency_finish g c st' o').
  Proof.
    intros H [H1 H2]; unfold tendency_finish.
    eapply so_bind; [exact (ar_unpack_tracers g _ _ _ _ st st' H1 H) | intros [tr rt] [tr' rt'] [Ht Hrt]]; cbn [fst snd] in *.
    rewrite <- (ar_check (t_tend c) (t_inp c) [] rt rt' Hrt).
    eapply so_bind; [apply so_refl | intros _ _ _].
    rewrite <- (ar_check (t_diag c) (t_inp c) (t_added c) _ _ H2).
    eapply so_bind; [apply so_refl | intros _ _ _].
    eapply so_bind; [apply ar_restore; eassumption | intros t t' Htt].
    eapply so_bind; [apply ar_restore; eassumption | intros d d' Hd].
    assert (Hu : alike_dict (dupdate tr t) (dupdate tr' t')) by (apply sk_update; assumption).
    split; cbn [fst snd]; [exact Hu | ]. destruct (t_tid c); [ | exact Hd].
    unfold insert_tendencies. clear -Hu Hd. revert d d' Hd.
    induction Hu as [ | x y l l' [K1 K2] Hl IH]; cbn [fold_left]; intros d d' Hd; [exact Hd | ].
    apply IH. rewrite <- K1. apply sk_set; assumption.
  Qed.

  Theorem frame_tendency {U V} (same : U -> V -> Prop) g c (ac : U -> dict (rval T) -> U * res (dict (nd T) * dict (nd T))) (ac' : V -> dict (rval T') -> V * res (dict (nd T') * dict (nd T'))) :
    blind_arrays alike_two same ac ac' -> blind_plain same (tendency_call g c ac) (tendency_call g c ac').
  Proof.
    intros Hac u v st st' Huv H; unfold tendency_call.
    destruct (raise_if (negb (t_init c)) ERuntime) as [x | e]; cbn [bind]; [ | split; [exact Huv | reflexivity]].
    pose proof (ar_raw_state g (t_inp c) (t_packer c) st st' H) as K.
    destruct (raw_state g (t_inp c) (t_packer c) st) as [r | e], (raw_state g (t_inp c) (t_packer c) st') as [r' | e'];
      cbn in K; try contradiction; [ | subst e'; split; [exact Huv | reflexivity]].
    pose proof (Hac u v r r' Huv K) as [Hs Ho].
    destruct (ac u r) as [u1 o], (ac' v r') as [v1 o']; cbn [fst snd] in *.
    split; [exact Hs | ]. eapply so_bind; [exact Ho | intros p p' Hp]. apply ar_tendency_finish; assumption.
  Qed.

  Theorem frame_diagnostic {U V} (same : U -> V -> Prop) c (ac : U -> dict (rval T) -> U * res (dict (nd T))) (ac' : V -> dict (rval T') -> V * res (dict (nd T'))) :
    blind_arrays alike_arrays same ac ac' -> blind_diagnostic same (diagnostic_call c ac) (diagnostic_call c ac').
  Proof.
    intros Hac u v st st' Huv H; unfold diagnostic_call.
    destruct (raise_if (negb (d_init c)) ERuntime) as [x | e]; cbn [bind]; [ | split; [exact Huv | reflexivity]].
    pose proof (ar_raw_state empty_treg (d_inp c) None st st' H) as K.
    destruct (raw_state empty_treg (d_inp c) None st) as [r | e], (raw_state empty_treg (d_inp c) None st') as [r' | e'];
      cbn in K; try contradiction; [ | subst e'; split; [exact Huv | reflexivity]].
    pose proof (Hac u v r r' Huv K) as [Hs Ho].
    destruct (ac u r) as [u1 o], (ac' v r') as [v1 o']; cbn [fst snd] in *.
    split; [exact Hs | ]. eapply so_bind; [exact Ho | intros p p' Hp]. unfold diagnostic_finish.
    rewrite <- (ar_check (d_diag c) (d_inp c) [] p p' Hp).
    eapply so_bind; [apply so_refl | intros _ _ _]. apply ar_restore; assumption.
  Qed.

  Lemma ar_binop op op' (a c : nd T) (b d : nd T') : alarr a b -> alarr c d -> same_outcome alarr (np_binop op a c) (np_binop op' b d).
  Proof.
    unfold alike_array; intros H K; unfold np_binop. rewrite <- H, <- K. destruct (bshape_rev _ _); [ | reflexivity]. reflexivity.
  Qed.

  Lemma ar_stepper_insert c dt (raw : dict (rval T)) (raw' : dict (rval T')) n n' d d' :
    alike_raw raw raw' -> alike_arrays n n' -> alike_arrays d d' ->
    same_outcome alike_arrays (stepper_insert c dt raw n d) (stepper_insert c dt raw' n' d').
  Proof.
    intros Hr Hn Hd; unfold stepper_insert.
    eapply so_foldM; [exact (Forall2_eq_refl _) | | exact Hd].
    intros s s' np ? Hs <-. eapply so_bind; [exact (sk_getE _ (fst np) n n' Hn) | intros x y Hx].
    eapply so_bind with (P := alarr).
    - unfold get_raw_array. eapply so_bind; [exact (sk_getE _ (fst np) raw raw' Hr) | intros v w Hv].
      destruct v, w; cbn in *; auto; contradiction.
    - intros z w Hz. eapply so_bind; [exact (ar_binop _ _ _ _ _ _ Hx Hz) | intros q r Hq].
      cbn. apply sk_set; [exact Hs | ]. unfold alike_array in *; cbn. exact Hq.
  Qed.

  Theorem frame_stepper {U V} (same : U -> V -> Prop) g c (ac : U -> dict (rval T) -> Z -> U * res (dict (nd T) * dict (nd T))) (ac' : V -> dict (rval T') -> Z -> V * res (dict (nd T') * dict (nd T'))) :
    (forall dt, blind_arrays alike_two same (fun u raw => ac u raw dt) (fun v raw => ac' v raw dt)) ->
    forall u v st st' dt, same u v -> alike_state st st' ->
      same (fst (stepper_call g c ac u st dt)) (fst (stepper_call g c ac' v st' dt)) /\
      same_outcome alike_rates (snd (stepper_call g c ac u st dt)) (snd (stepper_call g c ac' v st' dt)).
  Proof.
    intros Hac u v st st' dt Huv H; unfold stepper_call.
    destruct (raise_if (negb (s_init c)) ERuntime) as [x | e]; cbn [bind]; [ | split; [exact Huv | reflexivity]].
    pose proof (ar_raw_state g (s_inp c) (s_packer c) st st' H) as K.
    destruct (raw_state g (s_inp c) (s_packer c) st) as [r | e], (raw_state g (s_inp c) (s_packer c) st') as [r' | e'];
      cbn in K; try contradiction; [ | subst e'; split; [exact Huv | reflexivity]].
    pose proof (Hac dt u v r r' Huv K) as [Hs Ho].
    destruct (ac u r dt) as [u1 o], (ac' v r' dt) as [v1 o']; cbn [fst snd] in *.
    split; [exact Hs | ]. eapply so_bind; [exact Ho | intros [rd rn] [rd' rn'] [Hrd Hrn]]; cbn [fst snd] in Hrd, Hrn. unfold stepper_finish.
    eapply so_bind; [exact (ar_unpack_tracers g _ _ _ _ st st' Hrn H) | intros [tr rt] [tr' rt'] [Ht Hrt]]; cbn [fst snd] in *.
    rewrite <- (ar_check (s_diag c) (s_inp c) (s_ign c) _ _ Hrd).
    eapply so_bind; [apply so_refl | intros _ _ _].
    rewrite <- (ar_check (s_out c) (s_inp c) [] _ _ Hrt).
    eapply so_bind; [apply so_refl | intros _ _ _].
    eapply so_bind with (P := alike_arrays).
    { destruct (s_tid c); [apply ar_stepper_insert; assumption | exact Hrd]. }
    intros rd2 rd2' Hrd2.
    eapply so_bind; [apply ar_restore; eassumption | intros t t' Htt].
    eapply so_bind; [apply ar_restore; eassumption | intros d d' Hd].
    split; cbn [fst snd]; [exact Htt | apply sk_update; assumption].
  Qed.
End Calls.
