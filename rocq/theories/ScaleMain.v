(** C103: calls of components on rescaled states. *)
From Coq Require Import String List Bool Arith ZArith QArith Qcanon Lia.
From Verif Require Import Prelude PreludeFacts ArithM NdArray NdFacts Units UnitsFacts DataArrayM SpecDa DaFacts
  Wildcard GetNp SpecArrays Restore RestoreFacts Tracers Components SpecScale FollowCalls.
Import ListNotations.
Open Scope string_scope.
Open Scope nat_scope.
Open Scope list_scope.

Lemma by_name_keys {V} op f (d : dict V) : keys (by_name op f d) = keys d.
Proof. unfold by_name, keys. rewrite map_map. reflexivity. Qed.

Lemma by_name_get {V} op f (d : dict V) k : dget k (by_name op f d) = option_map (op (f k)) (dget k d).
Proof.
  unfold by_name. induction d as [ | [j x] d IH]; cbn [map dget fst snd]; [reflexivity | ].
  destruct (String.eqb_spec k j) as [-> | N]; [reflexivity | exact IH].
Qed.

Lemma by_name_getE {V} op f (d : dict V) k : dgetE k (by_name op f d) = result_map (op (f k)) (dgetE k d).
Proof. unfold dgetE. rewrite by_name_get. destruct (dget k d); reflexivity. Qed.

Lemma by_name_set {V} op f (d : dict V) k x : dset k (op (f k) x) (by_name op f d) = by_name op f (dset k x d).
Proof.
  unfold by_name. induction d as [ | [j y] d IH]; cbn [map dset fst snd]; [reflexivity | ].
  destruct (String.eqb_spec k j) as [-> | N]; cbn [map fst snd]; [reflexivity | ]. f_equal. exact IH.
Qed.

Lemma bind_map {X Y Z} (h : X -> Y) (r : res X) (k : Y -> res Z) : bind (result_map h r) k = bind r (fun x => k (h x)).
Proof. destruct r; reflexivity. Qed.

Lemma map_bind {X Y Z} (h : Y -> Z) (r : res X) (k : X -> res Y) : result_map h (bind r k) = bind r (fun x => result_map h (k x)).
Proof. destruct r; reflexivity. Qed.

Lemma bind_ext {X Y} (r : res X) (k k' : X -> res Y) : (forall x, r = Ok x -> k x = k' x) -> bind r k = bind r k'.
Proof. intros H. destruct r; [apply H; reflexivity | reflexivity]. Qed.

Lemma foldM_map {X S S'} (h : S -> S') (f : S -> X -> res S) (f' : S' -> X -> res S') l :
  (forall s x, In x l -> f' (h s) x = result_map h (f s x)) -> forall s, foldM f' l (h s) = result_map h (foldM f l s).
Proof.
  induction l as [ | x l IH]; intros H s; cbn [foldM]; [reflexivity | ]. rewrite H by (left; reflexivity). rewrite bind_map, map_bind.
  apply bind_ext. intros y _. apply IH. intros; apply H; right; assumption.
Qed.

Lemma foldM_same {X S} (f f' : S -> X -> res S) l : (forall s x, In x l -> f' s x = f s x) -> forall s, foldM f' l s = foldM f l s.
Proof.
  induction l as [ | x l IH]; intros H s; cbn [foldM]; [reflexivity | ]. rewrite H by (left; reflexivity).
  apply bind_ext. intros y _. apply IH. intros; apply H; right; assumption.
Qed.

Lemma at_times c a idx : at_ (times c a) idx = (c * at_ a idx)%Qc.
Proof.
  unfold at_, times; cbn [shape data]. change (azero (T:=Qc)) with 0%Qc. replace 0%Qc with (c * 0)%Qc at 1 by ring.
  apply map_nth.
Qed.

Lemma times_build c sh f g : (forall idx, g idx = (c * f idx)%Qc) -> build sh g = times c (build sh f).
Proof. intros H. unfold build, times; cbn [shape data]. f_equal. rewrite map_map. apply map_ext. intro; apply H. Qed.

Lemma times_reshape c a sh : reshape (times c a) sh = result_map (times c) (reshape a sh).
Proof. unfold reshape, times; cbn [shape data]. destruct (_ =? _); reflexivity. Qed.

Lemma times_transpose c a axes : transpose (times c a) axes = result_map (times c) (transpose a axes).
Proof.
  unfold transpose. cbn [times shape]. destruct (is_axes _ _); [ | reflexivity]. cbn [result_map]. f_equal.
  apply times_build. intro; apply at_times.
Qed.

Lemma times_broadcast c a dst : broadcast_to (times c a) dst = result_map (times c) (broadcast_to a dst).
Proof.
  unfold broadcast_to. cbn [times shape]. destruct (bcast_ok _ _); [ | reflexivity]. cbn [result_map]. f_equal.
  apply times_build. intro; apply at_times.
Qed.

Lemma times_flatten c a i j : flatten_wildcard_dims (times c a) i j = result_map (times c) (flatten_wildcard_dims a i j).
Proof.
  unfold flatten_wildcard_dims. cbn [times shape]. destruct (_ <? _); [reflexivity | ]. destruct (_ <? _); [reflexivity | ].
  destruct (_ =? _); apply (times_reshape c a).
Qed.

Lemma times_expand c a sh : expand_array_wildcard_dims (times c a) sh = result_map (times c) (expand_array_wildcard_dims a sh).
Proof. unfold expand_array_wildcard_dims. rewrite times_reshape. destruct (reshape a sh); reflexivity. Qed.

Lemma times_numpy c a od dl : get_numpy_array (times_da c a) od dl = result_map (times c) (get_numpy_array a od dl).
Proof.
  unfold get_numpy_array. cbn [times_da arr dims times shape].
  destruct (_ && _); [reflexivity | ]. destruct (list_eqb _ _); [reflexivity | ].
  set (missing := filter _ od). set (has := negb _). set (current := if has then rev missing ++ dims a else dims a). set (target := od ++ _).
  rewrite map_bind. change (mknd (shape (arr a)) (map (Qcmult c) (data (arr a)))) with (times c (arr a)).
  transitivity (bind (result_map (times c) (if has then reshape (arr a) (repeat 1 (length missing) ++ shape (arr a)) else Ok (arr a)))
    (fun values' => let* na := if list_eqb current target then Ok values' else
        let* axes := mapM (fun d => match last_index d current with Some i => Ok i | None => Err EValue end) target in transpose values' axes in
      if has then let out_shape := map (fun n => or1 (dget n dl)) od ++ skipn (length od) (shape na) in
        if nats_eqb out_shape (shape na) then Ok na else broadcast_to na out_shape else Ok na)).
  { f_equal. destruct has; [apply times_reshape | reflexivity]. }
  rewrite bind_map. apply bind_ext. intros v _. rewrite map_bind.
  transitivity (bind (result_map (times c) (if list_eqb current target then Ok v else
        let* axes := mapM (fun d => match last_index d current with Some i => Ok i | None => Err EValue end) target in transpose v axes))
    (fun na => if has then let out_shape := map (fun n => or1 (dget n dl)) od ++ skipn (length od) (shape na) in
        if nats_eqb out_shape (shape na) then Ok na else broadcast_to na out_shape else Ok na)).
  { f_equal. destruct (list_eqb _ _); [reflexivity | ]. rewrite map_bind. apply bind_ext. intros axes _. apply times_transpose. }
  rewrite bind_map. apply bind_ext. intros na _. destruct has; [ | reflexivity]. cbn [times shape].
  destruct (nats_eqb _ _); [reflexivity | apply (times_broadcast c na)].
Qed.

Section Scale.
  Context {R : Registry}.

  Lemma times_units c a u : linear_units c (dget "units" (attrs a)) -> to_units (times_da c a) u = result_map (times_da c) (to_units a u).
  Proof.
    intros Hn. unfold to_units. cbn [times_da attrs]. destruct (dget "units" (attrs a)) as [own | ]; [ | reflexivity].
    unfold parseE. destruct (parse own) as [u1 | ] eqn:E1; [ | reflexivity]. destruct (parse u) as [u2 | ] eqn:E2; [ | reflexivity]. cbn [bind].
    destruct (negb (one_eqb u1 u2)); [ | reflexivity]. destruct (udim_eqb u1 u2) eqn:Ed; [ | reflexivity]. apply udim_eqb_eq in Ed.
    cbn [result_map]. f_equal. unfold da_map, times_da, nd_map, times; cbn [dims arr attrs shape data]. f_equal. f_equal. rewrite !map_map. apply map_ext. intro x.
    destruct Hn as [-> | Hn]; [rewrite !Qcmult_1_l; reflexivity | ].
    unfold uconv. rewrite (Hn own u1 own u1 eq_refl E1 E1 eq_refl), (Hn own u1 u u2 eq_refl E1 E2 Ed). cbn [Qc_eqb andb amul ArithQc].
    change (Qc_eqb 0 0) with true. cbn [andb]. ring.
  Qed.

  Lemma times_get c v u od dl : (forall a, v = VDA a -> linear_units c (dget "units" (attrs a))) -> get_array (times_value c v) u od dl = result_map (times c) (get_array v u od dl).
  Proof.
    intros Hn. destruct v as [a | t]; [ | reflexivity]. cbn [times_value get_array]. cbn [times_da attrs]. destruct (negb _); [reflexivity | ].
    change (mkda (dims a) (times c (arr a)) (attrs a)) with (times_da c a). rewrite (times_units c a u (Hn a eq_refl)).
    destruct (to_units a u) as [q | []]; try reflexivity. cbn [result_map bind]. apply times_numpy.
  Qed.

  Lemma times_wildcards f (st : state Qc) inp : get_wildcard_matches_and_dim_lengths (by_name times_value f st) inp = get_wildcard_matches_and_dim_lengths st inp.
  Proof.
    unfold get_wildcard_matches_and_dim_lengths. f_equal. apply foldM_same. intros acc np _. unfold wildcard_step.
    destruct (dims_and_units (snd np)) as [[pd ?] | ]; [ | reflexivity]. cbn [bind]. rewrite by_name_getE, bind_map. apply bind_ext. intros [a | t] _; reflexivity.
  Qed.

  Lemma times_arrays f fi inp (st : state Qc) : input_factors f fi inp -> no_offsets f inp st ->
    get_numpy_arrays_with_properties (by_name times_value f st) inp = result_map (by_name times fi) (get_numpy_arrays_with_properties st inp).
  Proof.
    intros [_ Hf] Hn. unfold get_numpy_arrays_with_properties. rewrite times_wildcards, map_bind. apply bind_ext. intros [wn dl] _.
    apply (foldM_map (by_name times fi) (extract_step st wn dl) (extract_step (by_name times_value f st) wn dl) inp) with (s := []).
    intros out [name p] Hin. unfold extract_step. rewrite map_bind. apply bind_ext. intros [pd u] _. cbn [fst snd].
    rewrite by_name_getE, bind_map, map_bind. apply bind_ext. intros v Hv. apply dgetE_ok in Hv. rewrite map_bind.
    assert (Hl : forall a, v = VDA a -> linear_units (f name) (dget "units" (attrs a))).
    { intros a ->. apply (Hn name a); [ | exact Hv]. apply in_map_iff. exists (name, p); auto. }
    match goal with |- bind ?l _ = bind ?r _ => assert (E : l = result_map (times (f name)) r) end.
    { destruct (index_of "*" pd) as [i | ]; [ | apply times_get, Hl]. destruct wn as [names | ]; [ | reflexivity].
      rewrite times_get by exact Hl. rewrite bind_map, map_bind. apply bind_ext. intros b _. apply times_flatten. }
    rewrite E, bind_map. apply bind_ext. intros a _. cbn [result_map]. rewrite <- (Hf name p Hin), by_name_set. reflexivity.
  Qed.

  Lemma times_raw_state tg f fi inp (st : state Qc) : input_factors f fi inp -> no_offsets f inp st ->
    raw_state tg inp None (by_name times_value f st) = result_map (by_name times_raw fi) (raw_state tg inp None st).
  Proof.
    intros Hf Hn. unfold raw_state. rewrite (check_inputs_keys inp _ st (by_name_keys times_value f st)). rewrite map_bind. apply bind_ext. intros [] _.
    rewrite (times_arrays f fi inp st Hf Hn), bind_map, map_bind. apply bind_ext. intros raw _. cbn [bind].
    rewrite by_name_getE, bind_map, map_bind. apply bind_ext. intros t _. cbn [result_map]. f_equal.
    rewrite <- by_name_set. cbn [times_raw]. rewrite (proj1 Hf). f_equal. unfold by_name. rewrite !map_map. reflexivity.
  Qed.

  Lemma times_restore f fo f' outp inp ign (st : state Qc) ra : output_factors f' fo outp inp ->
    restore_data_arrays_with_properties (by_name times fo ra) outp (by_name times_value f st) inp ign false
    = result_map (by_name times_da f') (restore_data_arrays_with_properties ra outp st inp ign false).
  Proof.
    intros Hf. unfold restore_data_arrays_with_properties. rewrite times_wildcards, map_bind. apply bind_ext. intros [wn dl] _. rewrite map_bind. apply bind_ext. intros dd _.
    transitivity (bind (result_map (fun acc => (fst acc, by_name times_da f' (snd acc))) (foldM (restore_step ra outp inp wn ign) dd (dl, []))) (fun x => let (_, out) := x in Ok out)).
    2:{ rewrite bind_map, map_bind. apply bind_ext. intros [? ?] _. reflexivity. }
    f_equal. apply (foldM_map (fun acc : dict nat * dict (da Qc) => (fst acc, by_name times_da f' (snd acc)))) with (s := (dl, [])).
    intros [dl0 out] [name od] _. unfold restore_step. cbn [fst snd]. destruct (mem name ign); [reflexivity | ].
    destruct (dget name outp) as [p | ] eqn:Hp; [ | unfold get_alias_or_name, dgetE; rewrite Hp; reflexivity].
    rewrite (get_alias_out_key name outp inp p Hp). cbn [bind].
    assert (Ef : fo (out_key outp inp name) = f' name) by (apply Hf; eapply dget_In_keys; exact Hp).
    rewrite map_bind.
    match goal with |- bind ?l _ = bind ?r _ => assert (E : l = result_map (fun x => (fst x, times (f' name) (snd x))) r) end.
    { destruct (mem "*" od); rewrite by_name_getE, Ef, bind_map, map_bind; apply bind_ext; intros a _; rewrite map_bind; cbn [times shape].
      - apply bind_ext. intros [ds target] _. rewrite map_bind. change (mknd (shape a) (map (Qcmult (f' name)) (data a))) with (times (f' name) a).
        rewrite times_expand, bind_map. apply bind_ext. intros b _. reflexivity.
      - apply bind_ext. intros [] _. reflexivity. }
    rewrite E, bind_map. apply bind_ext. intros [[dl1 ds] oa] _. cbn [fst snd]. rewrite map_bind. apply bind_ext. intros q _. rewrite map_bind. apply bind_ext. intros un _.
    rewrite map_bind. unfold create_quantity. cbn [times shape]. destruct (_ =? _); [ | reflexivity]. cbn [bind result_map fst snd]. f_equal. f_equal.
    rewrite <- by_name_set. reflexivity.
  Qed.

  Lemma times_insert name f1 f2 : (forall k, f2 (tendency_name name k) = f1 k) -> forall t d,
    insert_tendencies name (by_name times_da f1 t) (by_name times_da f2 d) = by_name times_da f2 (insert_tendencies name t d).
  Proof.
    intros H. unfold insert_tendencies. induction t as [ | [k a] t IH]; intros d; [reflexivity | ]. cbn [by_name map fold_left fst snd].
    rewrite <- H, by_name_set. apply IH.
  Qed.

  Lemma times_update f (d e : dict (da Qc)) : dupdate (by_name times_da f d) (by_name times_da f e) = by_name times_da f (dupdate d e).
  Proof.
    unfold dupdate. revert d. induction e as [ | [k a] e IH]; intros d; [reflexivity | ]. cbn [by_name map fold_left fst snd]. rewrite by_name_set. apply IH.
  Qed.

  Lemma times_difference c a b : np_binop asub (times c a) (times c b) = result_map (times c) (np_binop asub a b).
  Proof.
    unfold np_binop. cbn [times shape]. destruct (bshape_rev _ _); [ | reflexivity]. cbn [result_map]. f_equal. apply times_build.
    intro idx. change (mknd (shape a) (map (Qcmult c) (data a))) with (times c a). change (mknd (shape b) (map (Qcmult c) (data b))) with (times c b).
    rewrite !at_times. cbn [asub ArithQc]. ring.
  Qed.

  Lemma times_stepper_insert c fi fd fn dt raw new diag : change_factors fi fd fn c -> s_tid c = true ->
    stepper_insert c dt (by_name times_raw fi raw) (by_name times fn new) (by_name times fd diag) = result_map (by_name times fd) (stepper_insert c dt raw new diag).
  Proof.
    intros Hf Ht. unfold stepper_insert. apply foldM_map. intros d [name p] Hin. cbn [fst].
    destruct (Hf Ht name) as [F1 F2]; [apply in_map_iff; exists (name, p); auto | ].
    rewrite by_name_getE, bind_map, map_bind. apply bind_ext. intros a _. unfold get_raw_array. rewrite by_name_getE, bind_map, !map_bind.
    destruct (dgetE name raw) as [[b | t] | ]; [ | reflexivity | reflexivity]. cbn [bind times_raw]. rewrite F1, times_difference, bind_map, map_bind. apply bind_ext. intros x _.
    cbn [result_map]. f_equal. rewrite <- by_name_set, F2. f_equal. unfold nd_map, times; cbn [shape data]. f_equal. rewrite !map_map. apply map_ext. intro y.
    cbn [amul adiv ArithQc]. unfold Qcdiv. ring.
  Qed.

  Theorem scale_tendency {U} tg (f fi ft fd f1 f2 : string -> Qc) c (ac : U -> dict (rval Qc) -> Z -> U * res (dict (nd Qc) * dict (nd Qc))) :
    t_packer c = None -> homogeneous fi f1 f2 ac -> input_factors f fi (t_inp c) -> output_factors ft f1 (t_tend c) (t_inp c) -> output_factors fd f2 (t_diag c) (t_inp c) ->
    (t_tid c = true -> forall name, fd (tendency_name (t_name c) name) = ft name) ->
    forall u st dt, no_offsets f (t_inp c) st ->
    tendency_call tg c (fun u raw => ac u raw dt) u (by_name times_value f st) =
    (fst (tendency_call tg c (fun u raw => ac u raw dt) u st),
     result_map (fun o => (by_name times_da ft (fst o), by_name times_da fd (snd o))) (snd (tendency_call tg c (fun u raw => ac u raw dt) u st))).
  Proof.
    intros Hpk Hh Hi Ho1 Ho2 Ht u st dt Hn. unfold tendency_call. rewrite Hpk, (times_raw_state tg f fi (t_inp c) st Hi Hn).
    destruct (raise_if (negb (t_init c)) ERuntime) as [[] | e]; [ | reflexivity]. cbn [bind].
    destruct (raw_state tg (t_inp c) None st) as [raw | e]; [ | reflexivity]. cbn [result_map]. rewrite Hh.
    destruct (ac u raw dt) as [u' r]. cbn [fst snd]. f_equal. rewrite bind_map, map_bind. apply bind_ext. intros [o1 o2] _. cbn [fst snd].
    unfold tendency_finish. rewrite Hpk. cbn [unpack_tracers bind fst snd].
    rewrite (check_outputs_keys _ _ _ _ o1 (by_name_keys times f1 o1)), (check_outputs_keys _ _ _ _ o2 (by_name_keys times f2 o2)).
    rewrite map_bind. apply bind_ext. intros [] _. rewrite map_bind. apply bind_ext. intros [] _.
    rewrite (times_restore f f1 ft _ _ _ st o1 Ho1), bind_map, map_bind. apply bind_ext. intros t _.
    rewrite (times_restore f f2 fd _ _ _ st o2 Ho2), bind_map, map_bind. apply bind_ext. intros d _. cbn [result_map fst snd].
    change (@nil (string * da Qc)) with (by_name times_da ft []) at 1 2. rewrite !times_update. f_equal. f_equal.
    destruct (t_tid c); [ | reflexivity]. apply times_insert. auto.
  Qed.

  Theorem scale_diagnostic {U} (f fi fd fo : string -> Qc) c (ac : U -> dict (rval Qc) -> U * res (dict (nd Qc))) :
    homogeneous1 fi fo ac -> input_factors f fi (d_inp c) -> output_factors fd fo (d_diag c) (d_inp c) ->
    forall u st, no_offsets f (d_inp c) st ->
    diagnostic_call c ac u (by_name times_value f st) =
    (fst (diagnostic_call c ac u st), result_map (by_name times_da fd) (snd (diagnostic_call c ac u st))).
  Proof.
    intros Hh Hi Ho u st Hn. unfold diagnostic_call. rewrite (times_raw_state empty_treg f fi (d_inp c) st Hi Hn).
    destruct (raise_if (negb (d_init c)) ERuntime) as [[] | e]; [ | reflexivity]. cbn [bind].
    destruct (raw_state empty_treg (d_inp c) None st) as [raw | e]; [ | reflexivity]. cbn [result_map]. rewrite Hh.
    destruct (ac u raw) as [u' r]. cbn [fst snd]. f_equal. rewrite bind_map, map_bind. apply bind_ext. intros o _.
    unfold diagnostic_finish. rewrite (check_outputs_keys _ _ _ _ o (by_name_keys times fo o)). rewrite map_bind. apply bind_ext. intros [] _.
    apply times_restore, Ho.
  Qed.

  Theorem scale_stepper {U} tg (f fi fd fn f1 f2 : string -> Qc) c (ac : U -> dict (rval Qc) -> Z -> U * res (dict (nd Qc) * dict (nd Qc))) :
    s_packer c = None -> homogeneous fi f1 f2 ac -> input_factors f fi (s_inp c) -> output_factors fd f1 (s_diag c) (s_inp c) -> output_factors fn f2 (s_out c) (s_inp c) ->
    change_factors fi f1 f2 c ->
    forall u st dt, no_offsets f (s_inp c) st ->
    stepper_call tg c ac u (by_name times_value f st) dt =
    (fst (stepper_call tg c ac u st dt), result_map (fun o => (by_name times_da fd (fst o), by_name times_da fn (snd o))) (snd (stepper_call tg c ac u st dt))).
  Proof.
    intros Hpk Hh Hi Ho1 Ho2 Ht u st dt Hn. unfold stepper_call. rewrite Hpk, (times_raw_state tg f fi (s_inp c) st Hi Hn).
    destruct (raise_if (negb (s_init c)) ERuntime) as [[] | e]; [ | reflexivity]. cbn [bind].
    destruct (raw_state tg (s_inp c) None st) as [raw | e]; [ | reflexivity]. cbn [result_map]. rewrite Hh.
    destruct (ac u raw dt) as [u' r]. cbn [fst snd]. f_equal. rewrite bind_map, map_bind. apply bind_ext. intros [o1 o2] _. cbn [fst snd].
    unfold stepper_finish. rewrite Hpk. cbn [unpack_tracers bind fst snd].
    rewrite (check_outputs_keys _ _ _ _ o1 (by_name_keys times f1 o1)), (check_outputs_keys _ _ _ _ o2 (by_name_keys times f2 o2)).
    rewrite map_bind. apply bind_ext. intros [] _. rewrite map_bind. apply bind_ext. intros [] _.
    match goal with |- bind ?l _ = result_map _ (bind ?r _) => assert (E : l = result_map (by_name times f1) r) end.
    { destruct (s_tid c) eqn:Et; [ | reflexivity]. apply times_stepper_insert; assumption. }
    rewrite E, bind_map, map_bind. apply bind_ext. intros o3 _.
    rewrite (times_restore f f1 fd _ _ _ st o3 Ho1), bind_map, map_bind. apply bind_ext. intros d _.
    rewrite (times_restore f f2 fn _ _ _ st o2 Ho2), bind_map, map_bind. apply bind_ext. intros n _. cbn [result_map fst snd].
    change (@nil (string * da Qc)) with (by_name times_da fn []) at 1. rewrite times_update. reflexivity.
  Qed.
End Scale.
