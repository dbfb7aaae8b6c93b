(** Component calls in memory: what they change, and that they compute what the
    value-level calls compute. *)
From Coq Require Import String List Bool Arith ZArith QArith Qcanon Lia.
From Verif Require Import Prelude PreludeFacts ArithM NdArray NdFacts Units DataArrayM Wildcard GetNp GetNpFacts Restore InitNp Tracers TracersFacts Composite Heap Components HeapCalls SpecComposite SpecHeap SpecHeapCalls HeapFacts HeapComposite HeapSteppers HeapCallsFacts HeapCallsViews.
Import ListNotations.
Open Scope string_scope.
Open Scope nat_scope.
Open Scope list_scope.

Section Main.
  Context {T : Type} {A : Arith T} {R : Registry}.

  (** ** Memory-level results and their values *)

  Definition sim {B C} (h : heap T) (x : heap T * res B) (L : heap T -> B -> C) (Q : heap T -> B -> Prop) (v : res C) : Prop :=
    grown h (fst x) /\ v = rmap (L (fst x)) (snd x) /\ match snd x with Ok b => Q (fst x) b | Err _ => True end.

  Lemma sim_bind : forall {B C B' C'} (h : heap T) (x : heap T * res B) (L : heap T -> B -> C) Q v
      (f : heap T -> B -> heap T * res B') (L' : heap T -> B' -> C') Q' k,
    sim h x L Q v ->
    (forall h1 b, grown h h1 -> Q h1 b -> sim h1 (f h1 b) L' Q' (k (L h1 b))) ->
    sim h (hbind x f) L' Q' (bind v k).
  Proof.
    intros B C B' C' h [h1 [b|e]] L Q v f L' Q' k (G & E & HQ) Hf; cbn [fst snd hbind rmap] in *; subst v; cbn [bind].
    - destruct (Hf h1 b G HQ) as (G' & E' & Q2). split; [exact (grown_trans _ _ _ G G')|]. split; auto.
    - split; [exact G|]. split; [reflexivity|exact I].
  Qed.

  Lemma sim_ret : forall {B C} (h : heap T) (b : B) (L : heap T -> B -> C) (Q : heap T -> B -> Prop) c,
    c = L h b -> Q h b -> sim h (h, Ok b) L Q (Ok c).
  Proof. intros B C h b L Q c -> HQ. split; [apply grown_refl|]. split; [reflexivity|exact HQ]. Qed.

  Lemma sim_err : forall {B C} (h : heap T) e (L : heap T -> B -> C) (Q : heap T -> B -> Prop), sim h (h, Err e) L Q (Err e).
  Proof. intros. split; [apply grown_refl|]. split; [reflexivity|exact I]. Qed.

  Lemma sim_pure : forall {B} (h : heap T) (r : res B), sim h (h, r) (fun _ b => b) (fun _ b => r = Ok b) r.
  Proof. intros B h [b|e]; [apply sim_ret; auto|apply sim_err]. Qed.

  (** ** Where arrays lie *)

  Definition inside (S : cells) (n : nat) (h : heap T) (X : cells) : Prop := forall c, X c -> S c \/ n <= c < length h.

  Definition base (S : cells) (n : nat) (h : heap T) : Prop := (forall c, S c -> c < n) /\ n <= length h.

  Lemma base_grown : forall S n (h h' : heap T), base S n h -> grown h h' -> base S n h'.
  Proof. intros S n h h' (H1 & H2) G. split; auto. apply grown_length in G. lia. Qed.

  Lemma inside_grown : forall S n (h h' : heap T) X, inside S n h X -> grown h h' -> inside S n h' X.
  Proof. intros S n h h' X H G c Hc. destruct (H c Hc); auto. apply grown_length in G. right. lia. Qed.

  Lemma inside_exists : forall S n (h : heap T) X c, base S n h -> inside S n h X -> X c -> c < length h.
  Proof. intros S n h X c (H1 & H2) H Hc. destruct (H c Hc) as [K|K]; [apply H1 in K|]; lia. Qed.

  Lemma inside_sub : forall S n (h : heap T) (X Y : cells), inside S n h X -> (forall c, Y c -> X c) -> inside S n h Y.
  Proof. intros S n h X Y H HY c Hc. apply H, HY, Hc. Qed.

  Lemma inside_self : forall S n (h : heap T), inside S n h S.
  Proof. intros S n h c Hc. left. exact Hc. Qed.

  (** ** Allocation *)

  Lemma alloc_nd_spec : forall (h : heap T) v, grown h (fst (alloc_nd h v)) /\ load_nd (fst (alloc_nd h v)) (snd (alloc_nd h v)) = v /\
    (forall c, In c (data (snd (alloc_nd h v))) -> length h <= c < length (fst (alloc_nd h v))) /\
    shape (snd (alloc_nd h v)) = shape v /\ length (data (snd (alloc_nd h v))) = length (data v).
  Proof.
    intros h v. cbn [alloc_nd fst snd]. split; [exists (data v); auto|]. split.
    - unfold load_nd. cbn [shape data]. rewrite cell_new. destruct v; reflexivity.
    - split; [|split; [reflexivity|cbn [data]; apply seq_length]].
      intros c Hc. cbn [data] in Hc. apply in_seq in Hc. unfold heap in *. rewrite app_length. lia.
  Qed.

  Lemma load_nd_grown : forall (h h' : heap T) a, grown h h' -> (forall c, In c (data a) -> c < length h) -> load_nd h' a = load_nd h a.
  Proof.
    intros h h' a (new & ->) Hc. unfold load_nd. f_equal. apply map_ext_in. intros c Hin. apply cell_app, Hc, Hin.
  Qed.

  Lemma load_nds_grown : forall (h h' : heap T) d, grown h h' -> (forall c, nd_cells d c -> c < length h) -> load_nds h' d = load_nds h d.
  Proof.
    intros h h' d G Hc. unfold load_nds. apply map_ext_in. intros [k a] Hin. cbn [fst snd]. f_equal.
    apply load_nd_grown; auto. intros c K. apply Hc. exists k, a. auto.
  Qed.

  Lemma load_dict_grown : forall (h h' : heap T) d, grown h h' -> dict_in h d -> load_dict h' d = load_dict h d.
  Proof.
    intros h h' d G Hd. apply load_dict_eq. intros k a Hin. apply load_grown; auto. intros c K. apply Hd. exists k, a. auto.
  Qed.

  Lemma load_state_grown : forall (h h' : heap T) st, grown h h' -> state_in h st -> load_state h' st = load_state h st.
  Proof.
    intros h h' d G Hd. apply load_state_eq. intros k a Hin. apply load_grown; auto. intros c K. apply Hd. exists k, a. auto.
  Qed.

  Lemma load_val_grown : forall (h h' : heap T) v, grown h h' -> (forall a, v = HDA a -> exists_in h a) -> load_val h' v = load_val h v.
  Proof. intros h h' [a|t] G H; cbn [load_val]; auto. f_equal. apply load_grown; auto. Qed.

  Lemma load_raw_grown : forall (h h' : heap T) d, grown h h' -> (forall c, raw_cells d c -> c < length h) -> load_raw h' d = load_raw h d.
  Proof.
    intros h h' d G Hc. unfold load_raw. apply map_ext_in. intros [k v] Hin. cbn [fst snd]. f_equal. destruct v as [a|v]; cbn [load_rval].
    - f_equal. apply load_nd_grown; auto. intros c K. apply Hc. left. exists k, a. auto.
    - f_equal. apply load_val_grown; auto. intros a -> c K. apply Hc. right. exists k, a. auto.
  Qed.

  Lemma dgetE_load_nds : forall (h : heap T) k d, dgetE k (load_nds h d) = rmap (load_nd h) (dgetE k d).
  Proof. intros. apply dgetE_map. Qed.

  Lemma ddel_load_nds : forall (h : heap T) k d, ddel k (load_nds h d) = load_nds h (ddel k d).
  Proof. intros. apply ddel_map. Qed.

  Lemma dset_load_nds : forall (h : heap T) k a d, dset k (load_nd h a) (load_nds h d) = load_nds h (dset k a d).
  Proof. intros. apply dset_map. Qed.

  (** ** Extraction *)

  Variable cp : nd nat -> list nat -> bool.

  Definition of_nd (a : nd nat) : cells := fun c => In c (data a).

  Lemma h_get_numpy_array_sim : forall S n (h : heap T) a od dl, base S n h -> inside S n h (fun c => In c (h_cells a)) ->
    sim h (h_get_numpy_array h a od dl) load_nd (fun h1 b => inside S n h1 (of_nd b)) (get_numpy_array (load h a) od dl).
  Proof.
    intros S n h a od dl Hb Ha. unfold h_get_numpy_array. rewrite (get_numpy_array_load h (length h)) by auto.
    destruct (get_numpy_array (refs a) od dl) as [b|e] eqn:E; cbn [rmap]; [|apply sim_err].
    destruct (Nat.eqb (prod (shape b)) (prod (h_shape a)) && Nat.eqb (length (h_cells a)) (prod (h_shape a))) eqn:Ev.
    - apply sim_ret; auto. apply andb_true_iff in Ev as [_ Ev]. apply Nat.eqb_eq in Ev.
      destruct (get_numpy_array_In (A:=ArithCell (length h)) (refs a) od dl b Ev E) as (_ & Hi). intros c Hc. apply Ha. apply Hi, Hc.
    - destruct (alloc_nd_spec h (load_nd h b)) as (G & El & Hc & _). destruct (alloc_nd h (load_nd h b)) as [h' c] eqn:Ea. cbn [fst snd] in *.
      split; [exact G|]. cbn [fst snd rmap]. rewrite El. split; [reflexivity|]. intros x Hx. right. apply Hc in Hx.
      destruct Hb. cbn [fst]. lia.
  Qed.

  Lemma h_get_array_sim : forall S n (h : heap T) v u od dl, base S n h -> (forall a, v = HDA a -> inside S n h (fun c => In c (h_cells a))) ->
    sim h (h_get_array h v u od dl) load_nd (fun h1 b => inside S n h1 (of_nd b)) (get_array (load_val h v) u od dl).
  Proof.
    intros S n h [a|t] u od dl Hb Hv; cbn [h_get_array load_val get_array]; [|apply sim_err].
    specialize (Hv a eq_refl). rewrite attrs_load. destruct (negb (dmem "units" (h_attrs a))); [apply sim_err|].
    assert (He : exists_in h a) by (intros c Hc; exact (inside_exists _ _ _ _ _ Hb Hv Hc)).
    destruct (h_to_units h a u) as [h1 r] eqn:E. destruct (h_to_units_spec h a u h1 r He E) as (G & Et & Hc). rewrite Et.
    destruct r as [q|e]; cbn [res_map bind].
    - assert (Hb1 := base_grown _ _ _ _ Hb G).
      assert (Hq : inside S n h1 (fun c => In c (h_cells q))).
      { intros c K. destruct (Hc c K) as [K'|K']; [|right; destruct Hb; lia]. apply (inside_grown _ _ _ _ _ Hv G), K'. }
      destruct (h_get_numpy_array_sim S n h1 q od dl Hb1 Hq) as (G2 & E2 & Q2).
      split; [exact (grown_trans _ _ _ G G2)|]. split; auto.
    - destruct e; (split; [exact G|split; [reflexivity|exact I]]).
  Qed.

  Lemma nd_cells_dset : forall k a d c, nd_cells (dset k a d) c -> In c (data a) \/ nd_cells d c.
  Proof. intros k a d c (k' & a' & Hin & Hc). apply In_dset_inv in Hin as [(-> & ->)|Hin]; auto. right. exists k', a'. auto. Qed.

  Lemma dget_state_cells : forall k a st c, dget k st = Some (HDA a) -> In c (h_cells a) -> state_cells st c.
  Proof. intros k a st c H Hc. exists k, a. split; auto. apply dget_In; auto. Qed.

  Section Extract.
    Variables (S : cells) (n : nat) (st : hstate) (lst : state T).
    Hypothesis Hst : forall c, state_cells st c -> S c.

    Lemma state_in_base : forall h : heap T, base S n h -> state_in h st.
    Proof. intros h (H1 & H2) c Hc. apply Hst, H1 in Hc. lia. Qed.

    Lemma h_extract_step_sim : forall wn dl (h : heap T) out np, base S n h -> load_state h st = lst -> inside S n h (nd_cells out) ->
      sim h (h_extract_step cp st wn dl h out np) load_nds (fun h1 o => inside S n h1 (nd_cells o))
          (extract_step lst wn dl (load_nds h out) np).
    Proof.
      intros wn dl h out np Hb El Ho. unfold h_extract_step, extract_step.
      destruct (dims_and_units (snd np)) as [[pd u]|e]; cbn [bind]; [|cbn [hbind]; apply sim_err].
      rewrite <- El. unfold load_state. rewrite dgetE_map. destruct (dgetE (fst np) st) as [v|e] eqn:Ev; cbn [rmap bind hbind]; [|apply sim_err].
      assert (Hv : forall a, v = HDA a -> inside S n h (fun c => In c (h_cells a))).
      { intros a -> c Hc. left. apply Hst. apply dgetE_ok in Ev. exact (dget_state_cells _ _ _ _ Ev Hc). }
      apply sim_bind with (L := load_nd) (Q := fun h1 b => inside S n h1 (of_nd b)).
      - destruct (index_of "*" pd) as [i|]; [|apply h_get_array_sim; auto]. destruct wn as [names|]; [|apply sim_err].
        apply sim_bind with (L := load_nd) (Q := fun h1 b => inside S n h1 (of_nd b)); [apply h_get_array_sim; auto|].
        intros h1 b G Hin. rewrite flatten_load. destruct (flatten_wildcard_dims b i (i + length names)) as [f|e] eqn:Ef; cbn [rmap]; [|apply sim_err].
        unfold h_reshaped. destruct (cp b (shape f)).
        + destruct (alloc_nd_spec h1 (load_nd h1 f)) as (G2 & E2 & Hc & _). destruct (alloc_nd h1 (load_nd h1 f)) as [h' c]. cbn [fst snd] in *.
          split; [exact G2|]. split; [cbn [snd fst rmap]; rewrite E2; reflexivity|]. cbn [snd fst]. intros x Hx. right. apply Hc in Hx.
          destruct (base_grown _ _ _ _ Hb G). lia.
        + apply sim_ret; auto. intros c Hc. apply Hin. unfold of_nd in *. rewrite <- (flatten_data _ _ _ _ Ef). exact Hc.
      - intros h1 b G Hin. assert (Eo : load_nds h out = load_nds h1 out).
        { symmetry. apply load_nds_grown; auto. intros c Hc. exact (inside_exists _ _ _ _ _ Hb Ho Hc). }
        rewrite Eo. apply sim_ret. { unfold load_nds. apply dset_map. }
        intros c Hc. apply nd_cells_dset in Hc as [Hc|Hc]; [apply Hin, Hc|]. apply (inside_grown _ _ _ _ _ Ho G), Hc.
    Qed.

    Lemma h_extract_sim : forall wn dl pd (h : heap T) out, base S n h -> load_state h st = lst -> inside S n h (nd_cells out) ->
      sim h (h_extract cp st wn dl h pd out) load_nds (fun h1 o => inside S n h1 (nd_cells o))
          (foldM (extract_step lst wn dl) pd (load_nds h out)).
    Proof.
      intros wn dl pd. induction pd as [|np pd IH]; intros h out Hb El Ho; cbn [h_extract foldM]; [apply sim_ret; auto|].
      eapply sim_bind; [apply h_extract_step_sim; auto|]. intros h1 o G Hin. cbn beta in Hin. apply IH; auto.
      - exact (base_grown _ _ _ _ Hb G).
      - rewrite <- El. apply load_state_grown; auto. apply state_in_base; auto.
    Qed.

    Lemma h_get_numpy_arrays_sim : forall (h : heap T) pd, base S n h -> load_state h st = lst ->
      sim h (h_get_numpy_arrays cp h st pd) load_nds (fun h1 o => inside S n h1 (nd_cells o)) (get_numpy_arrays_with_properties lst pd).
    Proof.
      intros h pd Hb El. unfold h_get_numpy_arrays, get_numpy_arrays_with_properties. rewrite <- El at 1. rewrite wildcard_load.
      destruct (get_wildcard_matches_and_dim_lengths (refs_state st) pd) as [[wn dl]|e]; cbn [hbind bind]; [|apply sim_err].
      change (@nil (string * nd T)) with (load_nds h []). apply h_extract_sim; auto. intros c (k & a & [] & _).
    Qed.

    Lemma raw_cells_arrs : forall (d : dict (nd nat)) c, raw_cells (map (fun kv => (fst kv, HRArr (snd kv))) d) c -> nd_cells d c.
    Proof.
      intros d c [(k & a & Hin & Hc)|(k & a & Hin & _)]; apply in_map_iff in Hin as ([k' a'] & E & Hin); cbn [fst snd] in E.
      - injection E as <- <-. exists k', a'. auto.
      - discriminate.
    Qed.

    Lemma raw_cells_dset : forall k v d c, raw_cells (dset k v d) c ->
      (exists a, v = HRArr a /\ In c (data a)) \/ (exists a, v = HRTime (HDA a) /\ In c (h_cells a)) \/ raw_cells d c.
    Proof.
      intros k v d c [(k' & a & Hin & Hc)|(k' & a & Hin & Hc)]; apply In_dset_inv in Hin as [(_ & <-)|Hin].
      - left. exists a. auto.
      - right; right. left. exists k', a. auto.
      - right; left. exists a. auto.
      - right; right. right. exists k', a. auto.
    Qed.

    Lemma h_raw_state_sim : forall g inp pk (h : heap T), base S n h -> load_state h st = lst ->
      sim h (h_raw_state cp g inp pk h st) load_raw (fun h1 o => inside S n h1 (raw_cells o)) (raw_state g inp pk lst).
    Proof.
      intros g inp pk h Hb El. unfold h_raw_state, raw_state. rewrite El.
      destruct (check_inputs inp lst) as [x|e]; cbn [hbind bind]; [|apply sim_err].
      eapply sim_bind; [apply h_get_numpy_arrays_sim; auto|]. intros h1 raw G Hin. cbn beta in Hin.
      assert (Hb1 := base_grown _ _ _ _ Hb G).
      assert (El1 : load_state h1 st = lst) by (rewrite <- El; apply load_state_grown; auto; apply state_in_base; auto).
      apply sim_bind with (L := load_raw) (Q := fun h1 o => inside S n h1 (raw_cells o)).
      - assert (E0 : map (fun kv => (fst kv, RArr (snd kv))) (load_nds h1 raw) = load_raw h1 (map (fun kv => (fst kv, HRArr (snd kv))) raw)).
        { unfold load_nds, load_raw. rewrite !map_map. reflexivity. }
        assert (I0 : inside S n h1 (raw_cells (map (fun kv => (fst kv, HRArr (snd kv))) raw))).
        { intros c Hc. apply Hin, raw_cells_arrs, Hc. }
        rewrite E0. destruct pk as [p|]; [|apply sim_ret; auto]. rewrite El1. destruct (pack g p lst) as [v|e]; cbn [bind]; [|apply sim_err].
        destruct (alloc_nd_spec h1 v) as (G2 & E2 & Hc & _). destruct (alloc_nd h1 v) as [h2 t]. cbn [fst snd] in *.
        split; [exact G2|]. cbn [fst snd rmap]. split.
        + f_equal. rewrite <- (load_raw_grown h1 h2); auto. 2:{ intros c K. exact (inside_exists _ _ _ _ _ Hb1 I0 K). }
          unfold load_raw at 2. rewrite <- (dset_map (load_rval h2)). cbn [load_rval]. rewrite E2. reflexivity.
        + intros c K. apply raw_cells_dset in K as [(a & E & K)|[(a & E & _)|K]]; [|discriminate|].
          * injection E as <-. right. apply Hc in K. destruct Hb1. lia.
          * apply (inside_grown _ _ _ _ _ I0 G2), K.
      - intros h2 raw2 G2 Hin2.
        assert (El2 : load_state h2 st = lst) by (rewrite <- El1; apply load_state_grown; auto; apply state_in_base; auto).
        rewrite <- El2. unfold load_state. rewrite dgetE_map. destruct (dgetE "time" st) as [t|e] eqn:Et; cbn [rmap bind hbind]; [|apply sim_err].
        apply sim_ret. { unfold load_raw. rewrite <- (dset_map (load_rval h2)). reflexivity. }
        intros c K. apply raw_cells_dset in K as [(a & E & _)|[(a & E & K)|K]]; [discriminate| |apply Hin2, K].
        injection E as ->. left. apply Hst. apply dgetE_ok in Et. exact (dget_state_cells _ _ _ _ Et K).
    Qed.
  End Extract.

  (** ** Restoring *)

  Lemma load_unrefs_grown : forall (h h' : heap T) q, grown h h' -> (forall c, In c (data (arr q)) -> c < length h) ->
    load h' (unrefs q) = load h (unrefs q).
  Proof. intros h h' q G Hc. apply load_grown; auto. Qed.

  Definition das_cells (d : dict (da nat)) : cells := fun c => exists k q, In (k, q) d /\ In c (data (arr q)).

  Lemma h_copy_reshaped_spec : forall S n src d (h : heap T) h' out, base S n h -> inside S n h (das_cells d) ->
    h_copy_reshaped cp src h d = (h', out) ->
    grown h h' /\ load_dict h' out = load_das h d /\ keys out = keys d /\ inside S n h' (cells_of out).
  Proof.
    intros S n src d. induction d as [|[k q] d IH]; intros h h' out Hb Hi H; cbn [h_copy_reshaped] in H.
    { injection H as <- <-. split; [apply grown_refl|]. repeat split; auto. intros c (k & a & [] & _). }
    assert (Hq : inside S n h (fun c => In c (data (arr q)))). { intros c Hc. apply Hi. exists k, q. split; [left; auto|auto]. }
    assert (Hd : inside S n h (das_cells d)). { intros c (k' & q' & Hin & Hc). apply Hi. exists k', q'. split; [right; auto|auto]. }
    set (x := match src k with Some ra => if cp ra (shape (arr q)) then alloc h (load h (unrefs q)) else (h, unrefs q) | None => (h, unrefs q) end) in *.
    assert (Hx : grown h (fst x) /\ load (fst x) (snd x) = load h (unrefs q) /\ inside S n (fst x) (fun c => In c (h_cells (snd x)))).
    { assert (K0 : grown h h /\ load h (unrefs q) = load h (unrefs q) /\ inside S n h (fun c => In c (h_cells (unrefs q)))).
      { split; [apply grown_refl|]. split; [reflexivity|exact Hq]. }
      unfold x. destruct (src k) as [ra|]; [|exact K0]. destruct (cp ra (shape (arr q))); [|exact K0].
      split; [apply grown_alloc|]. split; [apply load_alloc|]. intros c Hc. right. apply alloc_cells in Hc. destruct Hb. lia. }
    destruct x as [h1 a]. cbn [fst snd] in Hx. destruct Hx as (G1 & E1 & I1).
    destruct (h_copy_reshaped cp src h1 d) as [h2 o] eqn:E2. injection H as <- <-.
    assert (Hb1 := base_grown _ _ _ _ Hb G1).
    destruct (IH h1 h2 o Hb1 (inside_grown _ _ _ _ _ Hd G1) E2) as (G2 & L2 & K2 & I2).
    split; [exact (grown_trans _ _ _ G1 G2)|]. split.
    - cbn [load_dict map load_das fst snd]. f_equal.
      + f_equal. rewrite <- E1. apply load_grown; auto. intros c Hc. exact (inside_exists _ _ _ _ _ Hb1 I1 Hc).
      + unfold load_dict in L2. rewrite L2. unfold load_das. apply map_ext_in. intros [k' q'] Hin. cbn [fst snd]. f_equal.
        apply load_unrefs_grown; auto. intros c Hc. apply (inside_exists S n h (das_cells d)); auto. exists k', q'. auto.
    - split; [unfold keys in *; cbn [map fst]; rewrite K2; reflexivity|].
      intros c (k' & a' & [E|Hin] & Hc); [injection E as <- <-; apply (inside_grown _ _ _ _ _ I1 G2), Hc|].
      apply I2. exists k', a'. auto.
  Qed.

  Definition good_dict (S : cells) (n : nat) (h : heap T) (d : dict hda) : Prop := NoDup (keys d) /\ inside S n h (cells_of d).

  Lemma h_restore_sim : forall S n (h : heap T) raw outp st lst inp ig, base S n h -> inside S n h (nd_cells raw) -> load_state h st = lst ->
    sim h (h_restore cp h raw outp st inp ig) load_dict (good_dict S n)
        (restore_data_arrays_with_properties (load_nds h raw) outp lst inp ig false).
  Proof.
    intros S n h raw outp st lst inp ig Hb Hr <-. unfold h_restore. rewrite restore_load.
    destruct (restore_data_arrays_with_properties raw outp (refs_state st) inp ig false) as [d|e] eqn:E; cbn [rmap]; [|apply sim_err].
    apply restore_In in E as (Hn & Hd).
    assert (Hi : inside S n h (das_cells d)).
    { intros c (k & q & Hin & Hc). destruct (Hd k q Hin) as (rn & ra & Hra & Ed). apply Hr. exists rn, ra. rewrite <- Ed. auto. }
    destruct (h_copy_reshaped cp (reshaped_from outp inp raw) h d) as [h' out] eqn:E2.
    destruct (h_copy_reshaped_spec S n _ d h h' out Hb Hi E2) as (G & L & K & I). split; [exact G|]. cbn [fst snd rmap].
    rewrite L. split; [reflexivity|]. split; [rewrite K; auto|exact I].
  Qed.

  Lemma h_unpack_sim : forall S n g p (h : heap T) a st lst mult, base S n h -> inside S n h (of_nd a) -> wf_nd a -> load_state h st = lst ->
    sim h (h_unpack cp g p h a st mult) load_dict (good_dict S n) (unpack g p (load_nd h a) lst mult).
  Proof.
    intros S n g p h a st lst mult Hb Ha Hw El. unfold h_unpack, unpack.
    set (tp := get_tracer_input_properties g (pk_prepend p) (quantity_dims p)). cbv zeta.
    set (hstep := fun raw iname => let* sub := get_slice (A:=ArithCell (length h)) a (tracer_index p) (fst iname) in Ok (dset (snd iname) sub raw)).
    set (vstep := fun raw iname => let* sub := get_slice (load_nd h a) (tracer_index p) (fst iname) in Ok (dset (snd iname) sub raw)).
    assert (Ef : foldM vstep (enumerate (tracer_names g p)) [] = rmap (load_nds h) (foldM hstep (enumerate (tracer_names g p)) [])).
    { change (@nil (string * nd T)) with (load_nds h []). apply foldM_rmap. intros [i nm] raw. unfold vstep, hstep. cbn [fst snd].
      rewrite (get_slice_load h (length h)) by auto. rewrite rmap_bind, bind_rmap. apply bind_ext. intros sub. cbn [rmap]. f_equal.
      unfold load_nds. apply dset_map. }
    rewrite Ef. destruct (foldM hstep (enumerate (tracer_names g p)) []) as [raw|e] eqn:Eh; cbn [rmap bind]; [|apply sim_err].
    apply h_restore_sim; auto.
    assert (P : forall l acc, (forall c, nd_cells acc c -> of_nd a c) -> foldM hstep l acc = Ok raw -> forall c, nd_cells raw c -> of_nd a c).
    { clear - Hw. induction l as [|[i nm] l IH]; intros acc Ha H; cbn [foldM] in H; [injection H as <-; auto|].
      apply bind_ok in H as (acc1 & H1 & H). apply (IH acc1); auto. unfold hstep in H1. apply bind_ok in H1 as (sub & H1 & H2). injection H2 as <-.
      intros c Hc. apply nd_cells_dset in Hc as [Hc|Hc]; [|auto]. destruct (get_slice_In (A:=ArithCell (length h)) _ _ _ _ Hw H1) as (_ & Hi). apply Hi, Hc. }
    intros c Hc. apply Ha. apply (P _ [] ltac:(intros ? (? & ? & [] & _)) Eh c Hc).
  Qed.

  Lemma In_ddel : forall {V} k (d : dict V) j w, In (j, w) (ddel k d) -> In (j, w) d.
  Proof.
    intros V k d j w. induction d as [|[k' v] d IH]; cbn [ddel]; intros H; [destruct H|]. destruct (String.eqb k k'); [right; auto|].
    destruct H as [H|H]; [left; auto|right; auto].
  Qed.

  Lemma h_unpack_tracers_sim : forall S n g pk mult (h : heap T) raw st lst, base S n h -> inside S n h (nd_cells raw) -> real_arrays raw ->
    load_state h st = lst ->
    sim h (h_unpack_tracers cp g pk mult h raw st) (fun h1 o => (load_dict h1 (fst o), load_nds h1 (snd o)))
        (fun h1 o => good_dict S n h1 (fst o) /\ inside S n h1 (nd_cells (snd o)))
        (unpack_tracers g pk mult (load_nds h raw) lst).
  Proof.
    intros S n g pk mult h raw st lst Hb Hr Hw El. unfold h_unpack_tracers, unpack_tracers. destruct pk as [p|].
    2:{ apply sim_ret; auto. cbn [fst snd]. split; auto. split; [constructor|]. intros c (k & a & [] & _). }
    rewrite dgetE_load_nds. destruct (dgetE "tracers" raw) as [t|e] eqn:Et; cbn [rmap bind hbind]; [|apply sim_err].
    apply dgetE_ok, dget_In in Et.
    assert (Hti : inside S n h (of_nd t)) by (intros c Hc; apply Hr; exists "tracers", t; auto).
    apply sim_bind with (L := load_dict) (Q := good_dict S n).
    - apply h_unpack_sim; auto. exact (Hw _ _ Et).
    - intros h1 out G Hg.
      assert (Hd : inside S n h1 (nd_cells (ddel "tracers" raw))).
      { intros c (k & a & Hin & Hc). apply (inside_grown _ _ _ _ _ Hr G). exists k, a. split; auto. exact (In_ddel _ _ _ _ Hin). }
      apply sim_ret; [|cbn [fst snd]; split; auto]. cbn [fst snd]. f_equal. rewrite ddel_load_nds. symmetry.
      apply load_nds_grown; auto. intros c (k & a & Hin & Hc). apply (inside_exists S n h (nd_cells raw)); auto. exists k, a. split; auto.
      exact (In_ddel _ _ _ _ Hin).
  Qed.

  (** ** After array_call *)

  Lemma check_outputs_load : forall (h : heap T) outp inp ig d, check_outputs outp inp ig (load_nds h d) = check_outputs outp inp ig d.
  Proof.
    intros. unfold check_outputs, check_missing, check_extra. rewrite keys_load_nds. f_equal. f_equal.
    assert (E : forall k, dmem k (load_nds h d) = dmem k d) by (intros; apply dmem_map).
    assert (X : forall l, existsb (fun np : string * props => negb (dmem (fst np) (load_nds h d)) && negb (mem (fst np) ig) &&
                 negb (existsb (fun al => dmem al (load_nds h d)) (wanted_aliases inp np))) l
             = existsb (fun np : string * props => negb (dmem (fst np) d) && negb (mem (fst np) ig) &&
                 negb (existsb (fun al => dmem al d) (wanted_aliases inp np))) l).
    { induction l as [|np l IH]; [reflexivity|]. cbn [existsb]. rewrite IH, E. do 3 f_equal.
      induction (wanted_aliases inp np) as [|al l' IH']; [reflexivity|]. cbn [existsb]. rewrite E, IH'. reflexivity. }
    apply X.
  Qed.

  Lemma cells_of_dset : forall k a d c, cells_of (dset k a d) c -> In c (h_cells a) \/ cells_of d c.
  Proof. intros k a d c (k' & a' & Hin & Hc). apply In_dset_inv in Hin as [(-> & ->)|Hin]; auto. right. exists k', a'. auto. Qed.

  Lemma cells_of_dupdate : forall d2 d1 c, cells_of (dupdate d1 d2) c -> cells_of d1 c \/ cells_of d2 c.
  Proof.
    unfold dupdate. induction d2 as [|[k a] d2 IH]; intros d1 c H; cbn [fold_left fst snd] in H; auto.
    apply IH in H as [H|(k' & a' & Hin & Hc)]; [apply cells_of_dset in H as [H|H]; auto; right; exists k, a; split; [left; auto|auto]|].
    right. exists k', a'. split; [right; auto|auto].
  Qed.

  Lemma NoDup_dupdate : forall {V} (d2 d1 : dict V), NoDup (keys d1) -> NoDup (keys (dupdate d1 d2)).
  Proof. unfold dupdate. induction d2 as [|[k a] d2 IH]; intros d1 H; cbn [fold_left fst snd]; auto. apply IH, NoDup_dset, H. Qed.

  Lemma insert_tendencies_spec : forall comp tend diag (h : heap T),
    load_dict h (h_insert_tendencies comp tend diag) = insert_tendencies comp (load_dict h tend) (load_dict h diag) /\
    (NoDup (keys diag) -> NoDup (keys (h_insert_tendencies comp tend diag))) /\
    (forall c, cells_of (h_insert_tendencies comp tend diag) c -> cells_of tend c \/ cells_of diag c).
  Proof.
    intros comp tend diag h. unfold h_insert_tendencies, insert_tendencies. revert diag.
    induction tend as [|[k a] tend IH]; intros diag; cbn [fold_left load_dict map fst snd]; auto.
    destruct (IH (dset (tendency_name comp k) a diag)) as (E & Hn & Hc). split; [|split].
    - refine (eq_trans E _). rewrite load_dict_dset. reflexivity.
    - intros H. apply Hn, NoDup_dset, H.
    - intros c K. apply Hc in K as [(k' & a' & Hin & K)|K]; [left; exists k', a'; split; [right; auto|auto]|].
      apply cells_of_dset in K as [K|K]; auto. left. exists k, a. split; [left; auto|auto].
  Qed.

  Definition good_pair (S : cells) (n : nat) (h : heap T) (o : dict hda * dict hda) : Prop :=
    good_dict S n h (fst o) /\ good_dict S n h (snd o).

  Definition parts_cells (ds : list (dict (nd nat))) : cells := fun c => exists d, In d ds /\ nd_cells d c.

  Lemma good_dict_grown : forall S n (h h' : heap T) d, good_dict S n h d -> grown h h' -> good_dict S n h' d.
  Proof. intros S n h h' d (H1 & H2) G. split; auto. exact (inside_grown _ _ _ _ _ H2 G). Qed.

  Lemma good_dict_in : forall S n (h : heap T) d, base S n h -> good_dict S n h d -> dict_in h d.
  Proof. intros S n h d Hb (_ & H) c Hc. exact (inside_exists _ _ _ _ _ Hb H Hc). Qed.

  Lemma good_dupdate : forall S n (h : heap T) d1 d2, good_dict S n h d1 -> good_dict S n h d2 -> good_dict S n h (dupdate d1 d2).
  Proof.
    intros S n h d1 d2 (N1 & I1) (N2 & I2). split; [apply NoDup_dupdate; auto|]. intros c Hc. apply cells_of_dupdate in Hc as [Hc|Hc]; auto.
  Qed.

  Lemma h_tendency_finish_sim : forall S n g c st lst (h : heap T) out, base S n h -> (forall x, state_cells st x -> x < length h) ->
    inside S n h (parts_cells (both out)) -> (forall d, In d (both out) -> real_arrays d) -> load_state h st = lst ->
    sim h (h_tendency_finish cp g c st h out) load_pair_dicts (good_pair S n) (tendency_finish g c lst (load_outs h out)).
  Proof.
    intros S n g c st lst h [t d] Hb Hs Hi Hw El. unfold h_tendency_finish, tendency_finish. cbn [fst snd load_outs].
    assert (It : inside S n h (nd_cells t)) by (intros x Hx; apply Hi; exists t; split; [left; auto|auto]).
    assert (Id : inside S n h (nd_cells d)) by (intros x Hx; apply Hi; exists d; split; [right; left; auto|auto]).
    eapply sim_bind; [apply (h_unpack_tracers_sim S n); eauto; apply Hw; left; auto|].
    intros h1 [tr rt] G1 (Gtr & Irt). cbn [fst snd] in *. rewrite !check_outputs_load.
    assert (Hb1 := base_grown _ _ _ _ Hb G1).
    assert (El1 : load_state h1 st = lst) by (rewrite <- El; apply load_state_grown; auto).
    destruct (check_outputs (t_tend c) (t_inp c) [] rt) as [x|e]; cbn [bind hbind]; [|apply sim_err].
    destruct (check_outputs (t_diag c) (t_inp c) (t_added c) d) as [y|e]; cbn [bind hbind]; [|apply sim_err].
    eapply sim_bind; [apply (h_restore_sim S n); eauto|]. intros h2 tend G2 Gt. cbv zeta.
    assert (Hb2 := base_grown _ _ _ _ Hb1 G2).
    assert (El2 : load_state h2 st = lst).
    { rewrite <- El1. apply load_state_grown; auto. intros z Hz. apply grown_length in G1. apply Hs in Hz. lia. }
    assert (Gu : good_dict S n h2 (dupdate tr tend)) by (apply good_dupdate; auto; exact (good_dict_grown _ _ _ _ _ Gtr G2)).
    assert (Ed : load_nds h d = load_nds h2 d).
    { symmetry. apply load_nds_grown; [exact (grown_trans _ _ _ G1 G2)|]. intros z Hz. exact (inside_exists _ _ _ _ _ Hb Id Hz). }
    rewrite Ed. eapply sim_bind.
    { apply (h_restore_sim S n); eauto. exact (inside_grown _ _ _ _ _ Id (grown_trans _ _ _ G1 G2)). }
    intros h3 diag G3 Gd.
    assert (Etend : dupdate (load_dict h1 tr) (load_dict h2 tend) = load_dict h3 (dupdate tr tend)).
    { rewrite (load_dict_grown h2 h3); auto; [|exact (good_dict_in _ _ _ _ Hb2 Gu)]. rewrite load_dict_dupdate. f_equal.
      symmetry. apply load_dict_grown; auto. exact (good_dict_in _ _ _ _ Hb1 Gtr). }
    rewrite Etend. assert (Gu3 := good_dict_grown _ _ _ _ _ Gu G3). destruct (t_tid c).
    - destruct (insert_tendencies_spec (t_name c) (dupdate tr tend) diag h3) as (Ei & Hn & Hc). apply sim_ret.
      + unfold load_pair_dicts. cbn [fst snd]. rewrite Ei. reflexivity.
      + split; [exact Gu3|]. cbn [snd]. split; [apply Hn, Gd|]. intros z Hz. apply Hc in Hz as [Hz|Hz]; [apply Gu3, Hz|apply Gd, Hz].
    - apply sim_ret; auto. split; auto.
  Qed.

  Lemma h_diagnostic_finish_sim : forall S n c st lst (h : heap T) out, base S n h ->
    inside S n h (nd_cells out) -> load_state h st = lst ->
    sim h (hbind (h, check_outputs (d_diag c) (d_inp c) [] out) (fun h _ => h_restore cp h out (d_diag c) st (d_inp c) []))
        load_dict (good_dict S n) (diagnostic_finish c lst (load_nds h out)).
  Proof.
    intros S n c st lst h out Hb Hi El. unfold diagnostic_finish. rewrite check_outputs_load.
    destruct (check_outputs (d_diag c) (d_inp c) [] out) as [x|e]; cbn [bind hbind]; [|apply sim_err]. apply h_restore_sim; auto.
  Qed.

  Lemma h_get_raw_array_load : forall name (h : heap T) raw, get_raw_array name (load_raw h raw) = rmap (load_nd h) (h_get_raw_array name raw).
  Proof.
    intros. unfold get_raw_array, h_get_raw_array, load_raw. rewrite dgetE_map. destruct (dgetE name raw) as [[a|v]|e]; reflexivity.
  Qed.

  Lemma h_stepper_insert_sim : forall S n c dt raw raw_new lraw lnew out (h : heap T) diag, base S n h ->
    (forall x, raw_cells raw x -> x < length h) -> (forall x, nd_cells raw_new x -> x < length h) ->
    load_raw h raw = lraw -> load_nds h raw_new = lnew -> inside S n h (nd_cells diag) ->
    sim h (h_stepper_insert c dt h raw raw_new diag out) load_nds (fun h1 d => inside S n h1 (nd_cells d))
        (foldM (fun d np =>
             let* new := dgetE (fst np) lnew in
             let* old := get_raw_array (fst np) lraw in
             let* diff := np_binop asub new old in
             Ok (dset (tendency_name (s_name c) (fst np))
                      (nd_map (fun x => amul (adiv x (total_seconds dt)) (total_seconds (s_tu c))) diff) d)) out (load_nds h diag)).
  Proof.
    intros S n c dt raw raw_new lraw lnew out. induction out as [|np out IH]; intros h diag Hb Hr Hn Er En Hd; cbn [h_stepper_insert foldM]; [apply sim_ret; auto|].
    replace (dgetE (fst np) lnew) with (rmap (load_nd h) (dgetE (fst np) raw_new)) by (rewrite <- En; symmetry; apply dgetE_load_nds).
    replace (get_raw_array (fst np) lraw) with (rmap (load_nd h) (h_get_raw_array (fst np) raw)) by (rewrite <- Er; symmetry; apply h_get_raw_array_load).
    destruct (dgetE (fst np) raw_new) as [new|e]; cbn [rmap bind]; [|apply sim_err].
    destruct (h_get_raw_array (fst np) raw) as [old|e]; cbn [rmap bind]; [|apply sim_err].
    destruct (np_binop asub (load_nd h new) (load_nd h old)) as [diff|e]; cbn [bind]; [|apply sim_err].
    set (v := nd_map _ diff). destruct (alloc_nd_spec h v) as (G & El & Hc & _). destruct (alloc_nd h v) as [h1 a] eqn:Ea. cbn [fst snd] in *.
    assert (Hl := grown_length _ _ G). assert (Hb1 := base_grown _ _ _ _ Hb G).
    assert (Hd1 : inside S n h1 (nd_cells (dset (tendency_name (s_name c) (fst np)) a diag))).
    { intros x Hx. apply nd_cells_dset in Hx as [Hx|Hx]; [right; apply Hc in Hx; destruct Hb; lia|]. apply (inside_grown _ _ _ _ _ Hd G), Hx. }
    destruct (IH h1 (dset (tendency_name (s_name c) (fst np)) a diag)) as (G2 & E2 & Q2); auto.
    - intros x Hx. apply Hr in Hx. lia.
    - intros x Hx. apply Hn in Hx. lia.
    - rewrite <- Er. apply load_raw_grown; auto.
    - rewrite <- En. apply load_nds_grown; auto.
    - split; [exact (grown_trans _ _ _ G G2)|]. split; [|exact Q2]. rewrite <- E2. f_equal.
      rewrite <- dset_load_nds. rewrite El. f_equal. symmetry.
      apply load_nds_grown; auto. intros x Hx. exact (inside_exists _ _ _ _ _ Hb Hd Hx).
  Qed.

  Lemma h_stepper_finish_sim : forall S n g c dt st lst raw lraw (h : heap T) out, base S n h -> (forall x, state_cells st x -> x < length h) ->
    (forall x, raw_cells raw x -> x < length h) ->
    inside S n h (parts_cells (both out)) -> (forall d, In d (both out) -> real_arrays d) -> load_state h st = lst -> load_raw h raw = lraw ->
    sim h (h_stepper_finish cp g c dt st h raw out) load_pair_dicts (good_pair S n) (stepper_finish g c dt lst lraw (load_outs h out)).
  Proof.
    intros S n g c dt st lst raw lraw h [d t] Hb Hs Hr Hi Hw El Er. unfold h_stepper_finish, stepper_finish. cbn [fst snd load_outs].
    assert (Id : inside S n h (nd_cells d)) by (intros x Hx; apply Hi; exists d; split; [left; auto|auto]).
    assert (It : inside S n h (nd_cells t)) by (intros x Hx; apply Hi; exists t; split; [right; left; auto|auto]).
    eapply sim_bind; [apply (h_unpack_tracers_sim S n); eauto; apply Hw; right; left; auto|].
    intros h1 [tr rt] G1 (Gtr & Irt). cbn [fst snd] in *. rewrite !check_outputs_load.
    assert (Hb1 := base_grown _ _ _ _ Hb G1). assert (L1 := grown_length _ _ G1).
    assert (El1 : load_state h1 st = lst) by (rewrite <- El; apply load_state_grown; auto).
    assert (Er1 : load_raw h1 raw = lraw) by (rewrite <- Er; apply load_raw_grown; auto).
    destruct (check_outputs (s_diag c) (s_inp c) (s_ign c) d) as [x|e]; cbn [bind hbind]; [|apply sim_err].
    destruct (check_outputs (s_out c) (s_inp c) [] rt) as [y|e]; cbn [bind hbind]; [|apply sim_err].
    assert (Ed : load_nds h d = load_nds h1 d).
    { symmetry. apply load_nds_grown; auto. intros z Hz. exact (inside_exists _ _ _ _ _ Hb Id Hz). }
    rewrite Ed.
    apply sim_bind with (L := load_nds) (Q := fun h1 d => inside S n h1 (nd_cells d)).
    { destruct (s_tid c); [|apply sim_ret; auto; exact (inside_grown _ _ _ _ _ Id G1)].
      apply (h_stepper_insert_sim S n c dt raw rt lraw (load_nds h1 rt) (s_out c)); auto.
      - intros z Hz. apply Hr in Hz. lia.
      - intros z Hz. exact (inside_exists _ _ _ _ _ Hb1 Irt Hz).
      - exact (inside_grown _ _ _ _ _ Id G1). }
    intros h2 rd G2 Ird. assert (Hb2 := base_grown _ _ _ _ Hb1 G2). assert (L2 := grown_length _ _ G2).
    assert (El2 : load_state h2 st = lst). { rewrite <- El1. apply load_state_grown; auto. intros z Hz. apply Hs in Hz. lia. }
    eapply sim_bind; [apply (h_restore_sim S n); eauto|]. intros h3 diag G3 Gd.
    assert (Hb3 := base_grown _ _ _ _ Hb2 G3). assert (L3 := grown_length _ _ G3).
    assert (El3 : load_state h3 st = lst). { rewrite <- El2. apply load_state_grown; auto. intros z Hz. apply Hs in Hz. lia. }
    assert (G13 := grown_trans _ _ _ G2 G3).
    assert (Et : load_nds h1 rt = load_nds h3 rt).
    { symmetry. apply load_nds_grown; auto. intros z Hz. exact (inside_exists _ _ _ _ _ Hb1 Irt Hz). }
    rewrite Et. eapply sim_bind; [apply (h_restore_sim S n); eauto; exact (inside_grown _ _ _ _ _ Irt G13)|]. intros h4 new G4 Gn.
    assert (Gtr4 := good_dict_grown _ _ _ _ _ Gtr (grown_trans _ _ _ G13 G4)).
    apply sim_ret.
    - unfold load_pair_dicts. cbn [fst snd]. f_equal.
      + symmetry. apply load_dict_grown; auto. exact (good_dict_in _ _ _ _ Hb3 Gd).
      + rewrite load_dict_dupdate. f_equal. symmetry. apply load_dict_grown; [exact (grown_trans _ _ _ G13 G4)|exact (good_dict_in _ _ _ _ Hb1 Gtr)].
    - split; cbn [fst snd]; [exact (good_dict_grown _ _ _ _ _ Gd G4)|]. apply good_dupdate; auto.
  Qed.

  (** ** Nothing but array_call changes memory *)

  Lemma hbind_grown : forall {B C} (h : heap T) (x : heap T * res B) (f : heap T -> B -> heap T * res C),
    grown h (fst x) -> (forall h1 b, grown h1 (fst (f h1 b))) -> grown h (fst (hbind x f)).
  Proof. intros B C h [h1 [b|e]] f G H; cbn [hbind fst] in *; auto. exact (grown_trans _ _ _ G (H h1 b)). Qed.

  Lemma h_copy_reshaped_grown : forall src d (h : heap T), grown h (fst (h_copy_reshaped cp src h d)).
  Proof.
    intros src d. induction d as [|[k q] d IH]; intros h; cbn [h_copy_reshaped]; [apply grown_refl|].
    set (x := match src k with Some ra => if cp ra (shape (arr q)) then alloc h (load h (unrefs q)) else (h, unrefs q) | None => (h, unrefs q) end).
    assert (G : grown h (fst x)).
    { unfold x. destruct (src k); [|apply grown_refl]. destruct (cp _ _); [apply grown_alloc|apply grown_refl]. }
    destruct x as [h1 a]. cbn [fst] in G. specialize (IH h1). destruct (h_copy_reshaped cp src h1 d) as [h2 o]. exact (grown_trans _ _ _ G IH).
  Qed.

  Lemma h_restore_grown : forall (h : heap T) raw outp st inp ig, grown h (fst (h_restore cp h raw outp st inp ig)).
  Proof.
    intros. unfold h_restore. destruct (restore_data_arrays_with_properties _ _ _ _ _ _) as [d|e]; [|apply grown_refl].
    pose proof (h_copy_reshaped_grown (reshaped_from outp inp raw) d h) as G. destruct (h_copy_reshaped _ _ _ _). exact G.
  Qed.

  Lemma h_unpack_tracers_grown : forall g pk mult (h : heap T) raw st, grown h (fst (h_unpack_tracers cp g pk mult h raw st)).
  Proof.
    intros. unfold h_unpack_tracers. destruct pk as [p|]; [|apply grown_refl].
    apply hbind_grown; [apply grown_refl|]. intros h1 t. apply hbind_grown; [|intros; apply grown_refl].
    unfold h_unpack. destruct (foldM _ _ _); [apply h_restore_grown|apply grown_refl].
  Qed.

  Lemma h_tendency_finish_grown : forall g c st (h : heap T) out, grown h (fst (h_tendency_finish cp g c st h out)).
  Proof.
    intros. unfold h_tendency_finish. apply hbind_grown; [apply h_unpack_tracers_grown|]. intros h1 [tr rt].
    apply hbind_grown; [apply grown_refl|]. intros h2 _. apply hbind_grown; [apply h_restore_grown|]. intros h3 tend. cbv zeta.
    apply hbind_grown; [apply h_restore_grown|]. intros; apply grown_refl.
  Qed.

  Lemma h_stepper_insert_grown : forall c dt raw new out diag (h : heap T), grown h (fst (h_stepper_insert c dt h raw new diag out)).
  Proof.
    intros c dt raw new out. induction out as [|np out IH]; intros diag h; cbn [h_stepper_insert]; [apply grown_refl|].
    destruct (let* n := dgetE (fst np) new in _) as [v|e]; [|apply grown_refl].
    pose proof (proj1 (alloc_nd_spec h v)) as G. destruct (alloc_nd h v) as [h1 a]. exact (grown_trans _ _ _ G (IH _ h1)).
  Qed.

  Lemma h_stepper_finish_grown : forall g c dt st (h : heap T) raw out, grown h (fst (h_stepper_finish cp g c dt st h raw out)).
  Proof.
    intros. unfold h_stepper_finish. apply hbind_grown; [apply h_unpack_tracers_grown|]. intros h1 [tr rt].
    apply hbind_grown; [apply grown_refl|]. intros h2 _.
    apply hbind_grown; [destruct (s_tid c); [apply h_stepper_insert_grown|apply grown_refl]|]. intros h3 rd.
    apply hbind_grown; [apply h_restore_grown|]. intros h4 d. apply hbind_grown; [apply h_restore_grown|]. intros; apply grown_refl.
  Qed.

  Definition good_results (S : cells) (n : nat) (h : heap T) {B} (results : B -> list (dict hda)) (b : B) : Prop :=
    forall d, In d (results b) -> good_dict S n h d.

  Section Call.
    Context {UH O B : Type}.
    Variables (st : hstate) (parts : O -> list (dict (nd nat))) (results : B -> list (dict hda)) (init : bool)
      (extract : heap T -> heap T * res (dict hrval)) (vextract : state T -> res (dict (rval T)))
      (hac : harray T UH O) (finish : heap T -> dict hrval -> O -> heap T * res B).
    Hypothesis Hex : forall h, state_in h st ->
      sim h (extract h) load_raw (fun h1 o => inside (state_cells st) (length h) h1 (raw_cells o)) (vextract (load_state h st)).
    Hypothesis Hgrow : forall h raw o, grown h (fst (finish h raw o)).

    Section Frame.
      Hypothesis Hfin : forall S n h raw o, base S n h -> state_in h st -> (forall x, raw_cells raw x -> x < length h) ->
        inside S n h (parts_cells (parts o)) -> (forall d, In d (parts o) -> real_arrays d) ->
        forall h' b, finish h raw o = (h', Ok b) -> good_results S n h' results b.

      Lemma h_call_frame : forall dt u (h : heap T) u' h' r, state_in h st ->
        h_call init extract hac dt finish u h = ((u', h'), r) -> only_array_call parts results hac u h st dt u' h' r.
      Proof.
        intros dt u h u' h' r Hs H. unfold h_call in H. destruct init.
        2:{ injection H as <- <- <-. exists h. split; [apply grown_refl|]. left. eauto. }
        specialize (Hex h Hs). destruct (extract h) as [h1 [raw|e]] eqn:E1; destruct Hex as (G1 & _ & Hr); cbn [fst snd] in *.
        2:{ injection H as <- <- <-. exists h1. split; auto. left. eauto. }
        exists h1. split; auto. right. destruct (hac u h1 raw dt) as [[u2 h2] [o|e]] eqn:E2.
        2:{ injection H as <- <- <-. exists raw, h2, (Err e). split; [exact Hr|]. split; auto. split; [apply grown_refl|auto]. }
        pose proof (Hgrow h2 raw o) as G3. destruct (finish h2 raw o) as [h3 r3] eqn:E3. injection H as <- <- <-. cbn [fst] in G3.
        exists raw, h2, (Ok o). split; [exact Hr|]. split; auto. split; auto.
        intros b -> Hl Hok x (d & Hd & Hx). assert (Hl1 := grown_length _ _ G1).
        refine (proj2 (Hfin (parts_cells (parts o)) (length h2) h2 raw o _ _ _ _ _ h3 b E3 d Hd) x Hx).
        - split; auto. intros c (d' & Hin & Hc). apply (proj2 (Hok d' Hin)), Hc.
        - intros c Hc. apply Hs in Hc. lia.
        - intros c Hc. apply Hr in Hc as [Hc|Hc]; [apply Hs in Hc|]; lia.
        - apply inside_self.
        - intros d' Hin. apply Hok, Hin.
      Qed.
    End Frame.
  End Call.

  Section Refine.
    Context {UH UV O OV B BV : Type}.
    Variables (ld : heap T -> O -> OV) (parts : O -> list (dict (nd nat))) (ldb : heap T -> B -> BV) (results : B -> list (dict hda)) (init : bool)
      (extract : hstate -> heap T -> heap T * res (dict hrval)) (vextract : state T -> res (dict (rval T)))
      (hac : harray T UH O) (ac : UV -> dict (rval T) -> Z -> UV * res OV)
      (finish : hstate -> Z -> heap T -> dict hrval -> O -> heap T * res B) (vfinish : state T -> Z -> dict (rval T) -> OV -> res BV).
    Hypothesis Hex : forall st h, state_in h st ->
      sim h (extract st h) load_raw (fun h1 o => inside (state_cells st) (length h) h1 (raw_cells o)) (vextract (load_state h st)).
    Hypothesis Hfin : forall S n st dt h raw o, base S n h -> state_in h st -> (forall x, raw_cells raw x -> x < length h) ->
        inside S n h (parts_cells (parts o)) -> (forall d, In d (parts o) -> real_arrays d) ->
        sim h (finish st dt h raw o) ldb (fun h' b => good_results S n h' results b) (vfinish (load_state h st) dt (load_raw h raw) (ld h o)).

    Lemma h_call_refines : forall (P : Prop) (I : invariant UH UV), stable I -> array_behaves_if P ld parts I hac ac ->
      call_behaves_if P ldb results I
        (fun u h st dt => h_call init (extract st) hac dt (finish st dt) u h)
        (fun v st dt => match (let* _ := raise_if (negb init) ERuntime in vextract st) with
                        | Err e => (v, Err e)
                        | Ok raw => let (v', r) := ac v raw dt in (v', let* out := r in vfinish st dt raw out)
                        end).
    Proof.
      intros P I HI Hac X h u v st dt u' h' r Hinv HX Hs HP H. unfold h_call in H. destruct init; cbn [negb raise_if bind].
      2:{ injection H as <- <- <-. split; [apply grown_refl|]. split; [|exact Logic.I]. exists v. split; auto. }
      specialize (Hex st h Hs). destruct (extract st h) as [h1 [raw|e]] eqn:E1; destruct Hex as (G1 & Ev & Hr); cbn [fst snd rmap] in *; rewrite Ev.
      2:{ injection H as <- <- <-. split; auto. split; [|exact Logic.I]. exists v. split; auto.
          apply (HI X X h h1); auto. apply grown_changed; auto. }
      assert (Hl1 := grown_length _ _ G1).
      assert (Hinv1 : I X h1 u v) by (apply (HI X X h h1); auto; apply grown_changed; auto).
      assert (Hr1 : forall x, raw_cells raw x -> x < length h1).
      { intros x Hx. apply Hr in Hx as [Hx|Hx]; [apply Hs in Hx|]; lia. }
      destruct (hac u h1 raw dt) as [[u2 h2] ro] eqn:E2.
      destruct (Hac X h1 u v raw dt u2 h2 ro Hinv1) as (G2 & (v' & Eac & Hinv2) & Hok); auto.
      { intros x Hx. apply HX in Hx. lia. }
      { intros p x Hx Hx'. apply Hr in Hx as [Hx|Hx]; [exact (HP p x Hx Hx')|]. apply HX in Hx'. lia. }
      rewrite Eac. assert (Hl2 := grown_length _ _ G2). destruct ro as [o|e]; cbn [rmap bind].
      2:{ injection H as <- <- <-. split; [exact (grown_trans _ _ _ G1 G2)|]. split; [|exact Logic.I]. exists v'. split; auto. }
      assert (G12 := grown_trans _ _ _ G1 G2).
      assert (Hs2 : state_in h2 st) by (intros c Hc; apply Hs in Hc; lia).
      assert (Hb2 : base (parts_cells (parts o)) (length h2) h2).
      { split; auto. intros c (d & Hd & Hc). apply (Hok d Hd), Hc. }
      destruct (Hfin (parts_cells (parts o)) (length h2) st dt h2 raw o Hb2 Hs2) as (G3 & E3 & Hg).
      { intros x Hx. apply Hr1 in Hx. lia. }
      { apply inside_self. }
      { intros d Hd. apply (Hok d Hd). }
      destruct (finish st dt h2 raw o) as [h3 r3]. injection H as <- <- <-. cbn [fst snd] in *.
      split; [exact (grown_trans _ _ _ G12 G3)|]. split.
      - exists v'. split; [|apply (HI X X h2 h3); auto; apply grown_changed; auto].
        rewrite <- (load_state_grown h h2), <- (load_raw_grown h1 h2); auto. f_equal. exact E3.
      - destruct r3 as [b|e]; auto. intros d Hd. destruct (Hg d Hd) as (Hn & Hi). split; [exact (good_dict_in _ _ _ _ (base_grown _ _ _ _ Hb2 G3) (Hg d Hd))|].
        split; auto. intros c Hc HXc. apply Hi in Hc as [(d' & Hin & Hc)|Hc].
        + exact (proj2 (proj2 (Hok d' Hin)) c Hc HXc).
        + apply HX in HXc. lia.
    Qed.
  End Refine.

  Lemma extract_ok : forall g inp pk st (h : heap T), state_in h st ->
    sim h (h_raw_state cp g inp pk h st) load_raw (fun h1 o => inside (state_cells st) (length h) h1 (raw_cells o)) (raw_state g inp pk (load_state h st)).
  Proof. intros g inp pk st h Hs. apply h_raw_state_sim; auto. split; auto. Qed.

  Lemma good_both : forall S n (h : heap T) b, good_pair S n h b -> good_results S n h both_results b.
  Proof. intros S n h b (H1 & H2) d [<-|[<-|[]]]; auto. Qed.

  Lemma sim_weaken : forall {B C} (h : heap T) (x : heap T * res B) (L : heap T -> B -> C) (Q Q' : heap T -> B -> Prop) v,
    sim h x L Q v -> (forall h b, Q h b -> Q' h b) -> sim h x L Q' v.
  Proof. intros B C h x L Q Q' v (G & E & H) HQ. split; auto. split; auto. destruct (snd x); auto. Qed.

  Lemma sim_good : forall {B C} (h : heap T) (x : heap T * res B) (L : heap T -> B -> C) (Q : heap T -> B -> Prop) v h' b,
    sim h x L Q v -> x = (h', Ok b) -> Q h' b.
  Proof. intros B C h x L Q v h' b (_ & _ & H) ->. exact H. Qed.

  Theorem main_tendency_frame : forall {U} g c (hac : harray T U _) dt u (h : heap T) st u' h' r, state_in h st ->
    h_tendency_call cp g c hac u h st dt = ((u', h'), r) -> only_array_call both both_results hac u h st dt u' h' r.
  Proof.
    intros U g c hac dt u h st u' h' r Hs. unfold h_tendency_call.
    apply (h_call_frame st both both_results (t_init c) (fun h => h_raw_state cp g (t_inp c) (t_packer c) h st) (raw_state g (t_inp c) (t_packer c))); auto.
    - intros h0 Hs0. apply extract_ok; auto.
    - intros. apply h_tendency_finish_grown.
    - intros S n h0 raw o Hb Hs0 Hr Hi Hw h1 b E. apply good_both.
      exact (sim_good _ _ _ _ _ _ _ (h_tendency_finish_sim S n g c st _ h0 o Hb Hs0 Hi Hw eq_refl) E).
  Qed.

  Theorem main_stepper_frame : forall {U} g c (hac : harray T U _) dt u (h : heap T) st u' h' r, state_in h st ->
    h_stepper_call cp g c hac u h st dt = ((u', h'), r) -> only_array_call both both_results hac u h st dt u' h' r.
  Proof.
    intros U g c hac dt u h st u' h' r Hs. unfold h_stepper_call.
    apply (h_call_frame st both both_results (s_init c) (fun h => h_raw_state cp g (s_inp c) (s_packer c) h st) (raw_state g (s_inp c) (s_packer c))); auto.
    - intros h0 Hs0. apply extract_ok; auto.
    - intros. apply h_stepper_finish_grown.
    - intros S n h0 raw o Hb Hs0 Hr Hi Hw h1 b E. apply good_both.
      exact (sim_good _ _ _ _ _ _ _ (h_stepper_finish_sim S n g c dt st _ raw _ h0 o Hb Hs0 Hr Hi Hw eq_refl eq_refl) E).
  Qed.

  Theorem main_diagnostic_frame : forall {U} c (hac : harray T U _) u (h : heap T) st u' h' r, state_in h st ->
    h_diagnostic_call cp c hac u h st = ((u', h'), r) -> only_array_call single single_result hac u h st 0 u' h' r.
  Proof.
    intros U c hac u h st u' h' r Hs. unfold h_diagnostic_call.
    apply (h_call_frame st single single_result (d_init c) (fun h => h_raw_state cp empty_treg (d_inp c) None h st) (raw_state empty_treg (d_inp c) None)); auto.
    - intros h0 Hs0. apply extract_ok; auto.
    - intros. apply hbind_grown; [apply grown_refl|]. intros; apply h_restore_grown.
    - intros S n h0 raw o Hb Hs0 Hr Hi Hw h1 b E d [<-|[]].
      refine (sim_good _ _ _ _ _ _ _ (h_diagnostic_finish_sim S n c st _ h0 o Hb _ eq_refl) E).
      intros x Hx. apply Hi. exists o. split; [left; auto|auto].
  Qed.

  Theorem main_tendency_behaves : forall {UH UV} (P : Prop) (I : invariant UH UV) g c hac ac, stable I ->
    array_behaves_if P load_outs both I hac ac ->
    call_behaves_if P load_pair_dicts both_results I (h_tendency_call cp g c hac)
      (fun v st dt => tendency_call g c (fun v raw => ac v raw dt) v st).
  Proof.
    intros UH UV P I g c hac ac HI Hac.
    apply (h_call_refines load_outs both load_pair_dicts both_results (t_init c) (fun st h => h_raw_state cp g (t_inp c) (t_packer c) h st)
             (raw_state g (t_inp c) (t_packer c)) hac ac (fun st dt h _ out => h_tendency_finish cp g c st h out)
             (fun st dt _ out => tendency_finish g c st out)); auto.
    - intros. apply extract_ok; auto.
    - intros S n st dt h raw o Hb Hs Hr Hi Hw. eapply sim_weaken; [|intros h' b; apply good_both].
      apply h_tendency_finish_sim; auto.
  Qed.

  Theorem main_stepper_behaves : forall {UH UV} (P : Prop) (I : invariant UH UV) g c hac ac, stable I ->
    array_behaves_if P load_outs both I hac ac ->
    call_behaves_if P load_pair_dicts both_results I (h_stepper_call cp g c hac) (stepper_call g c ac).
  Proof.
    intros UH UV P I g c hac ac HI Hac.
    apply (h_call_refines load_outs both load_pair_dicts both_results (s_init c) (fun st h => h_raw_state cp g (s_inp c) (s_packer c) h st)
             (raw_state g (s_inp c) (s_packer c)) hac ac (fun st dt h raw out => h_stepper_finish cp g c dt st h raw out)
             (fun st dt raw out => stepper_finish g c dt st raw out)); auto.
    - intros. apply extract_ok; auto.
    - intros S n st dt h raw o Hb Hs Hr Hi Hw. eapply sim_weaken; [|intros h' b; apply good_both].
      apply h_stepper_finish_sim; auto.
  Qed.

  Theorem main_diagnostic_behaves : forall {UH UV} (P : Prop) (I : invariant UH UV) c hac ac, stable I ->
    array_behaves_if P load_nds single I hac ac ->
    call_behaves_if P load_dict single_result I (fun u h st _ => h_diagnostic_call cp c hac u h st)
      (fun v st _ => diagnostic_call c (fun v raw => ac v raw 0%Z) v st).
  Proof.
    intros UH UV P I c hac ac HI Hac.
    assert (K : call_behaves_if P load_dict single_result I
      (fun u h st dt => h_call (d_init c) (fun h => h_raw_state cp empty_treg (d_inp c) None h st) hac dt
         (fun h _ out => hbind (h, check_outputs (d_diag c) (d_inp c) [] out) (fun h _ => h_restore cp h out (d_diag c) st (d_inp c) [])) u h)
      (fun v st dt => diagnostic_call c (fun v raw => ac v raw dt) v st)).
    { apply (h_call_refines load_nds single load_dict single_result (d_init c) (fun st h => h_raw_state cp empty_treg (d_inp c) None h st)
             (raw_state empty_treg (d_inp c) None) hac ac
             (fun st dt h _ out => hbind (h, check_outputs (d_diag c) (d_inp c) [] out) (fun h _ => h_restore cp h out (d_diag c) st (d_inp c) []))
             (fun st dt _ out => diagnostic_finish c st out)); auto.
      - intros. apply extract_ok; auto.
      - intros S n st dt h raw o Hb Hs Hr Hi Hw. eapply sim_weaken; [apply (h_diagnostic_finish_sim S n); auto|].
        + intros x Hx. apply Hi. exists o. split; [left; auto|auto].
        + intros h' b Hg d [<-|[]]. exact Hg. }
    intros X h u v st dt u' h' r Hinv HX Hs HP H. exact (K X h u v st 0%Z u' h' r Hinv HX Hs HP H).
  Qed.

  (** A component whose array_call behaves is a component as the composites, wrappers and steppers want it. *)
  Theorem main_tendency_component : forall {UH UV} (P : Prop) (I : invariant UH UV) g c hac ac, stable I ->
    array_behaves_if P load_outs both I hac ac ->
    returns_proper (fun v st dt => tendency_call g c (fun v raw => ac v raw dt) v st) ->
    behaves_if P I (h_tendency_call cp g c hac) (fun v st dt => tendency_call g c (fun v raw => ac v raw dt) v st).
  Proof.
    intros UH UV P I g c hac ac HI Hac Hp X h u v st dt u' h' r Hinv HX Hs HP H.
    destruct (main_tendency_behaves P I g c hac ac HI Hac X h u v st dt u' h' r Hinv HX Hs HP H) as (G & (v' & E & Hi) & Hr).
    split; auto. destruct r as [[t d]|e].
    2:{ split; auto. exists v'. auto. }
    split. { exists v'. auto. }
    destruct (Hr t (or_introl eq_refl)) as (T1 & T2 & T3). destruct (Hr d (or_intror (or_introl eq_refl))) as (D1 & D2 & D3).
    split; auto. split; auto. split; [|split; [|split]]; auto.
    specialize (Hp _ _ _ _ _ _ E). cbn [fst] in Hp. destruct Hp as (_ & Hp). split; auto. intros k a Hin. apply (Hp k).
    unfold load_dict. rewrite (dget_map (load h')), (dget_NoDup_In _ _ _ T2 Hin). reflexivity.
  Qed.
End Main.
