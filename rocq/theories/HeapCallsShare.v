(** Which memory the arrays given to array_call share with the state, and the returned arrays with those of array_call. *)
From Coq Require Import String List Bool Arith ZArith QArith Qcanon Lia.
From Verif Require Import Prelude PreludeFacts ArithM NdArray NdFacts Units DataArrayM Wildcard WildcardFacts GetNp GetNpFacts ExtractFacts Restore RestoreFacts
  ArraysMain InitNp Tracers Composite Heap Components HeapCalls SpecArrays SpecComposite SpecHeap SpecHeapCalls HeapSteppers HeapComposite
  HeapCallsFacts HeapCallsViews HeapFacts ComponentFacts HeapCallsMain.
Import ListNotations.
Open Scope string_scope.
Open Scope nat_scope.
Open Scope list_scope.

Lemma dget_refs : forall k st, dget k (refs_state st) = option_map refs_val (dget k st).
Proof. intros. apply dget_map. Qed.

Lemma nth_in : forall {S} (l : list S) i d x, nth i l d = x -> i < length l -> nth_error l i = Some x.
Proof. intros S l i d x <- H. apply nth_error_nth'; auto. Qed.

Section Share.
  Context {T : Type} {A : Arith T} {R : Registry}.
  Variable cp : nd nat -> list nat -> bool.

  Lemma in_units_dec : forall a u, in_units a u \/ ~ in_units a u.
  Proof.
    intros a u. unfold in_units. destruct (dget "units" (h_attrs a)) as [own|]; [|right; intros (x & y & z & K & _); discriminate].
    destruct (parse own) as [u1|] eqn:E1; [|right; intros (x & y & z & K & K1 & _); injection K as <-; congruence].
    destruct (parse u) as [u2|] eqn:E2; [|right; intros (x & y & z & K & K1 & K2 & _); congruence].
    destruct (one_eqb u1 u2) eqn:E; [left; exists own, u1, u2; auto|].
    right. intros (x & y & z & K & K1 & K2 & K3). injection K as <-. congruence.
  Qed.

  Lemma h_to_units_same : forall (h : heap T) a u h1 q, in_units a u -> h_to_units h a u = (h1, Ok q) -> h1 = h /\ q = a.
  Proof.
    intros h a u h1 q (own & u1 & u2 & E & E1 & E2 & Eq) H. unfold h_to_units in H.
    destruct (to_units (load h a) u); [|discriminate]. unfold dgetE, parseE in H. rewrite E in H. cbn [bind] in H.
    rewrite E1, E2 in H. cbn [bind] in H. rewrite Eq in H. injection H as <- <-. auto.
  Qed.

  Lemma h_to_units_other : forall (h : heap T) a u h1 q, ~ in_units a u -> h_to_units h a u = (h1, Ok q) ->
    forall x, In x (h_cells q) -> length h <= x.
  Proof.
    intros h a u h1 q Hn H x Hx. unfold h_to_units in H.
    destruct (to_units (load h a) u) as [v|]; [|discriminate].
    destruct (let* own := dgetE "units" (h_attrs a) in let* u1 := parseE own in let* u2 := parseE u in Ok (one_eqb u1 u2)) as [[|]|] eqn:E.
    - exfalso. apply Hn. apply bind_ok in E as (own & E1 & E). apply bind_ok in E as (u1 & E2 & E). apply bind_ok in E as (u2 & E3 & E).
      apply dgetE_ok in E1. unfold parseE in E2, E3. destruct (parse own) eqn:P1; [|discriminate]. destruct (parse u) eqn:P2; [|discriminate].
      exists own, u1, u2. injection E2 as <-. injection E3 as <-. injection E as E. auto.
    - destruct (alloc h v) as [h2 b] eqn:Ea. injection H as <- <-. apply (f_equal snd) in Ea. cbn [alloc snd] in Ea. subst b.
      cbn [h_cells] in Hx. apply in_seq in Hx. lia.
    - destruct (alloc h v) as [h2 b] eqn:Ea. injection H as <- <-. apply (f_equal snd) in Ea. cbn [alloc snd] in Ea. subst b.
      cbn [h_cells] in Hx. apply in_seq in Hx. lia.
  Qed.

  Lemma h_to_units_meta : forall (h : heap T) a u h1 q, h_to_units h a u = (h1, Ok q) ->
    length h <= length h1 /\ h_shape q = h_shape a.
  Proof.
    intros h a u h1 q H. unfold h_to_units in H. destruct (to_units (load h a) u) as [v|] eqn:E; [|discriminate].
    destruct (let* own := _ in _) as [[|]|].
    - injection H as <- <-. auto.
    - destruct (alloc h v) as [h2 b] eqn:Ea. injection H as <- <-. injection Ea as <- <-. cbn [h_shape]. split; [unfold heap in *; rewrite app_length; lia|].
      apply to_units_dims in E as (_ & ->). reflexivity.
    - destruct (alloc h v) as [h2 b] eqn:Ea. injection H as <- <-. injection Ea as <- <-. cbn [h_shape]. split; [unfold heap in *; rewrite app_length; lia|].
      apply to_units_dims in E as (_ & ->). reflexivity.
  Qed.

  (** One array: the very cells of [a] when no copy is needed, else new ones. *)
  Lemma h_get_array_share : forall (h : heap T) v u od dl h1 b, h_get_array h v u od dl = (h1, Ok b) ->
    exists a, v = HDA a /\
      (wf_nd (arr (refs a)) -> wf_nd b) /\
      (in_units a u -> prod (shape b) = prod (h_shape a) -> wf_nd (arr (refs a)) ->
         get_array (A:=ArithCell (length h)) (VDA (refs a)) u od dl = Ok b) /\
      (~ in_units a u \/ prod (shape b) <> prod (h_shape a) -> forall x, In x (data b) -> length h <= x) /\
      length h <= length h1.
  Proof.
    intros h [a|t] u od dl h1 b H; cbn [h_get_array] in H; [|discriminate].
    destruct (negb (dmem "units" (h_attrs a))) eqn:Eu; [discriminate|].
    destruct (h_to_units h a u) as [h2 [q|e]] eqn:E; [|destruct e; discriminate].
    destruct (h_to_units_meta _ _ _ _ _ E) as (Hl & Hsh).
    unfold h_get_numpy_array in H. destruct (get_numpy_array (refs q) od dl) as [b0|e] eqn:Eg; [|discriminate].
    exists a. split; auto.
    destruct (Nat.eqb (prod (shape b0)) (prod (h_shape q)) && Nat.eqb (length (h_cells q)) (prod (h_shape q))) eqn:Ev.
    - injection H as <- <-. apply andb_true_iff in Ev as (Ev & Ew). apply Nat.eqb_eq in Ev, Ew. rewrite Hsh in Ev.
      destruct (get_numpy_array_In (A:=ArithCell (length h2)) (refs q) od dl b0 Ew Eg) as (Hwb & Hi).
      split; [auto|]. split; [|split; auto].
      + intros Hs _ _. destruct (h_to_units_same _ _ _ _ _ Hs E) as (-> & ->). cbn [get_array refs attrs]. rewrite Eu.
        destruct Hs as (own & u1 & u2 & E0 & E1 & E2 & E3).
        assert (Et : to_units (A:=ArithCell (length h)) (refs a) u = Ok (refs a)).
        { unfold to_units, refs. cbn [attrs]. rewrite E0. unfold parseE. rewrite E1, E2. cbn [bind]. rewrite E3. reflexivity. }
        unfold refs in Et |- *. cbn [attrs]. rewrite Et. exact Eg.
      + intros [Hn|Hn] x Hx; [|contradiction]. apply Hi in Hx. exact (h_to_units_other _ _ _ _ _ Hn E x Hx).
    - destruct (alloc_nd_spec h2 (load_nd h2 b0)) as (G & _ & Hc & Es & El).
      destruct (alloc_nd h2 (load_nd h2 b0)) as [h3 c] eqn:Ea. injection H as <- <-. cbn [fst snd] in *.
      assert (Hnew : forall x, In x (data c) -> length h <= x) by (intros x Hx; apply Hc in Hx; lia).
      apply grown_length in G. split; [|split; [|split; [auto|lia]]].
      + intros Hw. assert (Hwq : wf_nd (arr (refs q))).
        { unfold h_to_units in E. destruct (to_units (load h a) u) as [v|] eqn:Et; [|discriminate].
          assert (Hwv : wf_nd (arr v)).
          { assert (Hwl : wf_nd (arr (load h a))) by (unfold wf_nd in *; cbn [load arr shape data refs] in *; rewrite map_length; exact Hw).
            unfold to_units in Et. destruct (dget "units" (attrs (load h a))); [|discriminate]. apply bind_ok in Et as (y1 & _ & Et). apply bind_ok in Et as (y2 & _ & Et).
            destruct (negb (one_eqb y1 y2)); [|injection Et as <-; auto]. destruct (udim_eqb y1 y2); [|discriminate]. injection Et as <-.
            unfold wf_nd in *. cbn [da_map arr nd_map shape data]. rewrite map_length. exact Hwl. }
          destruct (let* own := _ in _) as [[|]|]; [injection E as <- <-; exact Hw| |];
            (injection E as <- <-; unfold wf_nd in *; cbn [refs arr shape data h_shape h_cells]; rewrite seq_length; exact Hwv). }
        destruct (get_numpy_array_In (A:=ArithCell (length h2)) (refs q) od dl b0 Hwq Eg) as (Hwb & _).
        unfold wf_nd in *. rewrite El, Es. cbn [load_nd shape data]. rewrite map_length. exact Hwb.
      + intros Hs Hp Hw. destruct (h_to_units_same _ _ _ _ _ Hs E) as (-> & ->). rewrite Es in Hp. cbn [load_nd shape] in Hp.
        rewrite Hp, Nat.eqb_refl in Ev. cbn [andb] in Ev. apply Nat.eqb_neq in Ev. contradiction.
  Qed.

  Lemma flatten_shape : forall {S} (b f : nd S) i j, flatten_wildcard_dims b i j = Ok f -> prod (shape f) = prod (shape b).
  Proof.
    intros S b f i j H. unfold flatten_wildcard_dims in H. destruct (Nat.ltb _ _); [discriminate|]. destruct (Nat.ltb _ _); [discriminate|].
    unfold reshape in H. destruct (Nat.eqb i j); (destruct (Nat.eqb _ (prod (shape b))) eqn:E; [|discriminate]); injection H as <-; apply Nat.eqb_eq in E; exact E.
  Qed.

  Lemma axis_in_range : forall W L c ds, grid_point W L c ds -> in_range (map (axis_pos W L c) ds) (map (axis_len W L) ds).
  Proof.
    intros W L c ds H. unfold in_range. induction ds as [|d ds IH]; cbn [map]; constructor.
    - specialize (H d (or_introl eq_refl)). unfold axis_pos, axis_len. destruct (String.eqb d "*"); auto.
      apply ravel_lt. unfold in_range. clear -H. induction W as [|w W IH]; cbn [map]; constructor.
      + apply H. left; auto.
      + apply IH. intros x Hx. apply H. right; auto.
    - apply IH. intros x Hx. apply H. right; auto.
  Qed.

  Lemma extracted_same_cell : forall st pd L d name p ds u a r,
    wf_state (refs_state st) -> ~ unexpected_dim (refs_state st) pd -> In (name, p) pd ->
    p_dims p = Some ds -> p_units p = Some u -> dget name st = Some (HDA a) -> in_units a u ->
    common_lengths (refs_state st) pd L ->
    extracted (A:=ArithCell d) (refs_state st) pd L name p r ->
    forall c, grid_point (wildcard_dims (refs_state st) pd) L c ds ->
      same_cell r (map (axis_pos (wildcard_dims (refs_state st) pd) L c) ds) a c.
  Proof.
    intros st pd L d name p ds u a r Hwf Hu Hin Hds Hun Ha Hs HL (ds' & u' & a' & q & E1 & E2 & E3 & E4 & Hwr & Esh & Eat) c Hg.
    rewrite Hds in E1. injection E1 as <-. rewrite Hun in E2. injection E2 as <-. rewrite dget_refs, Ha in E3. injection E3 as <-.
    assert (q = refs a) as ->.
    { destruct Hs as (own & u1 & u2 & K0 & K1 & K2 & K3). unfold to_units, refs in E4. cbn [attrs] in E4. rewrite K0 in E4. unfold parseE in E4.
      rewrite K1, K2 in E4. cbn [bind] in E4. rewrite K3 in E4. injection E4 as <-. reflexivity. }
    specialize (Eat c Hg). set (W := wildcard_dims (refs_state st) pd) in *.
    assert (Har : dget name (refs_state st) = Some (VDA (refs a))) by (rewrite dget_refs, Ha; reflexivity).
    destruct (Hwf name (refs a) Har) as ((Hl & Hnd & Hwa) & Hstar).
    assert (Hli : listed (refs_state st) pd name p ds (refs a)) by (repeat split; auto).
    assert (Hca : in_range (map c (h_dims a)) (h_shape a)).
    { assert (Hlt : forall x n, has_dim (refs a) x n -> c x < n).
      { intros x n Hx. destruct HL as (HL & _). rewrite <- (HL _ _ _ _ _ _ Hli Hx).
        assert (Hxd : In x (dims (refs a))) by (apply in_combine_l in Hx; exact Hx).
        assert (Hne : x <> "*") by (intros ->; contradiction). apply String.eqb_neq in Hne.
        destruct (In_dec_str x ds) as [Hi|Hni].
        - specialize (Hg x Hi). rewrite Hne in Hg. exact Hg.
        - destruct (In_dec_str "*" ds) as [Hi|Hns].
          + specialize (Hg "*" Hi). cbn in Hg. apply Hg. unfold W. eapply undeclared_In; eauto.
          + exfalso. apply Hu. exists name, p, ds, (refs a), x. auto. }
      unfold has_dim in Hlt. cbn [refs dims arr shape] in Hl, Hlt. unfold in_range. clear -Hl Hlt. revert Hl Hlt.
      generalize (h_shape a). induction (h_dims a) as [|x l IH]; intros [|n sh] Hl Hlt; try discriminate; cbn [map]; constructor.
      - apply Hlt. left; auto.
      - apply IH; [injection Hl; auto|]. intros y m Hy. apply Hlt. right; auto. }
    unfold same_cell. exists (at_ (A:=ArithCell d) r (map (axis_pos W L c) ds)). split.
    - apply nth_in with (d := d); [reflexivity|]. unfold wf_nd in Hwr. rewrite Hwr. apply ravel_lt. rewrite Esh. apply axis_in_range; auto.
    - rewrite Eat. apply nth_in with (d := d); [reflexivity|]. unfold wf_nd in Hwa. cbn [refs arr shape data] in Hwa. rewrite Hwa. apply ravel_lt; auto.
  Qed.

  Lemma h_extract_step_share : forall st pd wn dl (h : heap T) out name p h1 out',
    wf_state (refs_state st) -> wf_pdict pd -> get_wildcard_matches_and_dim_lengths (refs_state st) pd = Ok (wn, dl) -> In (name, p) pd ->
    h_extract_step cp st wn dl h out (name, p) = (h1, Ok out') ->
    exists r, out' = dset (raw_name name p) r out /\ input_view cp st pd (length h) name p r /\ length h <= length h1.
  Proof.
    intros st pd wn dl h out name p h1 out' Hwf Hwp Hscan Hin H.
    pose proof Hscan as Hsc. apply wildcard_matches_spec in Hsc as ((_ & Hu & HL & _) & Hwn); auto.
    unfold h_extract_step in H. cbn [fst snd] in H.
    destruct (dims_and_units p) as [[ds u]|e] eqn:Edu; cbn [bind hbind] in H; [|discriminate].
    pose proof Edu as Edu'. unfold dims_and_units in Edu'. destruct (p_dims p) as [ds'|] eqn:Hds; [|discriminate].
    destruct (p_units p) as [u'|] eqn:Hun; [|discriminate]. injection Edu' as -> ->.
    destruct (dgetE name st) as [v|e] eqn:Ev; cbn [bind hbind] in H; [|discriminate]. apply dgetE_ok in Ev.
    assert (Hvr : dgetE name (refs_state st) = Ok (refs_val v)) by (unfold dgetE; rewrite dget_refs, Ev; reflexivity).
    assert (Hone := Hwp _ _ _ Hin Hds). apply one_star_index in Hone.
    assert (Hstep : forall d (r : nd nat), extract_step (A:=ArithCell d) (refs_state st) wn dl [] (name, p) = Ok (dset (raw_name name p) r []) ->
              forall a, v = HDA a -> in_units a u -> forall L, common_lengths (refs_state st) pd L ->
              forall c, grid_point (wildcard_dims (refs_state st) pd) L c ds ->
                same_cell r (map (axis_pos (wildcard_dims (refs_state st) pd) L c) ds) a c).
    { intros d r Hx a -> Hs L HL1 c Hg.
      destruct (extract_step_ok (A:=ArithCell d) (refs_state st) pd wn dl [] name p _ Hwf Hwp Hscan Hin Hx) as (r' & E & Hex).
      cbn [dset] in E. injection E as ->.
      assert (HLL : forall x, L x = or1 (dget x dl)) by (apply (common_lengths_unique (refs_state st) pd L (fun x => or1 (dget x dl)) Hwf HL1 HL)).
      pose proof (extracted_same_cell st pd _ d name p ds u a r' Hwf Hu Hin Hds Hun Ev Hs HL Hex c) as K.
      assert (Em : map (axis_pos (wildcard_dims (refs_state st) pd) L c) ds =
                   map (axis_pos (wildcard_dims (refs_state st) pd) (fun x => or1 (dget x dl)) c) ds).
      { apply map_ext. intros x. apply axis_pos_ext; auto. }
      rewrite Em. apply K. intros x Hx'. specialize (Hg x Hx'). destruct (String.eqb x "*").
      - intros w Hw. rewrite <- HLL; auto.
      - rewrite <- HLL; auto. }
    destruct (index_of "*" ds) as [i|] eqn:Ei.
    - assert (Hst : In "*" ds) by (destruct Hone as (pre & post & -> & _); apply in_app_iff; right; left; auto).
      destruct wn as [names|]; [|discriminate].
      destruct (h_get_array h v u (splice_wildcard names ds) dl) as [h2 [b|e]] eqn:Eg; cbn [hbind] in H; [|discriminate].
      destruct (h_get_array_share _ _ _ _ _ _ _ Eg) as (a & -> & Hwb & Hsh & Hnew & Hlen).
      assert (Hwa : wf_nd (arr (refs a))).
      { apply (Hwf name (refs a)). rewrite dget_refs, Ev. reflexivity. }
      destruct (flatten_wildcard_dims b i (i + length names)) as [f|e] eqn:Ef; [|discriminate].
      unfold h_reshaped in H. destruct (cp b (shape f)) eqn:Ec.
      + destruct (alloc_nd_spec h2 (load_nd h2 f)) as (G & _ & Hc & Es & _).
        destruct (alloc_nd h2 (load_nd h2 f)) as [h3 r]. cbn [hbind fst snd] in *. injection H as <- <-. apply grown_length in G.
        exists r. split; auto. split; [|lia]. exists ds, u, a. split; auto. split; auto. split; auto. split.
        * intros _ _ Hcp. rewrite (Hcp Hst) in Ec. discriminate.
        * intros _ x Hx. apply Hc in Hx. lia.
      + cbn [hbind] in H. injection H as <- <-. exists f. split; auto. split; auto.
        exists ds, u, a. split; auto. split; auto. split; auto. cbv zeta. rewrite (flatten_shape _ _ _ _ Ef). split.
        * intros Hs Hp _ L HL1. apply (Hstep (length h)); auto. unfold extract_step. cbn [fst snd]. rewrite Edu. cbn [bind]. rewrite Hvr. cbn [bind refs_val].
          rewrite Ei, (Hsh Hs Hp Hwa). cbn [bind]. rewrite Ef. reflexivity.
        * intros [Hn|[Hn|(_ & Hcp)]] x Hx; [| |rewrite Hcp in Ec; discriminate]; rewrite (flatten_data _ _ _ _ Ef) in Hx; apply Hnew; auto.
    - destruct (h_get_array h v u ds dl) as [h2 [b|e]] eqn:Eg; cbn [hbind] in H; [|discriminate]. injection H as <- <-.
      destruct (h_get_array_share _ _ _ _ _ _ _ Eg) as (a & -> & Hwb & Hsh & Hnew & Hlen).
      assert (Hwa : wf_nd (arr (refs a))).
      { apply (Hwf name (refs a)). rewrite dget_refs, Ev. reflexivity. }
      exists b. split; auto. split; auto. exists ds, u, a. split; auto. split; auto. split; auto. split.
      + intros Hs Hp _ L HL1. apply (Hstep (length h)); auto. unfold extract_step. cbn [fst snd]. rewrite Edu. cbn [bind]. rewrite Hvr. cbn [bind refs_val].
        rewrite Ei, (Hsh Hs Hp Hwa). reflexivity.
      + intros [Hn|[Hn|(Hst & _)]]; [apply Hnew; auto|apply Hnew; auto|]. contradiction.
  Qed.

  Lemma input_view_le : forall st pd n m name p r, n <= m -> input_view cp st pd m name p r -> input_view cp st pd n name p r.
  Proof.
    intros st pd n m name p r Hl (ds & u & a & E1 & E2 & E3 & H1 & H2). exists ds, u, a. split; auto. split; auto. split; auto. split; [exact H1|].
    intros Hn x Hx. specialize (H2 Hn x Hx). lia.
  Qed.

  Lemma h_extract_share : forall st pd wn dl n,
    wf_state (refs_state st) -> wf_pdict pd -> get_wildcard_matches_and_dim_lengths (refs_state st) pd = Ok (wn, dl) ->
    forall l (h : heap T) out h1 out', incl l pd -> n <= length h ->
    h_extract cp st wn dl h l out = (h1, Ok out') ->
    NoDup (keys out ++ map (fun np => raw_name (fst np) (snd np)) l) ->
    length h <= length h1 /\
    (forall k, In k (keys out) -> dget k out' = dget k out) /\
    (forall name p, In (name, p) l -> exists r, dget (raw_name name p) out' = Some r /\ input_view cp st pd n name p r).
  Proof.
    intros st pd wn dl n Hwf Hwp Hscan. induction l as [|[name p] l IH]; intros h out h1 out' Hincl Hn H Hnd; cbn [h_extract] in H.
    - injection H as <- <-. split; auto. split; auto. intros ? ? [].
    - destruct (h_extract_step cp st wn dl h out (name, p)) as [h2 [o|e]] eqn:E; cbn [hbind] in H; [|discriminate].
      destruct (h_extract_step_share st pd wn dl h out name p h2 o Hwf Hwp Hscan (Hincl _ (or_introl eq_refl)) E) as (r & -> & HQ & Hl).
      cbn [map fst snd] in Hnd.
      assert (Hfresh : ~ In (raw_name name p) (keys out)).
      { intros Hi. apply NoDup_remove_2 in Hnd. apply Hnd, in_app_iff; auto. }
      assert (Hk : keys (dset (raw_name name p) r out) = keys out ++ [raw_name name p]).
      { rewrite keys_dset. apply dmem_false in Hfresh. rewrite Hfresh. reflexivity. }
      destruct (IH h2 (dset (raw_name name p) r out) h1 out') as (Hl2 & Hold & Hnew); auto.
      + intros x Hx. apply Hincl. right; auto.
      + lia.
      + rewrite Hk, <- app_assoc. exact Hnd.
      + split; [lia|]. split.
        * intros k Hi. rewrite Hold by (rewrite Hk, in_app_iff; auto). apply dget_dset_neq. intros ->; contradiction.
        * intros nm q [E'|Hi]; [|auto]. injection E' as <- <-. exists r. split; [|exact (input_view_le _ _ _ _ _ _ _ Hn HQ)].
          rewrite Hold by (rewrite Hk, in_app_iff; right; left; auto). apply dget_dset_eq.
  Qed.

  Lemma h_raw_state_share : forall g inp pk (h : heap T) st h1 raw,
    wf_state (refs_state st) -> wf_pdict inp -> NoDup (map (fun np => raw_name (fst np) (snd np)) inp) ->
    h_raw_state cp g inp pk h st = (h1, Ok raw) ->
    input_views cp st inp (match pk with Some _ => true | None => false end) (length h) raw.
  Proof.
    intros g inp pk h st h1 raw Hwf Hwp Hnd H. unfold h_raw_state in H.
    destruct (check_inputs inp (load_state h st)) as [x|e]; cbn [hbind] in H; [|discriminate].
    unfold h_get_numpy_arrays in H. destruct (get_wildcard_matches_and_dim_lengths (refs_state st) inp) as [[wn dl]|e] eqn:Es; cbn [hbind] in H; [|discriminate].
    destruct (h_extract cp st wn dl h inp []) as [h2 [d|e]] eqn:Ee; cbn [hbind] in H; [|discriminate].
    destruct (h_extract_share st inp wn dl (length h) Hwf Hwp Es inp h [] h2 d) as (Hl & _ & Hv); auto; [intros x0 Hx0; exact Hx0|].
    assert (Hd : forall name p, In (name, p) inp -> exists r, dget (raw_name name p) (map (fun kv => (fst kv, HRArr (snd kv))) d) = Some (HRArr r) /\
                   input_view cp st inp (length h) name p r).
    { intros name p Hin. destruct (Hv name p Hin) as (r & Hr & HQ). exists r. split; auto. rewrite (dget_map HRArr), Hr. reflexivity. }
    destruct pk as [p|].
    - destruct (pack g p (load_state h2 st)) as [v|e]; cbn [hbind] in H; [|discriminate].
      destruct (alloc_nd_spec h2 v) as (G & _ & Hc & _). destruct (alloc_nd h2 v) as [h3 t]. cbn [hbind fst snd] in *.
      destruct (dgetE "time" st) as [tm|e]; cbn [hbind] in H; [|discriminate]. injection H as <- <-. split.
      + intros name q Hin Ht Htr. destruct (Hd name q Hin) as (r & Hr & HQ). exists r. split; auto.
        rewrite dget_dset_neq by (intros K; apply Ht; auto). rewrite dget_dset_neq by (intros K; apply Htr; auto). exact Hr.
      + intros _. exists t. split; [rewrite dget_dset_neq by discriminate; apply dget_dset_eq|]. intros y Hy. apply Hc in Hy. lia.
    - destruct (dgetE "time" st) as [tm|e]; cbn [hbind] in H; [|discriminate]. injection H as <- <-. split; [|discriminate].
      intros name q Hin Ht _. destruct (Hd name q Hin) as (r & Hr & HQ). exists r. split; auto.
      rewrite dget_dset_neq by (intros K; apply Ht; auto). exact Hr.
  Qed.

  Lemma h_call_runs_on : forall {U O B} init extract (hac : harray T U O) dt (finish : heap T -> dict hrval -> O -> heap T * res B) u (h : heap T) u' h' r (views : dict hrval -> Prop),
    (forall h1 raw, extract h = (h1, Ok raw) -> views raw) ->
    h_call init extract hac dt finish u h = ((u', h'), r) -> runs_on views hac u dt u' r.
  Proof.
    intros U O B init extract hac dt finish u h u' h' r views Hv H. unfold h_call in H. destruct init.
    2:{ injection H as <- <- <-. left. eauto. }
    destruct (extract h) as [h1 [raw|e]] eqn:E.
    2:{ injection H as <- <- <-. left. eauto. }
    right. destruct (hac u h1 raw dt) as [[u2 h2] ro] eqn:E2. exists h1, raw, h2, ro. split; [eauto|].
    destruct ro as [o|e]; [destruct (finish h2 raw o)|]; injection H as <- _ _; exact E2.
  Qed.

  Theorem main_tendency_inputs : forall {U} g c (hac : harray T U _) dt u (h : heap T) st u' h' r,
    wf_state (refs_state st) -> wf_pdict (t_inp c) -> NoDup (map (fun np => raw_name (fst np) (snd np)) (t_inp c)) ->
    h_tendency_call cp g c hac u h st dt = ((u', h'), r) ->
    runs_on (input_views cp st (t_inp c) (match t_packer c with Some _ => true | None => false end) (length h)) hac u dt u' r.
  Proof.
    intros U g c hac dt u h st u' h' r Hwf Hwp Hnd H. refine (h_call_runs_on _ _ _ _ _ _ _ _ _ _ _ _ H).
    intros h1 raw E. exact (h_raw_state_share _ _ _ _ _ _ _ Hwf Hwp Hnd E).
  Qed.

  Theorem main_stepper_inputs : forall {U} g c (hac : harray T U _) dt u (h : heap T) st u' h' r,
    wf_state (refs_state st) -> wf_pdict (s_inp c) -> NoDup (map (fun np => raw_name (fst np) (snd np)) (s_inp c)) ->
    h_stepper_call cp g c hac u h st dt = ((u', h'), r) ->
    runs_on (input_views cp st (s_inp c) (match s_packer c with Some _ => true | None => false end) (length h)) hac u dt u' r.
  Proof.
    intros U g c hac dt u h st u' h' r Hwf Hwp Hnd H. refine (h_call_runs_on _ _ _ _ _ _ _ _ _ _ _ _ H).
    intros h1 raw E. exact (h_raw_state_share _ _ _ _ _ _ _ Hwf Hwp Hnd E).
  Qed.

  Theorem main_diagnostic_inputs : forall {U} c (hac : harray T U _) u (h : heap T) st u' h' r,
    wf_state (refs_state st) -> wf_pdict (d_inp c) -> NoDup (map (fun np => raw_name (fst np) (snd np)) (d_inp c)) ->
    h_diagnostic_call cp c hac u h st = ((u', h'), r) ->
    runs_on (input_views cp st (d_inp c) false (length h)) hac u 0 u' r.
  Proof.
    intros U c hac u h st u' h' r Hwf Hwp Hnd H. refine (h_call_runs_on _ _ _ _ _ _ _ _ _ _ _ _ H).
    intros h1 raw E. exact (h_raw_state_share _ _ None _ _ _ _ Hwf Hwp Hnd E).
  Qed.

  (** ** Outputs *)

  Lemma h_copy_reshaped_get : forall src d (h : heap T) h' out n, n <= length h -> h_copy_reshaped cp src h d = (h', out) ->
    keys out = keys d /\
    forall k q, dget k d = Some q -> exists a, dget k out = Some a /\ h_shape a = shape (arr q) /\
      match src k with
      | Some ra => if cp ra (shape (arr q)) then forall x, In x (h_cells a) -> n <= x else h_cells a = data (arr q)
      | None => h_cells a = data (arr q)
      end.
  Proof.
    intros src d. induction d as [|[k q] d IH]; intros h h' out n Hn H; cbn [h_copy_reshaped] in H.
    { injection H as <- <-. split; auto. intros k q K. discriminate. }
    destruct (match src k with Some ra => if cp ra (shape (arr q)) then alloc h (load h (unrefs q)) else (h, unrefs q) | None => (h, unrefs q) end) as [h1 a] eqn:E.
    destruct (h_copy_reshaped cp src h1 d) as [h2 o] eqn:E2. injection H as <- <-.
    assert (Hh1 : n <= length h1).
    { destruct (src k); [destruct (cp _ _)|]; injection E as <- _; auto. unfold heap in *. rewrite app_length. lia. }
    destruct (IH h1 h2 o n Hh1 E2) as (Hk & Hg). split; [cbn [keys map fst]; f_equal; exact Hk|].
    intros k' q' Hd. cbn [dget] in *. destruct (String.eqb k' k) eqn:Ek.
    - injection Hd as <-. apply String.eqb_eq in Ek. subst k'. exists a. split; auto.
      destruct (src k) as [ra|]; [|injection E as _ <-; split; reflexivity]. destruct (cp ra (shape (arr q))); injection E as _ <-; [|split; reflexivity].
      split; [reflexivity|]. intros x Hx. cbn [h_cells] in Hx. apply in_seq in Hx. lia.
    - auto.
  Qed.

  Lemma h_restore_share : forall (h : heap T) raw outp st inp ign h' out n, n <= length h ->
    wf_state (refs_state st) -> NoDup (keys outp) -> (forall name ds, declared_dims outp inp name ds -> one_star ds) ->
    h_restore cp h raw outp st inp ign = (h', Ok out) ->
    (forall name p, dget name outp = Some p -> ~ In name ign ->
      exists a, dget name out = Some a /\ output_view cp outp inp raw n name a).
  Proof.
    intros h raw outp st inp ign h' out n Hn Hwf Hnd Hos H name p Hp Hni. unfold h_restore in H.
    destruct (restore_data_arrays_with_properties raw outp (refs_state st) inp ign false) as [d|e] eqn:E; [|discriminate].
    destruct (h_copy_reshaped cp (reshaped_from outp inp raw) h d) as [h1 o] eqn:E1. injection H as <- <-.
    destruct (restoration_spec (refs_state st) raw outp inp ign false d Hwf Hnd Hos E) as (_ & Hv).
    destruct (Hv name p Hp) as (ds & q & Hds & Hq & (ra & u & K1 & K2 & K3 & K4 & K5 & K6 & _)).
    { intros [K|(K & _)]; [contradiction|discriminate]. }
    destruct (h_copy_reshaped_get _ d h h1 o n Hn E1) as (_ & Hg). destruct (Hg name q Hq) as (a & Ha & Hsh & Hm).
    exists a. split; auto. exists ds, ra. split; auto. split; auto.
    assert (Es : reshaped_from outp inp raw name = if mem "*" ds then Some ra else None).
    { unfold reshaped_from. rewrite Hp. destruct Hds as (p' & Hp' & Hds). rewrite Hp in Hp'. injection Hp' as <-.
      assert (Ed : (match p_dims p with Some ds0 => Some ds0 | None => match dget name inp with Some q0 => p_dims q0 | None => None end end) = Some ds).
      { destruct Hds as [->|(-> & q0 & -> & ->)]; reflexivity. }
      rewrite Ed. destruct (mem "*" ds); auto. rewrite (get_alias_out_key name outp inp p Hp). exact K1. }
    cbv zeta. rewrite Es in Hm. rewrite Hsh. destruct (mem "*" ds) eqn:Em.
    - apply mem_In in Em. destruct (cp ra (shape (arr q))).
      + split; [intros Hc; destruct Hc; auto|]. intros _. exact Hm.
      + split; [intros _; rewrite Hm; exact K6|]. intros (_ & Hc). discriminate Hc.
    - split; [intros _; rewrite Hm; exact K6|]. intros (Hi & _). apply mem_In in Hi. congruence.
  Qed.

  Lemma h_restore_keys : forall (h : heap T) raw outp st inp ign h' out, h_restore cp h raw outp st inp ign = (h', Ok out) -> NoDup (keys out).
  Proof.
    intros h raw outp st inp ign h' out H. unfold h_restore in H.
    destruct (restore_data_arrays_with_properties raw outp (refs_state st) inp ign false) as [d|e] eqn:E; [|discriminate].
    destruct (h_copy_reshaped cp (reshaped_from outp inp raw) h d) as [h1 o] eqn:E1. injection H as <- <-.
    destruct (h_copy_reshaped_get _ d h h1 o 0 (Nat.le_0_l _) E1) as (-> & _). exact (proj1 (restore_In _ _ _ _ _ _ _ E)).
  Qed.

  (** What remains of the returned arrays once packed tracers are taken out. *)
  Lemma h_unpack_tracers_rest : forall g pk mult (h : heap T) raw st h1 tr rest, h_unpack_tracers cp g pk mult h raw st = (h1, Ok (tr, rest)) ->
    length h <= length h1 /\ NoDup (keys tr) /\ rest = match pk with Some _ => ddel "tracers" raw | None => raw end.
  Proof.
    intros g pk mult h raw st h1 tr rest H. pose proof (h_unpack_tracers_grown cp g pk mult h raw st) as G. rewrite H in G. apply grown_length in G.
    split; [exact G|]. unfold h_unpack_tracers in H. destruct pk as [p|].
    - destruct (dgetE "tracers" raw) as [t|e]; cbn [hbind] in H; [|discriminate].
      destruct (h_unpack cp g p h t st mult) as [h2 [o|e]] eqn:E; cbn [hbind] in H; [|discriminate]. injection H as <- <- <-. split; auto.
      unfold h_unpack in E. destruct (foldM _ _ _) as [raw'|]; [|discriminate]. exact (h_restore_keys _ _ _ _ _ _ _ _ E).
    - injection H as <- <- <-. split; auto. constructor.
  Qed.

  Lemma h_insert_get : forall comp (tend : dict hda) name a diag, NoDup (keys tend) -> dget name tend = Some a ->
    dget (tendency_name comp name) (h_insert_tendencies comp tend diag) = Some a.
  Proof.
    intros comp tend name a. unfold h_insert_tendencies. induction tend as [|[k v] tend IH]; intros diag Hnd Hd; [discriminate|].
    cbn [fold_left fst snd keys map dget] in *. inversion Hnd as [|x l Hni Hnd']; subst.
    destruct (String.eqb name k) eqn:E.
    - apply String.eqb_eq in E. subst k. injection Hd as ->. clear IH Hnd Hnd'.
      assert (K : dget (tendency_name comp name) (dset (tendency_name comp name) a diag) = Some a) by apply dget_dset_eq.
      revert K. generalize (dset (tendency_name comp name) a diag). induction tend as [|[k' v'] tend IH]; intros d K; [exact K|].
      cbn [fold_left fst snd]. apply IH.
      + intros Hi. apply Hni. right; auto.
      + rewrite dget_dset_neq; auto. intros Eq. apply tendency_name_inj in Eq. apply Hni. left. auto.
    - apply IH; auto.
  Qed.

  Lemma h_insert_other : forall comp (tend : dict hda) name diag, (forall k, In k (keys tend) -> name <> tendency_name comp k) ->
    dget name (h_insert_tendencies comp tend diag) = dget name diag.
  Proof.
    intros comp tend name. unfold h_insert_tendencies. induction tend as [|[k v] tend IH]; intros diag H; [reflexivity|].
    cbn [fold_left fst snd keys map] in *. rewrite IH.
    - apply dget_dset_neq. apply H. left; auto.
    - intros j Hj. apply H. right; auto.
  Qed.

  Lemma h_stepper_insert_get : forall c dt raw new out (h : heap T) diag h' d n, n <= length h ->
    h_stepper_insert c dt h raw new diag out = (h', Ok d) ->
    (forall key, (forall k, In k (keys out) -> key <> tendency_name (s_name c) k) -> dget key d = dget key diag) /\
    (forall key k, In k (keys out) -> key = tendency_name (s_name c) k ->
       exists a, dget key d = Some a /\ forall x, In x (data a) -> n <= x).
  Proof.
    intros c dt raw new out. induction out as [|np out IH]; intros h diag h' d n Hn H; cbn [h_stepper_insert] in H.
    { injection H as <- <-. split; auto. intros key k []. }
    match type of H with context [match ?e with Ok _ => _ | Err _ => _ end] => destruct e as [v|er] end; [|discriminate].
    destruct (alloc_nd_spec h v) as (G & _ & Hc & _). destruct (alloc_nd h v) as [h1 a]. cbn [fst snd] in *. apply grown_length in G.
    assert (Hn1 : n <= length h1) by lia. destruct (IH _ _ _ _ n Hn1 H) as (K1 & K2). cbn [keys map]. split.
    - intros key Hk. rewrite K1 by (intros k Hi; apply Hk; right; auto). apply dget_dset_neq. apply Hk. left; auto.
    - intros key k [<-|Hk] ->; [|apply (K2 _ k); auto].
      destruct (in_dec string_dec (fst np) (keys out)) as [Hi|Hi]; [apply (K2 _ (fst np)); auto|].
      exists a. rewrite K1, dget_dset_eq; [|intros k Hk Eq; apply tendency_name_inj in Eq; subst; auto].
      split; auto. intros x Hx. apply Hc in Hx. lia.
  Qed.

  Lemma h_call_returns : forall {U O B} init extract (hac : harray T U O) dt (finish : heap T -> dict hrval -> O -> heap T * res B) u (h : heap T) u' h' b,
    h_call init extract hac dt finish u h = ((u', h'), Ok b) ->
    exists h1 raw h2 o, hac u h1 raw dt = ((u', h2), Ok o) /\ finish h2 raw o = (h', Ok b).
  Proof.
    intros U O B init extract hac dt finish u h u' h' b H. unfold h_call in H. destruct init; [|discriminate].
    destruct (extract h) as [h1 [raw|e]]; [|discriminate]. destruct (hac u h1 raw dt) as [[u2 h2] [o|e]] eqn:E2; [|discriminate].
    exists h1, raw, h2, o. destruct (finish h2 raw o) as [h3 r]. injection H as <- <- ->. auto.
  Qed.

  Theorem main_tendency_outputs : forall {U} g c (hac : harray T U _) dt u (h : heap T) st u' h' tend diag,
    wf_state (refs_state st) -> NoDup (keys (t_tend c)) -> NoDup (keys (t_diag c)) ->
    (forall name ds, declared_dims (t_tend c) (t_inp c) name ds \/ declared_dims (t_diag c) (t_inp c) name ds -> one_star ds) ->
    h_tendency_call cp g c hac u h st dt = ((u', h'), Ok (tend, diag)) ->
    exists h1 raw h2 o, hac u h1 raw dt = ((u', h2), Ok o) /\
      output_views cp (t_tend c) (t_inp c) (unpacked (t_packer c) (fst o)) (length h2) tend /\
      (t_tid c = true -> forall name a, dget name tend = Some a -> dget (tendency_name (t_name c) name) diag = Some a) /\
      (forall name p, dget name (t_diag c) = Some p -> ~ In name (t_added c) ->
       (t_tid c = true -> forall k, In k (keys tend) -> name <> tendency_name (t_name c) k) ->
       exists a, dget name diag = Some a /\ output_view cp (t_diag c) (t_inp c) (snd o) (length h2) name a).
  Proof.
    intros U g c hac dt u h st u' h' tend diag Hwf Hn1 Hn2 Hos H. apply h_call_returns in H as (h1 & raw & h2 & o & Eh & H).
    exists h1, raw, h2, o. split; auto. unfold h_tendency_finish in H.
    destruct (h_unpack_tracers cp g (t_packer c) (t_tunit c) h2 (fst o) st) as [h3 [[tr rt]|e]] eqn:E1; cbn [hbind] in H; [|discriminate].
    destruct (h_unpack_tracers_rest _ _ _ _ _ _ _ _ _ E1) as (Hl & Hnt & ->).
    destruct (let* _ := check_outputs (t_tend c) (t_inp c) [] _ in _) as [x|e]; cbn [hbind] in H; [|discriminate].
    match type of H with context [h_restore cp h3 ?r (t_tend c) st (t_inp c) []] => destruct (h_restore cp h3 r (t_tend c) st (t_inp c) []) as [h4 [te|e]] eqn:E2 end;
      cbn [hbind] in H; [|discriminate]. cbv zeta in H.
    destruct (h_restore cp h4 (snd o) (t_diag c) st (t_inp c) (t_added c)) as [h5 [di|e]] eqn:E3; cbn [hbind] in H; [|discriminate].
    injection H as _ <- <-. assert (Hnte := h_restore_keys _ _ _ _ _ _ _ _ E2). split.
    - intros name p Hp. rewrite dget_dupdate by auto.
      destruct (h_restore_share h3 _ _ _ _ _ _ _ (length h2) Hl Hwf Hn1 (fun nm ds K => Hos nm ds (or_introl K)) E2 name p Hp) as (a & Ha & Hv); [intros []|].
      exists a. rewrite Ha. split; auto.
    - split.
      + intros Ht name a Ha. rewrite Ht. apply h_insert_get; auto. apply NoDup_dupdate; auto.
      + intros name p Hp Hni Hk. pose proof (h_restore_grown cp h3 (match t_packer c with Some _ => ddel "tracers" (fst o) | None => fst o end) (t_tend c) st (t_inp c) []) as G.
        rewrite E2 in G. apply grown_length in G. cbn [fst] in G.
        assert (Hl4 : length h2 <= length h4) by lia.
        destruct (h_restore_share h4 _ _ _ _ _ _ _ (length h2) Hl4 Hwf Hn2 (fun nm ds K => Hos nm ds (or_intror K)) E3 name p Hp Hni) as (a & Ha & Hv).
        exists a. split; auto. destruct (t_tid c); auto. rewrite h_insert_other; auto.
  Qed.

  Theorem main_stepper_outputs : forall {U} g c (hac : harray T U _) dt u (h : heap T) st u' h' diag new,
    wf_state (refs_state st) -> NoDup (keys (s_out c)) -> NoDup (keys (s_diag c)) ->
    (forall name ds, declared_dims (s_out c) (s_inp c) name ds \/ declared_dims (s_diag c) (s_inp c) name ds -> one_star ds) ->
    h_stepper_call cp g c hac u h st dt = ((u', h'), Ok (diag, new)) ->
    exists h1 raw h2 o, hac u h1 raw dt = ((u', h2), Ok o) /\
      output_views cp (s_out c) (s_inp c) (unpacked (s_packer c) (snd o)) (length h2) new /\
      (forall name p, dget name (s_diag c) = Some p ->
       exists a, dget name diag = Some a /\
         if s_tid c && existsb (fun k => String.eqb (out_key (s_diag c) (s_inp c) name) (tendency_name (s_name c) k)) (keys (s_out c))
         then forall x, In x (h_cells a) -> length h2 <= x
         else output_view cp (s_diag c) (s_inp c) (fst o) (length h2) name a).
  Proof.
    intros U g c hac dt u h st u' h' diag new Hwf Hn1 Hn2 Hos H. apply h_call_returns in H as (h1 & raw & h2 & o & Eh & H).
    exists h1, raw, h2, o. split; auto. unfold h_stepper_finish in H.
    destruct (h_unpack_tracers cp g (s_packer c) "" h2 (snd o) st) as [h3 [[tr rt]|e]] eqn:E1; cbn [hbind] in H; [|discriminate].
    destruct (h_unpack_tracers_rest _ _ _ _ _ _ _ _ _ E1) as (Hl & Hnt & ->).
    destruct (let* _ := check_outputs (s_diag c) (s_inp c) _ _ in _) as [x|e]; cbn [hbind] in H; [|discriminate].
    set (rn := match s_packer c with Some _ => ddel "tracers" (snd o) | None => snd o end) in *.
    assert (G3 : grown h3 (fst (if s_tid c then h_stepper_insert c dt h3 raw rn (fst o) (s_out c) else (h3, Ok (fst o))))).
    { destruct (s_tid c); [apply h_stepper_insert_grown|apply grown_refl]. }
    destruct (if s_tid c then h_stepper_insert c dt h3 raw rn (fst o) (s_out c) else (h3, Ok (fst o))) as [h4 [rd|e]] eqn:E2; cbn [hbind fst] in *; [|discriminate].
    apply grown_length in G3. pose proof (h_restore_grown cp h4 rd (s_diag c) st (s_inp c) []) as G4.
    destruct (h_restore cp h4 rd (s_diag c) st (s_inp c) []) as [h5 [di|e]] eqn:E3; cbn [hbind fst] in *; [|discriminate]. apply grown_length in G4.
    destruct (h_restore cp h5 rn (s_out c) st (s_inp c) []) as [h6 [ne|e]] eqn:E4; cbn [hbind] in H; [|discriminate].
    injection H as _ <- <-. assert (Hnne := h_restore_keys _ _ _ _ _ _ _ _ E4). split.
    - intros name p Hp. rewrite dget_dupdate by auto.
      assert (Hl5 : length h2 <= length h5) by lia.
      destruct (h_restore_share h5 _ _ _ _ _ _ _ (length h2) Hl5 Hwf Hn1 (fun nm ds K => Hos nm ds (or_introl K)) E4 name p Hp) as (a & Ha & Hv); [intros []|].
      exists a. rewrite Ha. split; auto.
    - intros name p Hp. assert (Hl4 : length h2 <= length h4) by lia.
      destruct (h_restore_share h4 _ _ _ _ _ _ _ (length h2) Hl4 Hwf Hn2 (fun nm ds K => Hos nm ds (or_intror K)) E3 name p Hp (fun K => K)) as (a & Ha & Hv).
      exists a. split; auto. destruct (s_tid c); cbn [andb]; [|injection E2 as _ <-; exact Hv].
      destruct (h_stepper_insert_get _ _ _ _ _ _ _ _ _ (length h2) Hl E2) as (K1 & K2).
      destruct Hv as (ds & ra & Hds & Hra & Hno & Hcp).
      destruct (existsb _ (keys (s_out c))) eqn:Ex.
      + apply existsb_exists in Ex as (k & Hk & Ek). apply String.eqb_eq in Ek. destruct (K2 _ k Hk Ek) as (ra' & Hra' & Hnew).
        rewrite Hra in Hra'. injection Hra' as <-. intros y Hx.
        destruct (mem "*" ds) eqn:Em; [destruct (cp ra (h_shape a)) eqn:Ec|].
        * apply mem_In in Em. apply Hcp; auto.
        * rewrite Hno in Hx by (intros (_ & K); discriminate). auto.
        * rewrite Hno in Hx by (intros (K & _); apply mem_In in K; congruence). auto.
      + exists ds, ra. rewrite K1 in Hra; [split; auto|]. intros k Hk Eq.
        assert (K : existsb (fun k => String.eqb (out_key (s_diag c) (s_inp c) name) (tendency_name (s_name c) k)) (keys (s_out c)) = true)
          by (apply existsb_exists; exists k; split; [auto|apply String.eqb_eq; exact Eq]). congruence.
  Qed.

  Theorem main_diagnostic_outputs : forall {U} c (hac : harray T U _) u (h : heap T) st u' h' diag,
    wf_state (refs_state st) -> NoDup (keys (d_diag c)) ->
    (forall name ds, declared_dims (d_diag c) (d_inp c) name ds -> one_star ds) ->
    h_diagnostic_call cp c hac u h st = ((u', h'), Ok diag) ->
    exists h1 raw h2 o, hac u h1 raw 0%Z = ((u', h2), Ok o) /\ output_views cp (d_diag c) (d_inp c) o (length h2) diag.
  Proof.
    intros U c hac u h st u' h' diag Hwf Hn Hos H. apply h_call_returns in H as (h1 & raw & h2 & o & Eh & H).
    exists h1, raw, h2, o. split; auto. destruct (check_outputs (d_diag c) (d_inp c) [] o) as [x|e]; cbn [hbind] in H; [|discriminate].
    intros name p Hp. exact (h_restore_share h2 _ _ _ _ _ _ _ (length h2) (le_n _) Hwf Hn Hos H name p Hp (fun K => K)).
  Qed.
End Share.
