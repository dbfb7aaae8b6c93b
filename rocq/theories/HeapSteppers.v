(** AdamsBashforth and SSPRungeKutta in memory: C37. *)
From Coq Require Import String List Bool Arith ZArith QArith Qcanon Lia.
From Verif Require Import Prelude PreludeFacts ArithM NdArray NdFacts Units DataArrayM UnitsFacts SpecDa DaFacts
  Components Composite Steppers Heap SpecHeap LeapFacts HeapFacts HeapComposite.
Import ListNotations.
Open Scope string_scope.
Open Scope nat_scope.
Open Scope list_scope.

Section Step.
  Context {T : Type} {A : Arith T} {R : Registry}.

  Definition res_map {X Y} (f : X -> Y) (r : res X) : res Y := match r with Ok x => Ok (f x) | Err e => Err e end.

  Lemma load_dict_grown : forall (h h' : heap T) d, grown h h' -> dict_in h d -> load_dict h' d = load_dict h d.
  Proof. intros h h' d G Hi. apply (load_changed_dict no_cells); auto. apply grown_changed; auto. intros c _ K; exact K. Qed.

  Lemma load_state_grown : forall (h h' : heap T) d, grown h h' -> state_in h d -> load_state h' d = load_state h d.
  Proof. intros h h' d G Hi. apply (load_changed_state no_cells); auto. apply grown_changed; auto. intros c _ K; exact K. Qed.

  Lemma dict_in_grown : forall (h h' : heap T) d, grown h h' -> dict_in h d -> dict_in h' d.
  Proof. intros h h' d G H c Hc. apply grown_length in G. specialize (H c Hc). lia. Qed.

  Lemma state_in_grown : forall (h h' : heap T) d, grown h h' -> state_in h d -> state_in h' d.
  Proof. intros h h' d G H c Hc. apply grown_length in G. specialize (H c Hc). lia. Qed.

  Lemma alloc_eq : forall (h : heap T) v, alloc h v = (fst (alloc h v), snd (alloc h v)).
  Proof. auto. Qed.

  Lemma grown_alloc : forall (h : heap T) v, grown h (fst (alloc h v)).
  Proof. intros. exists (data (arr v)). auto. Qed.

  Lemma alloc_cells : forall (h : heap T) v c, In c (h_cells (snd (alloc h v))) -> length h <= c < length (fst (alloc h v)).
  Proof. intros h v c Hc. cbn [alloc snd fst h_cells] in *. apply in_seq in Hc. unfold heap in *. rewrite app_length. lia. Qed.

  #[local] Opaque alloc.

  (** ** Conversion of the tendencies *)

  Lemma h_to_units_spec : forall (h : heap T) t u h' r, exists_in h t -> h_to_units h t u = (h', r) ->
    grown h h' /\ to_units (load h t) u = res_map (load h') r /\
    match r with
    | Ok t' => forall c, In c (h_cells t') -> In c (h_cells t) \/ length h <= c < length h'
    | Err _ => True
    end.
  Proof.
    intros h t u h' r Hi H. unfold h_to_units in H. destruct (to_units (load h t) u) as [v|e] eqn:Et.
    2: { injection H as <- <-. split; auto using grown_refl. }
    destruct (to_units_ok _ _ _ Et) as (own & u1 & u2 & H1 & H2 & H3 & Hc).
    unfold units_of in H1. rewrite attrs_load in H1. unfold dgetE in H. rewrite H1 in H. cbn [bind] in H.
    unfold parseE in H. rewrite H2 in H. cbn [bind] in H. rewrite H3 in H. cbn [bind] in H.
    destruct Hc as [(E & ->)|(E & _ & _)]; rewrite E in H.
    - injection H as <- <-. split. apply grown_refl. split; auto.
    - rewrite alloc_eq in H. injection H as <- <-. split. apply grown_alloc. split.
      + cbn [res_map]. rewrite load_alloc. auto.
      + intros c Hc. right. apply alloc_cells; auto.
  Qed.

  Lemma h_convert_one_spec : forall (h : heap T) st k t h' r, exists_in h t ->
    h_convert_one h st k t = (h', r) ->
    grown h h' /\ convert_one (load_state h st) (k, load h t) = res_map (fun t' => (k, load h' t')) r /\
    match r with
    | Ok t' => forall c, In c (h_cells t') -> In c (h_cells t) \/ length h <= c < length h'
    | Err _ => True
    end.
  Proof.
    intros h st k t h' r Hi H. unfold h_convert_one in H. unfold convert_one. rewrite attrs_load.
    destruct (dget "units" (h_attrs t)) as [ut|].
    2: { injection H as <- <-. split. apply grown_refl. split; auto. }
    unfold dgetE in *. rewrite dget_load_state. destruct (dget k st) as [[x|z]|]; cbn [option_map load_val bind] in *.
    - rewrite attrs_load. destruct (dget "units" (h_attrs x)) as [us|].
      + destruct (h_to_units_spec h t (us ++ " s^-1") h' r Hi H) as (G & E & Hc). split; auto. split; auto.
        rewrite E. destruct r; auto.
      + injection H as <- <-. split; auto using grown_refl.
    - injection H as <- <-. split; auto using grown_refl.
    - injection H as <- <-. split; auto using grown_refl.
  Qed.

  Lemma h_convert_spec : forall t (h : heap T) st h' r, dict_in h t -> state_in h st ->
    h_convert h st t = (h', r) ->
    grown h h' /\ convert_tendencies (load_state h st) (load_dict h t) = res_map (load_dict h') r /\
    match r with
    | Ok t' => dict_in h' t' /\ keys t' = keys t /\
               forall k a, In (k, a) t' -> forall c, In c (h_cells a) ->
                 (exists b, In (k, b) t /\ In c (h_cells b)) \/ length h <= c
    | Err _ => True
    end.
  Proof.
    induction t as [|[k t] tend IH]; intros h st h' r Hi Hs H; cbn [h_convert] in H.
    - injection H as <- <-. split. apply grown_refl. split; auto. split. intros c (k & a & [] & _). split; auto. intros k a [].
    - assert (Ht : exists_in h t) by (intros c Hc; apply Hi; exists k, t; split; auto; left; auto).
      assert (Hi2 : dict_in h tend) by (intros c (k' & a & Ha & Hc); apply Hi; exists k', a; split; auto; right; auto).
      destruct (h_convert_one h st k t) as [h1 r1] eqn:E1.
      destruct (h_convert_one_spec h st k t h1 r1 Ht E1) as (G1 & V1 & C1).
      unfold convert_tendencies. change (load_dict h ((k, t) :: tend)) with ((k, load h t) :: load_dict h tend).
      cbn [mapM]. rewrite V1. destruct r1 as [t'|e]; cbn [res_map bind].
      2: { injection H as <- <-. split; auto. }
      destruct (h_convert h1 st tend) as [h2 r2] eqn:E2.
      destruct (IH h1 st h2 r2 (dict_in_grown _ _ _ G1 Hi2) (state_in_grown _ _ _ G1 Hs) E2) as (G2 & V2 & C2).
      rewrite (load_state_grown h h1), (load_dict_grown h h1) in V2 by auto. unfold convert_tendencies in V2. rewrite V2.
      destruct r2 as [out|e]; injection H as <- <-; cbn [res_map bind]; split; try (exact (grown_trans _ _ _ G1 G2)); split; auto.
      + cbn [load_dict map fst snd]. f_equal. f_equal. f_equal. symmetry. apply load_grown; auto.
        intros c Hc. destruct (C1 c Hc) as [K|K]; [apply grown_length in G1; specialize (Ht c K)|]; lia.
      + destruct C2 as (C2a & C2b & C2c). split; [|split].
        * intros c (k' & a & [Ha|Ha] & Hc).
          -- injection Ha as <- <-. apply grown_length in G2. apply grown_length in G1.
             destruct (C1 c Hc) as [K|K]; [specialize (Ht c K)|]; lia.
          -- apply C2a. exists k', a; auto.
        * cbn [keys map fst]. unfold keys in C2b. simpl. f_equal. auto.
        * intros k' a [Ha|Ha] c Hc.
          -- injection Ha as <- <-. destruct (C1 c Hc) as [K|K]; [left; exists t; split; auto; left; auto|right; lia].
          -- destruct (C2c k' a Ha c Hc) as [(b & Hb & K)|K]; [left; exists b; split; auto; right; auto|].
             right. apply grown_length in G1. lia.
  Qed.

  (** ** New states *)

  Lemma alloc_state_spec : forall (st : state T) h h' out, alloc_state h st = (h', out) ->
    grown h h' /\ load_state h' out = st /\ (forall c, state_cells out c -> length h <= c < length h').
  Proof.
    induction st as [|[k [v|t]] st IH]; intros h h' out H; cbn [alloc_state] in H.
    - injection H as <- <-. split. apply grown_refl. split; auto. intros c (k & a & [] & _).
    - rewrite alloc_eq in H. destruct (alloc_state (fst (alloc h v)) st) as [h2 o] eqn:E. injection H as <- <-.
      destruct (IH _ _ _ E) as (G & El & Hc). pose proof (grown_alloc h v) as G1.
      split. exact (grown_trans _ _ _ G1 G). split.
      + cbn [load_state map fst snd load_val].
        rewrite (load_grown (fst (alloc h v)) h2); auto. 2: { intros c K. apply alloc_cells in K. lia. }
        rewrite load_alloc. f_equal. exact El.
      + pose proof (grown_length _ _ G) as L2. pose proof (grown_length _ _ G1) as L1.
        intros c (k' & a & [Ha|Ha] & K).
        * injection Ha as <- <-. apply alloc_cells in K. lia.
        * assert (K' : state_cells o c) by (exists k', a; auto). apply Hc in K'. lia.
    - destruct (alloc_state h st) as [h2 o] eqn:E. injection H as <- <-.
      destruct (IH _ _ _ E) as (G & El & Hc). split; auto. split.
      + cbn [load_state map fst snd load_val]. f_equal. exact El.
      + intros c (k' & a & [Ha|Ha] & K). discriminate. apply Hc. exists k', a; auto.
  Qed.

  Lemma load_copy_untouched : forall (h : heap T) old new,
    load_state h (h_copy_untouched old new) = copy_untouched (load_state h old) (load_state h new).
  Proof.
    unfold h_copy_untouched, copy_untouched. induction old as [|[k v] old IH]; intros new; auto.
    change (load_state h ((k, v) :: old)) with ((k, load_val h v) :: load_state h old). cbn [fold_left fst snd].
    rewrite dmem_load_state. destruct (dmem k new); rewrite IH; auto. rewrite load_state_dset. auto.
  Qed.

  Lemma In_copy_untouched : forall old new k (v : hval), In (k, v) (h_copy_untouched old new) -> In (k, v) new \/ In (k, v) old.
  Proof.
    unfold h_copy_untouched. induction old as [|[k' v'] old IH]; intros new k v H; auto.
    cbn [fold_left fst snd] in H. apply IH in H as [H|H]; [|right; right; auto].
    destruct (dmem k' new); auto. apply In_dset_inv in H as [(-> & ->)|H]; auto. right; left; auto.
  Qed.

  Lemma copy_untouched_cells : forall old new c, state_cells (h_copy_untouched old new) c -> state_cells new c \/ state_cells old c.
  Proof. intros old new c (k & a & H & Hc). apply In_copy_untouched in H as [H|H]; [left|right]; exists k, a; auto. Qed.

  (** ** Differences put into the diagnostics *)

  Lemma insert_one_dset : forall cfg dt (st new : state T) diag np d1, insert_one cfg dt st new diag np = Ok d1 ->
    exists v, d1 = dset (tendency_name (ts_name cfg) (fst np)) v diag.
  Proof.
    intros cfg dt st new diag np d1 H. unfold insert_one in H. destruct (dmem _ diag); [discriminate|].
    apply bind_ok in H as (p & _ & H). apply bind_ok in H as (b & _ & H). apply bind_ok in H as (vn & _ & H).
    apply bind_ok in H as (n & _ & H). apply bind_ok in H as (vo & _ & H). apply bind_ok in H as (o & _ & H).
    apply bind_ok in H as (d & _ & H). injection H as <-. eexists. reflexivity.
  Qed.

  Lemma h_insert_spec : forall cfg dt st new out (h : heap T) diag h' r,
    state_in h st -> state_in h new -> dict_in h diag ->
    h_insert_differences cfg dt h st new diag out = (h', r) ->
    grown h h' /\
    foldM (insert_one cfg dt (load_state h st) (load_state h new)) out (load_dict h diag) = res_map (load_dict h') r /\
    match r with
    | Ok d => dict_in h' d /\ (forall c, cells_of d c -> cells_of diag c \/ length h <= c)
              /\ (NoDup (keys diag) -> NoDup (keys d))
    | Err _ => True
    end.
  Proof.
    induction out as [|np out IH]; intros h diag h' r Hs Hn Hd H; cbn [h_insert_differences] in H.
    - injection H as <- <-. split. apply grown_refl. split; auto.
    - cbn [foldM]. destruct (insert_one cfg dt (load_state h st) (load_state h new) (load_dict h diag) np) as [d1|e] eqn:E1.
      2: { injection H as <- <-. split; auto using grown_refl. }
      cbn [bind]. destruct (insert_one_dset _ _ _ _ _ _ _ E1) as (v & ->). rewrite dget_dset_eq in H.
      rewrite alloc_eq in H. pose proof (grown_alloc h v) as G1. pose proof (grown_length _ _ G1) as L1.
      set (tn := tendency_name (ts_name cfg) (fst np)) in *.
      assert (Hd1 : dict_in (fst (alloc h v)) (dset tn (snd (alloc h v)) diag)).
      { intros c (k & a & Ha & Hc). apply In_dset_inv in Ha as [(-> & ->)|Ha].
        - apply alloc_cells in Hc. lia.
        - assert (K : cells_of diag c) by (exists k, a; auto). apply Hd in K. lia. }
      destruct (IH _ _ _ _ (state_in_grown _ _ _ G1 Hs) (state_in_grown _ _ _ G1 Hn) Hd1 H) as (G2 & E2 & C2).
      split. exact (grown_trans _ _ _ G1 G2). split.
      + rewrite <- E2. rewrite !(load_state_grown h (fst (alloc h v))) by auto.
        rewrite load_dict_dset, load_alloc, (load_dict_grown h (fst (alloc h v))) by auto. auto.
      + destruct r as [d|e]; auto. destruct C2 as (C2a & C2b & C2c). split; auto. split.
        * intros c Hc. apply C2b in Hc as [(k & a & Ha & Hc)|Hc]; [|right; lia].
          apply In_dset_inv in Ha as [(-> & ->)|Ha]; [right; apply alloc_cells in Hc; lia|left; exists k, a; auto].
        * intros K. apply C2c. apply NoDup_dset. auto.
  Qed.

  Lemma h_finish_spec : forall cfg dt (h : heap T) st r h' r',
    state_in h st ->
    match r with Ok (d, new) => dict_in h d /\ state_in h new | Err _ => True end ->
    h_finish cfg dt h st r = (h', r') ->
    grown h h' /\ finish_step cfg dt (load_state h st) (load_stepped h r) = load_stepped h' r' /\
    match r' with
    | Ok (d', new') =>
        exists d new, r = Ok (d, new) /\ dict_in h' d' /\ state_in h' new' /\
          new' = h_copy_untouched st new /\
          (forall c, cells_of d' c -> cells_of d c \/ length h <= c)
    | Err _ => True
    end.
  Proof.
    intros cfg dt h st r h' r' Hs Hr H. unfold h_finish in H. destruct r as [[d new]|e].
    2: { injection H as <- <-. split; auto using grown_refl. }
    destruct Hr as (Hd & Hn). unfold finish_step, load_stepped. cbn [bind fst snd]. rewrite <- load_copy_untouched.
    assert (Hn' : state_in h (h_copy_untouched st new)).
    { intros c Hc. apply copy_untouched_cells in Hc as [Hc|Hc]; auto. }
    destruct (ts_tid cfg).
    - destruct (h_insert_differences cfg dt h st (h_copy_untouched st new) d (ts_out cfg)) as [h1 r1] eqn:E.
      destruct (h_insert_spec _ _ _ _ _ _ _ _ _ Hs Hn' Hd E) as (G & V & C). unfold insert_differences. rewrite V.
      destruct r1 as [d'|e]; injection H as <- <-; cbn [res_map bind]; split; auto; split; auto.
      + do 2 f_equal. symmetry. apply load_state_grown; auto.
      + exists d, new. destruct C as (C1 & C2 & _). repeat match goal with |- _ /\ _ => split end; auto.
        apply (state_in_grown h); auto.
    - injection H as <- <-. split. apply grown_refl. cbn [bind]. split; auto. exists d, new.
      repeat match goal with |- _ /\ _ => split end; auto.
  Qed.

  (** ** What can change in memory, whatever the components do *)

  Lemma h_to_units_grown : forall (h : heap T) t u, grown h (fst (h_to_units h t u)).
  Proof.
    intros. unfold h_to_units. destruct (to_units (load h t) u); [|apply grown_refl].
    destruct (let* own := dgetE "units" (h_attrs t) in _) as [[|]|]; cbn [fst]; try apply grown_refl;
      rewrite alloc_eq; apply grown_alloc.
  Qed.

  Lemma h_convert_grown : forall t (h : heap T) st, grown h (fst (h_convert h st t)).
  Proof.
    induction t as [|[k t] tend IH]; intros h st; cbn [h_convert]; [apply grown_refl|].
    assert (G : grown h (fst (h_convert_one h st k t))).
    { unfold h_convert_one. destruct (dget "units" (h_attrs t)); [|apply grown_refl].
      destruct (let* v := dgetE k st in _); [apply h_to_units_grown|apply grown_refl]. }
    destruct (h_convert_one h st k t) as [h1 [t'|e]]; cbn [fst] in *; auto.
    pose proof (IH h1 st) as G2. destruct (h_convert h1 st tend) as [h2 [o|e]]; cbn [fst] in *; exact (grown_trans _ _ _ G G2).
  Qed.

  Lemma alloc_state_grown : forall (st : state T) h, grown h (fst (alloc_state h st)).
  Proof. intros st h. destruct (alloc_state h st) as [h' o] eqn:E. apply alloc_state_spec in E. apply E. Qed.

  Lemma alloc_result_grown : forall (r : res (state T)) h, grown h (fst (alloc_result h r)).
  Proof.
    intros [v|e] h; cbn [alloc_result]; [|apply grown_refl].
    pose proof (alloc_state_grown v h) as G. destruct (alloc_state h v); auto.
  Qed.

  Lemma h_insert_grown : forall cfg dt st new out (h : heap T) diag, grown h (fst (h_insert_differences cfg dt h st new diag out)).
  Proof.
    induction out as [|np out IH]; intros h diag; cbn [h_insert_differences]; [apply grown_refl|].
    destruct (insert_one _ _ _ _ _ _) as [d1|e]; [|apply grown_refl].
    destruct (dget _ d1) as [v|]; [|apply grown_refl]. rewrite alloc_eq.
    exact (grown_trans _ _ _ (grown_alloc h v) (IH _ _)).
  Qed.

  Lemma h_finish_grown : forall cfg dt (h : heap T) st r, grown h (fst (h_finish cfg dt h st r)).
  Proof.
    intros cfg dt h st [[d new]|e]; cbn [h_finish]; [|apply grown_refl].
    destruct (ts_tid cfg); [|apply grown_refl].
    pose proof (h_insert_grown cfg dt st (h_copy_untouched st new) (ts_out cfg) h d) as G.
    destruct (h_insert_differences _ _ _ _ _ _ _) as [h' [d'|e]]; auto.
  Qed.

  Section Spare.
    Context {U : Type} (K : cells) (prog : hicaller (T:=T) U) (HK : spares K prog).

    Definition spared (h h' : heap T) : Prop := changed_in (fun c => ~ K c) h h'.

    Lemma spared_trans : forall h1 h2 h3, spared h1 h2 -> spared h2 h3 -> spared h1 h3.
    Proof. intros h1 h2 h3 C1 C2. apply (changed_trans _ _ _ _ _ _ C1 C2). intros c _ [H|H]; auto. Qed.

    Lemma spared_grown : forall h h', grown h h' -> spared h h'.
    Proof. intros. apply grown_changed; auto. Qed.

    Lemma ab_call_spares : forall s h st dt a' u' h' r, h_ab_call prog s h st dt = ((a', u', h'), r) -> spared h h'.
    Proof.
      intros [a u] h st dt a' u' h' r H. unfold h_ab_call in H.
      destruct (ensure_timestep (hab_dt a) dt); [|injection H as _ _ <- _; apply changed_refl].
      destruct (prog u h st dt) as [[u1 h1] r1] eqn:Ep. pose proof (HK _ _ _ _ _ _ _ Ep) as C1. cbv zeta in H.
      destruct r1 as [[t diag]|e]; [|injection H as _ _ <- _; exact C1].
      pose proof (h_convert_grown t h1 st) as G2. destruct (h_convert h1 st t) as [h2 [tend|e]]; cbn [fst] in G2;
        [|injection H as _ _ <- _; exact (spared_trans _ _ _ C1 (spared_grown _ _ G2))].
      destruct (perform_step _ _ _ _) as [new|e];
        [|injection H as _ _ <- _; exact (spared_trans _ _ _ C1 (spared_grown _ _ G2))].
      pose proof (alloc_state_grown new h2) as G3. destruct (alloc_state h2 new) as [h3 o]. cbn [fst] in G3.
      injection H as _ _ <- _. exact (spared_trans _ _ _ C1 (spared_grown _ _ (grown_trans _ _ _ G2 G3))).
    Qed.

    Lemma main_ab_spares : forall cfg s h st dt a' u' h' r, h_adams_bashforth cfg prog s h st dt = ((a', u', h'), r) ->
      changed_in (fun c => ~ K c) h h'.
    Proof.
      intros cfg s h st dt a' u' h' r H. unfold h_adams_bashforth in H.
      destruct (h_ab_call prog s h st dt) as [[[a1 u1] h1] r1] eqn:E. pose proof (ab_call_spares _ _ _ _ _ _ _ _ E) as C1.
      pose proof (h_finish_grown cfg dt h1 st r1) as G. destruct (h_finish cfg dt h1 st r1) as [h2 r2].
      injection H as _ _ <- _. exact (spared_trans _ _ _ C1 (spared_grown _ _ G)).
    Qed.

    Lemma inner_spares : forall s h st dt a' u' h' r, h_inner_euler prog s h st dt = ((a', u', h'), r) -> spared h h'.
    Proof.
      intros s h st dt a' u' h' r H. unfold h_inner_euler in H.
      destruct (h_ab_call prog s h st dt) as [[[a1 u1] h1] r1] eqn:E. injection H as _ _ <- _.
      exact (ab_call_spares _ _ _ _ _ _ _ _ E).
    Qed.

    Lemma rk2_spares : forall s h st dt a' u' h' r, h_rk2 prog s h st dt = ((a', u', h'), r) -> spared h h'.
    Proof.
      intros s h st dt a' u' h' r H. unfold h_rk2 in H.
      destruct (h_inner_euler prog s h st dt) as [[[a1 u1] h1] r1] eqn:E1. pose proof (inner_spares _ _ _ _ _ _ _ _ E1) as C1.
      destruct r1 as [[d1 st1]|e]; [|injection H as _ _ <- _; exact C1].
      destruct (h_inner_euler prog (a1, u1) h1 st1 dt) as [[[a2 u2] h2] r2] eqn:E2. pose proof (inner_spares _ _ _ _ _ _ _ _ E2) as C2.
      pose proof (spared_trans _ _ _ C1 C2) as C12.
      destruct r2 as [[d2 st2]|e]; [|injection H as _ _ <- _; exact C12].
      match type of H with context [alloc_result h2 ?r] => pose proof (alloc_result_grown r h2) as G; destruct (alloc_result h2 r) as [h3 o] end.
      injection H as _ _ <- _. exact (spared_trans _ _ _ C12 (spared_grown _ _ G)).
    Qed.

    Lemma rk3_spares : forall s h st dt a' u' h' r, h_rk3 prog s h st dt = ((a', u', h'), r) -> spared h h'.
    Proof.
      intros s h st dt a' u' h' r H. unfold h_rk3 in H.
      destruct (h_inner_euler prog s h st dt) as [[[a1 u1] h1] r1] eqn:E1. pose proof (inner_spares _ _ _ _ _ _ _ _ E1) as C1.
      destruct r1 as [[d1 st1]|e]; [|injection H as _ _ <- _; exact C1].
      destruct (h_inner_euler prog (a1, u1) h1 st1 dt) as [[[a2 u2] h2] r2] eqn:E2. pose proof (inner_spares _ _ _ _ _ _ _ _ E2) as C2.
      pose proof (spared_trans _ _ _ C1 C2) as C12.
      destruct r2 as [[d2 st2]|e]; [|injection H as _ _ <- _; exact C12].
      match type of H with context [alloc_result h2 ?r] => pose proof (alloc_result_grown r h2) as G; destruct (alloc_result h2 r) as [h3 o] end.
      pose proof (spared_trans _ _ _ C12 (spared_grown _ _ G)) as C3. cbn [fst] in C3.
      destruct o as [st3|e]; [|injection H as _ _ <- _; exact C3].
      destruct (h_inner_euler prog (a2, u2) h3 st3 dt) as [[[a3 u3] h4] r3] eqn:E3. pose proof (inner_spares _ _ _ _ _ _ _ _ E3) as C4.
      pose proof (spared_trans _ _ _ C3 C4) as C5.
      destruct r3 as [[d3 st4]|e]; [|injection H as _ _ <- _; exact C5].
      match type of H with context [alloc_result h4 ?r] => pose proof (alloc_result_grown r h4) as G'; destruct (alloc_result h4 r) as [h5 o] end.
      injection H as _ _ <- _. exact (spared_trans _ _ _ C5 (spared_grown _ _ G')).
    Qed.

    Lemma main_rk_spares : forall cfg s h st dt k' u' h' r, h_ssp_rk cfg prog s h st dt = ((k', u', h'), r) ->
      changed_in (fun c => ~ K c) h h'.
    Proof.
      intros cfg [k u] h st dt k' u' h' r H. unfold h_ssp_rk in H.
      destruct (Nat.eqb (hrk_stages k) 2).
      - destruct (h_rk2 prog (hrk_euler k, u) h st dt) as [[[e1 u1] h1] r1] eqn:E. pose proof (rk2_spares _ _ _ _ _ _ _ _ E) as C1.
        pose proof (h_finish_grown cfg dt h1 st r1) as G. destruct (h_finish cfg dt h1 st r1) as [h2 r2].
        injection H as _ _ <- _. exact (spared_trans _ _ _ C1 (spared_grown _ _ G)).
      - destruct (h_rk3 prog (hrk_euler k, u) h st dt) as [[[e1 u1] h1] r1] eqn:E. pose proof (rk3_spares _ _ _ _ _ _ _ _ E) as C1.
        pose proof (h_finish_grown cfg dt h1 st r1) as G. destruct (h_finish cfg dt h1 st r1) as [h2 r2].
        injection H as _ _ <- _. exact (spared_trans _ _ _ C1 (spared_grown _ _ G)).
    Qed.
  End Spare.

  (** ** With well-behaved components *)

  Section Behave.
    Context {UH UV : Type} (I : invariant (T:=T) UH UV) (Hst : stable I)
      (prog : hicaller (T:=T) UH) (vprog : icaller (T:=T) UV) (HB : behaves I prog vprog).

    Lemma map_load_grown : forall (h h' : heap T) l, grown h h' -> (forall d, In d l -> dict_in h d) ->
      map (load_dict h') l = map (load_dict h) l.
    Proof. intros h h' l G H. apply map_ext_in. intros d Hd. apply load_dict_grown; auto. Qed.

    Lemma stable_grown : forall X h h' u v, I X h u v -> grown h h' -> I X h' u v.
    Proof. intros X h h' u v H G. apply (Hst X X h h' u v H); auto. apply grown_changed; auto. Qed.

    Lemma ab_call_behaves : forall (X : cells) h a u va v st dt a' u' h' r,
      ab_inv I X h (a, u) (va, v) -> (forall c, X c -> c < length h) -> state_in h st -> avoids (state_cells st) X ->
      h_ab_call prog (a, u) h st dt = ((a', u', h'), r) ->
      grown h h' /\
      (exists w, ab_call vprog (va, v) (load_state h st) dt = (w, load_stepped h' r) /\ ab_inv I X h' (a', u') w) /\
      step_out_in X h' r.
    Proof.
      intros X h a u va v st dt a' u' h' r (Ea & HI & Hh) HX Hi Hx H. cbn [fst snd] in *. subst va.
      unfold h_ab_call in H. unfold ab_call. change (ab_dt (load_ab h a)) with (hab_dt a).
      destruct (ensure_timestep (hab_dt a) dt) as [[]|e].
      2: { injection H as <- <- <- <-. split. apply grown_refl. split; [|exact Logic.I].
           eexists. split. reflexivity. split; [reflexivity|split; auto]. }
      destruct (prog u h st dt) as [[u1 h1] r1] eqn:Ep.
      destruct (HB X h u v st dt u1 h1 r1 HI HX Hi (fun _ => Hx) Ep) as (G1 & (v1 & Ev & HI1) & Hr1).
      rewrite Ev. cbv zeta in H. pose proof (grown_length _ _ G1) as L1.
      destruct r1 as [[t diag]|e]; cbn [load_out bind fst snd].
      2: { injection H as <- <- <- <-. split; auto. split; [|exact Logic.I]. eexists. split. reflexivity.
           split; [|split; auto].
           - cbn [fst]. unfold load_ab. cbn [hab_order hab_dt hab_hist ab_order ab_hist]. f_equal.
             symmetry. apply map_load_grown; auto. intros d Hd. apply Hh. auto.
           - intros d Hd. destruct (Hh d Hd) as (K1 & K2). split; auto. exact (dict_in_grown _ _ _ G1 K1). }
      destruct Hr1 as (Ht & Hd & Hpt & Hnd & Hat & Had).
      destruct (h_convert h1 st t) as [h2 r2] eqn:Ec.
      destruct (h_convert_spec t h1 st h2 r2 Ht (state_in_grown _ _ _ G1 Hi) Ec) as (G2 & V2 & C2).
      rewrite (load_state_grown h h1) in V2 by auto. rewrite V2.
      pose proof (grown_length _ _ G2) as L2.
      assert (Eold : map (load_dict h2) (hab_hist a) = map (load_dict h) (hab_hist a)).
      { apply map_load_grown. exact (grown_trans _ _ _ G1 G2). intros d' Hd'. apply Hh. auto. }
      assert (Hold : forall d', In d' (hab_hist a) -> dict_in h2 d' /\ avoids (cells_of d') X).
      { intros d' Hd'. destruct (Hh d' Hd') as (K1 & K2). split; auto. exact (dict_in_grown _ _ _ (grown_trans _ _ _ G1 G2) K1). }
      assert (HI2 : I X h2 u1 v1) by exact (stable_grown _ _ _ _ _ HI1 G2).
      destruct r2 as [tend|e]; cbn [res_map bind].
      2: { injection H as <- <- <- <-. split. exact (grown_trans _ _ _ G1 G2). split; [|exact Logic.I]. eexists. split. reflexivity.
           split; [|split; auto]. cbn [fst]. unfold load_ab. cbn [hab_order hab_dt hab_hist ab_order ab_hist]. f_equal. auto. }
      destruct C2 as (C2a & C2b & C2c).
      assert (Htx : avoids (cells_of tend) X).
      { intros c (k & x & Hk & Hc) K. destruct (C2c k x Hk c Hc) as [(b & Hb & K2)|K2].
        - apply (Hat c); auto. exists k, b; auto.
        - apply HX in K. lia. }
      assert (Enew : map (load_dict h2) (hab_hist a ++ [tend]) = ab_hist (load_ab h a) ++ [load_dict h2 tend]).
      { rewrite map_app. cbn [map]. f_equal. exact Eold. }
      assert (Hall : forall d', In d' (hab_hist a ++ [tend]) -> dict_in h2 d' /\ avoids (cells_of d') X).
      { intros d' Hd'. apply in_app_iff in Hd' as [Hd'|[<-|[]]]; auto. }
      rewrite (load_state_grown h h2) in H by (auto; exact (grown_trans _ _ _ G1 G2)).
      rewrite Enew in H. change (ab_order (load_ab h a)) with (hab_order a).
      destruct (perform_step (hab_order a) (ab_hist (load_ab h a) ++ [load_dict h2 tend]) (load_state h st) dt) as [new|e].
      2: { injection H as <- <- <- <-. split. exact (grown_trans _ _ _ G1 G2). split; [|exact Logic.I]. eexists. split. reflexivity.
           split; [|split; auto]. cbn [fst]. unfold load_ab at 2. cbn [hab_order hab_dt hab_hist]. f_equal. auto. }
      destruct (alloc_state h2 new) as [h3 out] eqn:Es.
      destruct (alloc_state_spec _ _ _ _ Es) as (G3 & E3 & C3). pose proof (grown_length _ _ G3) as L3.
      pose proof (grown_trans _ _ _ (grown_trans _ _ _ G1 G2) G3) as G.
      injection H as <- <- <- <-. split. exact G. split.
      - eexists. split.
        + f_equal. cbn [load_stepped]. rewrite load_copy_untouched, E3. rewrite (load_state_grown h h3) by auto.
          rewrite (load_dict_grown h1 h3); auto. exact (grown_trans _ _ _ G2 G3).
        + split; [|split].
          * cbn [fst]. unfold load_ab. cbn [hab_order hab_dt hab_hist ab_hist].
            rewrite <- (map_load_grown h2 h3) in Enew; auto. 2: intros d' Hd'; apply Hall; auto.
            cbn [ab_hist load_ab] in Enew. rewrite <- Enew. rewrite map_length. f_equal.
            destruct (Nat.eqb _ _); auto. destruct (hab_hist a ++ [tend]); auto.
          * exact (stable_grown _ _ _ _ _ HI2 G3).
          * cbn [fst hab_hist]. intros d' Hd'.
            assert (Hin : In d' (hab_hist a ++ [tend])).
            { destruct (Nat.eqb _ _); auto. destruct (hab_hist a ++ [tend]); [destruct Hd'|right; auto]. }
            destruct (Hall d' Hin) as (K1 & K2). split; auto. exact (dict_in_grown _ _ _ G3 K1).
      - cbn [step_out_in]. repeat match goal with |- _ /\ _ => split end; auto.
        + apply (dict_in_grown h1); auto. exact (grown_trans _ _ _ G2 G3).
        + intros c Hc. apply copy_untouched_cells in Hc as [Hc|Hc]; [apply C3 in Hc|apply Hi in Hc; apply grown_length in G]; lia.
        + intros c Hc K. apply copy_untouched_cells in Hc as [Hc|Hc]; [apply C3 in Hc; apply HX in K; lia|exact (Hx c Hc K)].
    Qed.

    Lemma main_ab_memory : forall cfg (X : cells) h s w st dt a' u' h' r,
      ab_inv I X h s w -> (forall c, X c -> c < length h) -> state_in h st -> avoids (state_cells st) X ->
      h_adams_bashforth cfg prog s h st dt = ((a', u', h'), r) ->
      grown h h' /\
      (exists w', adams_bashforth cfg vprog w (load_state h st) dt = (w', load_stepped h' r) /\ ab_inv I X h' (a', u') w') /\
      step_out_in X h' r.
    Proof.
      intros cfg X h [a u] [va v] st dt a' u' h' r HI HX Hi Hx H. unfold h_adams_bashforth in H.
      destruct (h_ab_call prog (a, u) h st dt) as [[[a1 u1] h1] r1] eqn:E1.
      destruct (ab_call_behaves X h a u va v st dt a1 u1 h1 r1 HI HX Hi Hx E1) as (G1 & (w1 & V1 & HI1) & O1).
      destruct (h_finish cfg dt h1 st r1) as [h2 r2] eqn:E2.
      destruct (h_finish_spec cfg dt h1 st r1 h2 r2 (state_in_grown _ _ _ G1 Hi)) as (G2 & V2 & C2); auto.
      { destruct r1 as [[d new]|e]; auto. destruct O1 as (K1 & K2 & _). auto. }
      injection H as <- <- <- <-. split. exact (grown_trans _ _ _ G1 G2). split.
      - exists w1. unfold adams_bashforth. rewrite V1. rewrite <- V2. rewrite (load_state_grown h h1) by auto. split; auto.
        destruct HI1 as (K1 & K2 & K3). split; [|split].
        + rewrite K1. unfold load_ab. f_equal. symmetry. apply map_load_grown; auto. intros d Hd. apply K3; auto.
        + exact (stable_grown _ _ _ _ _ K2 G2).
        + intros d Hd. destruct (K3 d Hd) as (K4 & K5). split; auto. exact (dict_in_grown _ _ _ G2 K4).
      - destruct r2 as [[d' new']|e]; [|exact Logic.I]. destruct C2 as (d & new & -> & Hd' & Hn' & -> & Hc).
        destruct O1 as (_ & _ & O3 & O4). cbn [step_out_in]. repeat match goal with |- _ /\ _ => split end; auto.
        + intros c K KX. apply Hc in K as [K|K]; [exact (O3 c K KX)|]. apply HX in KX. apply grown_length in G1. lia.
        + intros c K KX. apply copy_untouched_cells in K as [K|K]; [exact (O4 c K KX)|exact (Hx c K KX)].
    Qed.

    Lemma ab_inv_grown : forall X h h' s w, ab_inv I X h s w -> grown h h' -> ab_inv I X h' s w.
    Proof.
      intros X h h' s w (K1 & K2 & K3) G. split; [|split].
      - rewrite K1. unfold load_ab. f_equal. symmetry. apply map_load_grown; auto. intros d Hd. apply K3; auto.
      - exact (stable_grown _ _ _ _ _ K2 G).
      - intros d Hd. destruct (K3 d Hd) as (K4 & K5). split; auto. exact (dict_in_grown _ _ _ G K4).
    Qed.

    Lemma inner_behaves : forall (X : cells) h s w st dt a' u' h' r,
      ab_inv I X h s w -> (forall c, X c -> c < length h) -> state_in h st -> avoids (state_cells st) X ->
      h_inner_euler prog s h st dt = ((a', u', h'), r) ->
      grown h h' /\
      (exists w', inner_euler vprog w (load_state h st) dt = (w', load_stepped h' r) /\ ab_inv I X h' (a', u') w') /\
      step_out_in X h' r.
    Proof.
      intros X h [a u] [va v] st dt a' u' h' r HI HX Hi Hx H. unfold h_inner_euler in H.
      destruct (h_ab_call prog (a, u) h st dt) as [[[a1 u1] h1] r1] eqn:E1.
      destruct (ab_call_behaves X h a u va v st dt a1 u1 h1 r1 HI HX Hi Hx E1) as (G1 & (w1 & V1 & HI1) & O1).
      injection H as <- <- <- <-. split; auto. split.
      - exists w1. unfold inner_euler. rewrite V1. split; auto. f_equal. destruct r1 as [[d new]|e]; auto.
        cbn [load_stepped bind fst snd]. rewrite load_copy_untouched, (load_state_grown h h1 st) by auto. auto.
      - destruct r1 as [[d new]|e]; [|exact Logic.I]. destruct O1 as (O1 & O2 & O3 & O4). cbn [bind step_out_in fst snd].
        repeat match goal with |- _ /\ _ => split end; auto.
        + intros c K. apply copy_untouched_cells in K as [K|K]; auto. exact (state_in_grown _ _ _ G1 Hi c K).
        + intros c K KX. apply copy_untouched_cells in K as [K|K]; [exact (O4 c K KX)|exact (Hx c K KX)].
    Qed.

    Lemma alloc_result_spec : forall (v : res (state T)) h h' r, alloc_result h v = (h', r) ->
      grown h h' /\ v = res_map (load_state h') r /\
      match r with Ok st => forall c, state_cells st c -> length h <= c < length h' | Err _ => True end.
    Proof.
      intros [v|e] h h' r H; cbn [alloc_result] in H.
      - destruct (alloc_state h v) as [h1 st] eqn:E. injection H as <- <-. apply alloc_state_spec in E as (G & E & C).
        split; auto. split; auto. cbn [res_map]. rewrite E. auto.
      - injection H as <- <-. split; auto using grown_refl.
    Qed.

    Lemma bounded_grown : forall (X : cells) (h h' : heap T), grown h h' -> (forall c, X c -> c < length h) -> forall c, X c -> c < length h'.
    Proof. intros X h h' G H c K. apply grown_length in G. apply H in K. lia. Qed.

    Lemma rk2_behaves : forall (X : cells) h s w st dt a' u' h' r,
      ab_inv I X h s w -> (forall c, X c -> c < length h) -> state_in h st -> avoids (state_cells st) X ->
      h_rk2 prog s h st dt = ((a', u', h'), r) ->
      grown h h' /\
      (exists w', rk2 vprog w (load_state h st) dt = (w', load_stepped h' r) /\ ab_inv I X h' (a', u') w') /\
      step_out_in X h' r.
    Proof.
      intros X h s w st dt a' u' h' r HI HX Hi Hx H. unfold h_rk2 in H. unfold rk2.
      destruct (h_inner_euler prog s h st dt) as [[[a1 u1] h1] r1] eqn:E1.
      destruct (inner_behaves X h s w st dt a1 u1 h1 r1 HI HX Hi Hx E1) as (G1 & (w1 & V1 & HI1) & O1). rewrite V1.
      destruct r1 as [[d1 st1]|e]; cbn [load_stepped].
      2: { injection H as <- <- <- <-. split; auto. split; [|exact Logic.I]. exists w1. auto. }
      destruct O1 as (O1a & O1b & O1c & O1d).
      destruct (h_inner_euler prog (a1, u1) h1 st1 dt) as [[[a2 u2] h2] r2] eqn:E2.
      destruct (inner_behaves X h1 (a1, u1) w1 st1 dt a2 u2 h2 r2 HI1 (bounded_grown _ _ _ G1 HX) O1b O1d E2) as (G2 & (w2 & V2 & HI2) & O2).
      rewrite V2. pose proof (grown_trans _ _ _ G1 G2) as G12.
      destruct r2 as [[d2 st2]|e]; cbn [load_stepped bind fst snd].
      2: { injection H as <- <- <- <-. split; auto. split; [|exact Logic.I]. exists w2. auto. }
      destruct (alloc_result h2 _) as [h3 o] eqn:E3. destruct (alloc_result_spec _ _ _ _ E3) as (G3 & V3 & C3).
      rewrite (load_state_grown h h2 st) in V3 by auto.
      pose proof (grown_trans _ _ _ G12 G3) as G. injection H as <- <- <- <-. split; auto.
      destruct (add_states (load_state h st) (load_state h2 st2)) as [sum|e]; cbn [bind] in *.
      - rewrite V3. destruct o as [st3|e]; cbn [res_map bind].
        + split.
          * exists w2. split; [|exact (ab_inv_grown _ _ _ _ _ HI2 G3)]. f_equal. cbn [load_stepped]. do 2 f_equal.
            symmetry. apply load_dict_grown; auto. exact (grown_trans _ _ _ G2 G3).
          * cbn [step_out_in]. repeat match goal with |- _ /\ _ => split end; auto.
            -- apply (dict_in_grown h1); auto. exact (grown_trans _ _ _ G2 G3).
            -- intros c K. apply C3 in K. lia.
            -- intros c K KX. apply C3 in K. apply HX in KX. apply grown_length in G12. lia.
        + split; [|exact Logic.I]. exists w2. split; auto. exact (ab_inv_grown _ _ _ _ _ HI2 G3).
      - destruct o as [st3|e']; [discriminate|]. injection V3 as <-. split; [|exact Logic.I].
        exists w2. split; auto. exact (ab_inv_grown _ _ _ _ _ HI2 G3).
    Qed.

    Lemma rk3_behaves : forall (X : cells) h s w st dt a' u' h' r,
      ab_inv I X h s w -> (forall c, X c -> c < length h) -> state_in h st -> avoids (state_cells st) X ->
      h_rk3 prog s h st dt = ((a', u', h'), r) ->
      grown h h' /\
      (exists w', rk3 vprog w (load_state h st) dt = (w', load_stepped h' r) /\ ab_inv I X h' (a', u') w') /\
      step_out_in X h' r.
    Proof.
      intros X h s w st dt a' u' h' r HI HX Hi Hx H. unfold h_rk3 in H. unfold rk3.
      destruct (h_inner_euler prog s h st dt) as [[[a1 u1] h1] r1] eqn:E1.
      destruct (inner_behaves X h s w st dt a1 u1 h1 r1 HI HX Hi Hx E1) as (G1 & (w1 & V1 & HI1) & O1). rewrite V1.
      destruct r1 as [[d1 st1]|e]; cbn [load_stepped].
      2: { injection H as <- <- <- <-. split; auto. split; [|exact Logic.I]. exists w1. auto. }
      destruct O1 as (O1a & O1b & O1c & O1d).
      destruct (h_inner_euler prog (a1, u1) h1 st1 dt) as [[[a2 u2] h2] r2] eqn:E2.
      destruct (inner_behaves X h1 (a1, u1) w1 st1 dt a2 u2 h2 r2 HI1 (bounded_grown _ _ _ G1 HX) O1b O1d E2) as (G2 & (w2 & V2 & HI2) & O2).
      rewrite V2. pose proof (grown_trans _ _ _ G1 G2) as G12.
      destruct r2 as [[d2 st2]|e]; cbn [load_stepped bind fst snd].
      2: { injection H as <- <- <- <-. split; auto. split; [|exact Logic.I]. exists w2. auto. }
      destruct (alloc_result h2 _) as [h3 o] eqn:E3. destruct (alloc_result_spec _ _ _ _ E3) as (G3 & V3 & C3).
      rewrite (load_state_grown h h2 st) in V3 by auto. rewrite V3.
      pose proof (grown_trans _ _ _ G12 G3) as G13.
      destruct o as [st3|e]; cbn [res_map].
      2: { injection H as <- <- <- <-. split; auto. split; [|exact Logic.I]. exists w2. split; auto.
           exact (ab_inv_grown _ _ _ _ _ HI2 G3). }
      destruct (h_inner_euler prog (a2, u2) h3 st3 dt) as [[[a3 u3] h4] r3] eqn:E4.
      assert (Hi3 : state_in h3 st3) by (intros c K; apply C3 in K; lia).
      assert (Hx3 : avoids (state_cells st3) X).
      { intros c K KX. apply C3 in K. apply HX in KX. apply grown_length in G12. lia. }
      destruct (inner_behaves X h3 (a2, u2) w2 st3 dt a3 u3 h4 r3 (ab_inv_grown _ _ _ _ _ HI2 G3) (bounded_grown _ _ _ G13 HX) Hi3 Hx3 E4)
        as (G4 & (w3 & V4 & HI4) & O4). rewrite V4. pose proof (grown_trans _ _ _ G13 G4) as G14.
      destruct r3 as [[d3 st4]|e]; cbn [load_stepped bind fst snd].
      2: { injection H as <- <- <- <-. split; auto. split; [|exact Logic.I]. exists w3. auto. }
      destruct (alloc_result h4 _) as [h5 o] eqn:E5. destruct (alloc_result_spec _ _ _ _ E5) as (G5 & V5 & C5).
      rewrite (load_state_grown h h4 st) in V5 by auto.
      pose proof (grown_trans _ _ _ G14 G5) as G. injection H as <- <- <- <-. split; auto.
      assert (Eq : (let* a := multiply (aofQ (1 # 3)) (load_state h st) in
                    let* b := multiply (aofQ (2 # 3)) (load_state h4 st4) in
                    let* out := add_states a b in Ok (load_dict h1 d1, out)) =
                   let* out := res_map (load_state h5) o in Ok (load_dict h1 d1, out)).
      { rewrite <- V5. destruct (multiply (aofQ (1 # 3)) (load_state h st)); cbn [bind]; auto.
        destruct (multiply (aofQ (2 # 3)) (load_state h4 st4)); cbn [bind]; auto. }
      rewrite Eq. destruct o as [st5|e]; cbn [res_map bind].
      - split.
        + exists w3. split; [|exact (ab_inv_grown _ _ _ _ _ HI4 G5)]. f_equal. cbn [load_stepped]. do 2 f_equal.
          symmetry. apply load_dict_grown; auto. exact (grown_trans _ _ _ (grown_trans _ _ _ (grown_trans _ _ _ G2 G3) G4) G5).
        + cbn [step_out_in]. repeat match goal with |- _ /\ _ => split end; auto.
          * apply (dict_in_grown h1); auto. exact (grown_trans _ _ _ (grown_trans _ _ _ (grown_trans _ _ _ G2 G3) G4) G5).
          * intros c K. apply C5 in K. lia.
          * intros c K KX. apply C5 in K. apply HX in KX. apply grown_length in G14. lia.
      - split; [|exact Logic.I]. exists w3. split; auto. exact (ab_inv_grown _ _ _ _ _ HI4 G5).
    Qed.

    Lemma main_rk_memory : forall cfg (X : cells) h s w st dt k' u' h' r,
      rk_inv I X h s w -> (forall c, X c -> c < length h) -> state_in h st -> avoids (state_cells st) X ->
      h_ssp_rk cfg prog s h st dt = ((k', u', h'), r) ->
      grown h h' /\
      (exists w', ssp_rk cfg vprog w (load_state h st) dt = (w', load_stepped h' r) /\ rk_inv I X h' (k', u') w') /\
      step_out_in X h' r.
    Proof.
      intros cfg X h [k u] [vk v] st dt k' u' h' r (Hs & HI) HX Hi Hx H. cbn [fst snd] in *.
      unfold h_ssp_rk in H. unfold ssp_rk. rewrite Hs.
      assert (E : exists e1 u1 h1 r1, (if Nat.eqb (hrk_stages k) 2 then h_rk2 else h_rk3) prog (hrk_euler k, u) h st dt = ((e1, u1, h1), r1) /\
                grown h h1 /\
                (exists w', (if Nat.eqb (hrk_stages k) 2 then rk2 else rk3) vprog (rk_euler vk, v) (load_state h st) dt = (w', load_stepped h1 r1) /\
                            ab_inv I X h1 (e1, u1) w') /\ step_out_in X h1 r1).
      { destruct (Nat.eqb (hrk_stages k) 2).
        - destruct (h_rk2 prog (hrk_euler k, u) h st dt) as [[[e1 u1] h1] r1] eqn:E. exists e1, u1, h1, r1. split; auto.
          exact (rk2_behaves X h _ _ st dt e1 u1 h1 r1 HI HX Hi Hx E).
        - destruct (h_rk3 prog (hrk_euler k, u) h st dt) as [[[e1 u1] h1] r1] eqn:E. exists e1, u1, h1, r1. split; auto.
          exact (rk3_behaves X h _ _ st dt e1 u1 h1 r1 HI HX Hi Hx E). }
      destruct E as (e1 & u1 & h1 & r1 & E1 & G1 & ((ve & v1) & V1 & HI1) & O1). rewrite E1 in H. rewrite V1.
      destruct (h_finish cfg dt h1 st r1) as [h2 r2] eqn:E2.
      destruct (h_finish_spec cfg dt h1 st r1 h2 r2 (state_in_grown _ _ _ G1 Hi)) as (G2 & V2 & C2); auto.
      { destruct r1 as [[d new]|e]; auto. destruct O1 as (K1 & K2 & _). auto. }
      injection H as <- <- <- <-. split. exact (grown_trans _ _ _ G1 G2). split.
      - eexists. split.
        + rewrite <- V2. rewrite (load_state_grown h h1) by auto. reflexivity.
        + split; auto. cbn [fst snd hrk_euler rk_euler]. exact (ab_inv_grown _ _ _ _ _ HI1 G2).
      - destruct r2 as [[d' new']|e]; [|exact Logic.I]. destruct C2 as (d & new & -> & Hd' & Hn' & -> & Hc).
        destruct O1 as (_ & _ & O3 & O4). cbn [step_out_in]. repeat match goal with |- _ /\ _ => split end; auto.
        + intros c K KX. apply Hc in K as [K|K]; [exact (O3 c K KX)|]. apply HX in KX. apply grown_length in G1. lia.
        + intros c K KX. apply copy_untouched_cells in K as [K|K]; [exact (O4 c K KX)|exact (Hx c K KX)].
    Qed.
  End Behave.
End Step.
