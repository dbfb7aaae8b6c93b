(** Proofs about PlotFunctionMonitor. *)
From Coq Require Import String List Bool Arith ZArith QArith Qcanon Lia.
From Verif Require Import Prelude PreludeFacts ArithM NdArray Units DataArrayM Composite Heap SpecHeap HeapFacts HeapSteppers HeapPlot SpecHeapPlot.
Import ListNotations.
Open Scope string_scope.
Open Scope nat_scope.
Open Scope list_scope.

Section Plot.
  Context {T : Type} {A : Arith T}.

  Lemma cell_grown : forall (h h' : heap T) c, grown h h' -> c < length h -> cell h' c = cell h c.
  Proof. intros h h' c (new & ->) Hc. unfold cell. apply app_nth1, Hc. Qed.

  Lemma load_grown : forall (h h' : heap T) a, grown h h' -> exists_in h a -> load h' a = load h a.
  Proof.
    intros h h' a G Ha. unfold load. f_equal. f_equal. apply map_ext_in. intros c Hc. apply cell_grown; auto.
  Qed.

  Lemma h_copy_state_spec : forall st (h : heap T) h' out, state_in h st -> h_copy_state h st = (h', out) ->
    grown h h' /\ load_state h' out = load_state h st /\ (forall c, state_cells out c -> length h <= c < length h').
  Proof.
    induction st as [|[k [a|t]] st IH]; intros h h' out Hin H; cbn [h_copy_state] in H.
    - injection H as <- <-. split; [apply grown_refl|]. split; auto. intros c (k & a & [] & _).
    - rewrite alloc_eq in H. pose proof (grown_alloc h (load h a)) as G1.
      assert (Hin' : state_in (fst (alloc h (load h a))) st).
      { intros c (j & b & Hj & Hc). apply grown_length in G1. assert (c < length h) by (apply Hin; exists j, b; split; [right; auto|auto]). lia. }
      destruct (h_copy_state (fst (alloc h (load h a))) st) as [h2 o] eqn:E. injection H as <- <-.
      destruct (IH _ _ _ Hin' E) as (G2 & El & Hc). split; [exact (grown_trans _ _ _ G1 G2)|]. split.
      + cbn [load_state map fst snd load_val]. f_equal.
        * f_equal. f_equal. rewrite (load_grown _ _ _ G2).
          { unfold load, alloc. cbn [snd fst h_dims h_shape h_cells h_attrs dims arr shape data attrs]. f_equal. f_equal.
            rewrite map_length. apply nth_ext with (d := azero) (d' := azero); rewrite !map_length; [apply seq_length|]. intros n Hn. rewrite seq_length in Hn.
            rewrite (nth_indep _ azero (cell (h ++ map (cell h) (h_cells a)) 0)) by (rewrite map_length, seq_length; exact Hn).
            rewrite map_nth, seq_nth by exact Hn. unfold cell at 1. rewrite app_nth2 by (unfold heap in *; lia).
            f_equal. unfold heap in *. lia. }
          { intros c Hcc. apply (alloc_cells h (load h a) c) in Hcc. lia. }
        * change (load_state h2 o = load_state h st). rewrite El. unfold load_state. apply map_ext_in. intros [j v] Hj. cbn [fst snd]. f_equal.
          destruct v as [b|]; auto. cbn [load_val]. f_equal. apply load_grown; auto. intros c Hcc. apply Hin. exists j, b. split; [right; auto|auto].
      + pose proof (grown_length _ _ G1) as L1. pose proof (grown_length _ _ G2) as L2.
        intros c (j & b & [Ej|Hj] & Hcc).
        * injection Ej as <- <-. apply (alloc_cells h (load h a) c) in Hcc. lia.
        * assert (K : length (fst (alloc h (load h a))) <= c < length h2) by (apply Hc; exists j, b; auto). lia.
    - destruct (h_copy_state h st) as [h2 o] eqn:E. injection H as <- <-.
      assert (Hin' : state_in h st) by (intros c (j & b & Hj & Hc); apply Hin; exists j, b; split; [right; auto|auto]).
      destruct (IH _ _ _ Hin' E) as (G2 & El & Hc). split; auto. split; [cbn [load_state map fst snd load_val]; f_equal; exact El|].
      intros c (j & b & [Ej|Hj] & Hcc); [discriminate|]. apply Hc. exists j, b. auto.
  Qed.

  Lemma nth_set_fig : forall {F} (blank : F) figs i f, i < length figs -> nth i (set_fig figs i f) blank = f.
  Proof. intros F blank figs. induction figs as [|g figs IH]; intros [|i] f Hi; cbn in *; auto; try lia. apply IH. lia. Qed.

  Lemma set_fig_length : forall {F} (figs : list F) i f, length (set_fig figs i f) = length figs.
  Proof. intros F figs. induction figs as [|g figs IH]; intros [|i] f; cbn; auto. Qed.

  Theorem main_plot_call : forall {U F} (blank : F) (plot : hplot U F) m u (h : heap T) st m' u' h' r,
    state_in h st -> (forall i, pl_fig m = Some i -> i < length (pl_figs m)) ->
    h_plot_store blank plot m u h st = ((m', u', h'), r) ->
    exists h1 copy f' i, plot u h1 blank copy = ((u', h', f'), r) /\
      load_state h1 copy = load_state h st /\ grown h h1 /\ (forall c, state_cells copy c -> length h <= c < length h1) /\
      pl_fig m' = pl_fig m /\ (forall j, pl_fig m' = Some j -> j < length (pl_figs m')) /\
      nth_error (pl_figs m') i = Some f' /\
      pl_events m' = pl_events m ++
        [match pl_fig m with Some _ => PClear i | None => PNew i end; PPlot i] ++
        match r with Err _ => [] | Ok _ => PDraw i :: match pl_fig m with Some _ => [] | None => [PShow] end end /\
      match pl_fig m with Some j => i = j | None => i = length (pl_figs m) end.
  Proof.
    intros U F blank plot m u h st m' u' h' r Hin Hfig H. unfold h_plot_store in H.
    destruct (h_copy_state h st) as [h1 copy] eqn:Ec. destruct (h_copy_state_spec _ _ _ _ Hin Ec) as (G & El & Hc).
    assert (Hset : forall (figs : list F) i f, i < length figs -> nth_error (set_fig figs i f) i = Some f).
    { intros figs i f Hi. rewrite (nth_error_nth' _ blank) by (rewrite set_fig_length; exact Hi). f_equal. apply nth_set_fig, Hi. }
    destruct (pl_fig m) as [i|] eqn:Ef.
    - specialize (Hfig i eq_refl). rewrite nth_set_fig in H by exact Hfig. destruct (plot u h1 blank copy) as [[[u2 h2] f2] r2] eqn:Ep. injection H as <- <- <- <-.
      exists h1, copy, f2, i. split; [exact Ep|]. split; auto. split; auto. split; auto. cbn [pl_fig pl_figs pl_events]. split; auto.
      split. { intros j Hj. injection Hj as <-. rewrite !set_fig_length. exact Hfig. }
      split. { apply Hset. rewrite set_fig_length. exact Hfig. }
      split; auto. rewrite <- app_assoc. reflexivity.
    - assert (En : nth (length (pl_figs m)) (pl_figs m ++ [blank]) blank = blank) by (rewrite app_nth2, Nat.sub_diag by lia; reflexivity).
      rewrite En in H. destruct (plot u h1 blank copy) as [[[u2 h2] f2] r2] eqn:Ep. injection H as <- <- <- <-.
      exists h1, copy, f2, (length (pl_figs m)). split; [exact Ep|]. split; auto. split; auto. split; auto. cbn [pl_fig pl_figs pl_events]. split; auto.
      split; [discriminate|]. split. { apply Hset. rewrite app_length. cbn [length]. lia. }
      split; auto. rewrite <- app_assoc. reflexivity.
  Qed.

  Theorem main_plot_isolated : forall {U F} (Own : U -> cells) (blank : F) (plot : hplot U F) m u (h : heap T) st m' u' h' r,
    private_plot Own plot -> state_in h st -> (forall i, pl_fig m = Some i -> i < length (pl_figs m)) ->
    h_plot_store blank plot m u h st = ((m', u', h'), r) ->
    changed_in (Own u) h h' /\ forall c, Own u' c -> Own u c \/ length h <= c < length h'.
  Proof.
    intros U F Own blank plot m u h st m' u' h' r Hp Hin Hfig H.
    destruct (main_plot_call _ _ _ _ _ _ _ _ _ _ Hin Hfig H) as (h1 & copy & f' & i & Ep & _ & G & Hc & _).
    destruct (Hp _ _ _ _ _ _ _ _ Ep) as ((Hl & Hch) & Ho). pose proof (grown_length _ _ G) as L. split.
    - split; [lia|]. intros c Hlt Hn. rewrite Hch; [apply cell_grown; auto|lia|]. intros [K|K]; [auto|]. apply Hc in K. lia.
    - intros c K. destruct (Ho c K) as [K1|[K1|K1]]; auto; right; [apply Hc in K1|]; lia.
  Qed.

  Theorem main_plot_history : forall {U F} (Own : U -> cells) (blank : F) (plot : hplot U F) turns m u (h : heap T) log fin,
    private_plot Own plot -> (forall i, pl_fig m = Some i -> i < length (pl_figs m)) -> (forall c, Own u c -> c < length h) ->
    (forall t h, In t turns -> length h <= length (fst (t h))) ->
    plot_run blank plot m u h turns = (log, fin) -> (forall e, In e log -> state_in (p_before e) (p_state e)) ->
    forall c, ~ reachable Own u log c -> forall e, In e log -> c < length (p_before e) -> cell (p_after e) c = cell (p_before e) c.
  Proof.
    intros U F Own blank plot turns. induction turns as [|t turns IH]; intros m u h log fin Hp Hfig Hown Ht H Hex c Hr e He Hc; cbn [plot_run] in H.
    { injection H as <- _. destruct He. }
    destruct (t h) as [h1 st] eqn:Et. destruct (h_plot_store blank plot m u h1 st) as [[[m' u'] h2] r] eqn:Es.
    destruct (plot_run blank plot m' u' h2 turns) as [log' fin'] eqn:Er. injection H as <- _.
    assert (Hin : state_in h1 st) by exact (Hex (mkstored h1 st h2 r) (or_introl eq_refl)).
    destruct (main_plot_isolated Own _ _ _ _ _ _ _ _ _ _ Hp Hin Hfig Es) as (Hch & Ho).
    destruct (main_plot_call _ _ _ _ _ _ _ _ _ _ Hin Hfig Es) as (h1' & copy & f' & i & Ep & _ & G & Hcc & _ & Hfig' & _).
    destruct He as [<-|He].
    - cbn [p_before p_after] in *. apply Hch; auto. intros K. apply Hr. left; exact K.
    - pose proof (Ht t h (or_introl eq_refl)) as Hl1. rewrite Et in Hl1. cbn [fst] in Hl1.
      destruct Hch as (Hl & _).
      refine (IH m' u' h2 log' fin' Hp Hfig' _ _ Er _ c _ e He Hc).
      + intros x Hx. destruct (Ho x Hx) as [K|K]; [|lia]. apply Hown in K. lia.
      + intros t' h' Ht'. apply Ht. right; auto.
      + intros e' He'. apply Hex. right; auto.
      + intros [K|(e' & He' & K)]; apply Hr.
        * destruct (Ho c K) as [K'|K']; [left; exact K'|]. right. exists (mkstored h1 st h2 r). split; [left; auto|]. cbn [p_before p_after]. exact K'.
        * right. exists e'. split; [right; auto|exact K].
  Qed.

  Lemma set_fig_other : forall {F} (figs : list F) i j f, i <> j -> nth_error (set_fig figs i f) j = nth_error figs j.
  Proof. intros F figs. induction figs as [|g figs IH]; intros [|i] [|j] f H; cbn; auto; try congruence. Qed.

  Lemma plot_run_events : forall {U F} (blank : F) (plot : hplot (T:=T) U F) turns m u (h : heap T) log m' u' h' (n : nat) (inter : bool),
    pl_fig m = (if inter then Some n else None) -> (inter = false -> n = length (pl_figs m)) ->
    plot_run blank plot m u h turns = (log, (m', u', h')) ->
    length log = length turns /\ length (pl_figs m') = length (pl_figs m) + (if inter then 0 else length turns) /\
    pl_events m' = pl_events m ++ plot_events inter n (map p_result log) /\
    (forall i, i < n -> nth_error (pl_figs m') i = nth_error (pl_figs m) i).
  Proof.
    intros U F blank plot turns. induction turns as [|t turns IH]; intros m u h log m' u' h' n inter Hf Hn H; cbn [plot_run] in H.
    { injection H as <- <- _ _. cbn [length map plot_events]. rewrite app_nil_r. split; auto. split; auto. destruct inter; lia. }
    destruct (t h) as [h1 st]. unfold h_plot_store in H. rewrite Hf in H. destruct inter.
    - destruct (h_copy_state h1 st) as [h2 copy]. destruct (plot u h2 (nth n (set_fig (pl_figs m) n blank) blank) copy) as [[[u2 h3] f2] r].
      match type of H with (let (_, _) := plot_run _ _ ?mm _ _ _ in _) = _ => set (m2 := mm) in H; destruct (plot_run blank plot m2 u2 h3 turns) as [log2 [[m3 u3] h4]] eqn:E end.
      injection H as <- -> -> ->. destruct (IH m2 u2 h3 log2 m' u' h' n true) as (L & K1 & K2 & K3); auto; [discriminate|]. subst m2. cbn [pl_figs pl_events] in *.
      rewrite !set_fig_length in K1. cbn [length map plot_events p_result]. split; auto. split; [lia|]. split.
      + rewrite K2. destruct r; cbn [app]; rewrite <- !app_assoc; reflexivity.
      + intros i Hi. rewrite K3, !set_fig_other by lia. auto.
    - specialize (Hn eq_refl). subst n. destruct (h_copy_state h1 st) as [h2 copy].
      destruct (plot u h2 (nth (length (pl_figs m)) (pl_figs m ++ [blank]) blank) copy) as [[[u2 h3] f2] r].
      match type of H with (let (_, _) := plot_run _ _ ?mm _ _ _ in _) = _ => set (m2 := mm) in H; destruct (plot_run blank plot m2 u2 h3 turns) as [log2 [[m3 u3] h4]] eqn:E end.
      injection H as <- -> -> ->.
      assert (Hl : length (pl_figs m2) = S (length (pl_figs m))) by (subst m2; cbn [pl_figs]; rewrite set_fig_length, app_length; cbn [length]; lia).
      destruct (IH m2 u2 h3 log2 m' u' h' (S (length (pl_figs m))) false) as (L & K1 & K2 & K3); auto. cbn [length map plot_events p_result]. split; auto. split; [lia|]. split.
      + rewrite K2. subst m2. cbn [pl_events]. destruct r; cbn [app]; rewrite <- !app_assoc; reflexivity.
      + intros i Hi. rewrite K3 by lia. subst m2. cbn [pl_figs]. rewrite set_fig_other by lia. apply nth_error_app1; auto.
  Qed.

  (** Figures made and shown, from the creation of the monitor on. *)
  Theorem main_plot_figures : forall {U F} (blank : F) (plot : hplot (T:=T) U F) figs (inter : bool) turns u (h : heap T) log m u' h',
    plot_run blank plot (new_plotter blank figs inter) u h turns = (log, (m, u', h')) ->
    length log = length turns /\ length (pl_figs m) = length figs + (if inter then 1 else length turns) /\
    pl_events m = (if inter then [PNew (length figs)] else []) ++ plot_events inter (length figs) (map p_result log) /\
    (forall i, i < length figs -> nth_error (pl_figs m) i = nth_error figs i).
  Proof.
    intros U F blank plot figs inter turns u h log m u' h' H.
    assert (K : pl_fig (new_plotter blank figs inter) = (if inter then Some (length figs) else None)) by (destruct inter; reflexivity).
    assert (Kn : inter = false -> length figs = length (pl_figs (new_plotter blank figs inter))) by (intros ->; reflexivity).
    destruct (plot_run_events _ _ _ _ _ _ _ _ _ _ _ _ K Kn H) as (L & K1 & K2 & K3).
    split; auto. destruct inter; cbn [new_plotter pl_figs pl_events] in *.
    - rewrite app_length in K1. cbn [length] in K1. split; [lia|]. split; auto. intros i Hi. rewrite K3 by auto. apply nth_error_app1; auto.
    - split; auto.
  Qed.
End Plot.
