(** Memory that array_call leaves alone is left alone by the call. *)
From Coq Require Import String List Bool Arith ZArith QArith Qcanon Lia.
From Verif Require Import Prelude PreludeFacts ArithM NdArray NdFacts Units DataArrayM Wildcard GetNp Restore RestoreFacts InitNp Tracers Composite Heap Components HeapCalls SpecArrays SpecComposite
  SpecHeap SpecHeapCalls HeapFacts HeapComposite HeapSteppers HeapCallsFacts HeapCallsViews HeapCallsMain.
Import ListNotations.
Open Scope string_scope.
Open Scope nat_scope.
Open Scope list_scope.

Section Spare.
  Context {T : Type} {A : Arith T} {R : Registry}.
  Variable cp : nd nat -> list nat -> bool.

  Lemma alloc_nd_grown : forall (h : heap T) v, grown h (fst (alloc_nd h v)).
  Proof. intros. apply alloc_nd_spec. Qed.

  Lemma h_get_array_grown : forall (h : heap T) v u od dl, grown h (fst (h_get_array h v u od dl)).
  Proof.
    intros h [a|t] u od dl; cbn [h_get_array]; [|apply grown_refl]. destruct (negb _); [apply grown_refl|].
    pose proof (h_to_units_grown h a u) as G. destruct (h_to_units h a u) as [h1 [q|e]]; cbn [fst] in G; [|destruct e; exact G].
    apply (grown_trans _ _ _ G). unfold h_get_numpy_array. destruct (get_numpy_array _ _ _) as [b|e]; [|apply grown_refl].
    destruct (_ && _); [apply grown_refl|]. pose proof (alloc_nd_grown h1 (load_nd h1 b)) as G2. destruct (alloc_nd h1 (load_nd h1 b)). exact G2.
  Qed.

  Lemma h_extract_grown : forall st wn dl pd (h : heap T) out, grown h (fst (h_extract cp st wn dl h pd out)).
  Proof.
    intros st wn dl pd. induction pd as [|np pd IH]; intros h out; cbn [h_extract]; [apply grown_refl|].
    apply hbind_grown; [|intros; apply IH]. unfold h_extract_step. apply hbind_grown; [apply grown_refl|]. intros h1 [[ds u] v].
    apply hbind_grown; [|intros; apply grown_refl]. destruct (index_of "*" ds) as [i|]; [|apply h_get_array_grown].
    destruct wn as [names|]; [|apply grown_refl]. apply hbind_grown; [apply h_get_array_grown|]. intros h2 b.
    destruct (flatten_wildcard_dims _ _ _) as [f|e]; [|apply grown_refl]. unfold h_reshaped. destruct (cp b (shape f)); [|apply grown_refl].
    pose proof (alloc_nd_grown h2 (load_nd h2 f)) as G. destruct (alloc_nd h2 (load_nd h2 f)). exact G.
  Qed.

  Lemma h_raw_state_grown : forall g inp pk (h : heap T) st, grown h (fst (h_raw_state cp g inp pk h st)).
  Proof.
    intros. unfold h_raw_state. apply hbind_grown; [apply grown_refl|]. intros h1 _. apply hbind_grown.
    - unfold h_get_numpy_arrays. apply hbind_grown; [apply grown_refl|]. intros h2 [wn dl]. apply h_extract_grown.
    - intros h2 raw. cbv zeta. apply hbind_grown.
      + destruct pk as [p|]; [|apply grown_refl]. destruct (pack g p (load_state h2 st)) as [v|e]; [|apply grown_refl].
        pose proof (alloc_nd_grown h2 v) as G. destruct (alloc_nd h2 v). exact G.
      + intros h3 raw'. apply hbind_grown; [apply grown_refl|]. intros; apply grown_refl.
  Qed.

  Lemma changed_trans : forall (X : cells) (h1 h2 h3 : heap T), changed_in X h1 h2 -> changed_in X h2 h3 -> changed_in X h1 h3.
  Proof. intros X h1 h2 h3 (L1 & C1) (L2 & C2). split; [lia|]. intros c Hc Hx. rewrite C2 by (auto; lia). auto. Qed.

  Lemma h_call_spares : forall {U O B} (X : cells) init extract (hac : harray T U O) dt (finish : heap T -> dict hrval -> O -> heap T * res B) u (h : heap T) u' h' r,
    array_spares X hac -> (forall h, grown h (fst (extract h))) -> (forall h raw o, grown h (fst (finish h raw o))) ->
    h_call init extract hac dt finish u h = ((u', h'), r) -> changed_in (fun c => ~ X c) h h'.
  Proof.
    intros U O B X init extract hac dt finish u h u' h' r Hs He Hf H. unfold h_call in H. destruct init.
    2:{ injection H as <- <- <-. apply grown_changed, grown_refl. }
    specialize (He h). destruct (extract h) as [h1 [raw|e]]; cbn [fst] in He.
    2:{ injection H as <- <- <-. apply grown_changed; auto. }
    apply (changed_trans _ _ h1); [apply grown_changed; auto|].
    destruct (hac u h1 raw dt) as [[u2 h2] [o|e]] eqn:E.
    - specialize (Hf h2 raw o). destruct (finish h2 raw o) as [h3 r3]. injection H as <- <- <-. cbn [fst] in Hf.
      apply (changed_trans _ _ h2); [exact (Hs _ _ _ _ _ _ _ E)|apply grown_changed; auto].
    - injection H as <- <- <-. exact (Hs _ _ _ _ _ _ _ E).
  Qed.

  Theorem main_tendency_spares : forall {U} (X : cells) g c (hac : harray T U _), array_spares X hac ->
    spares X (h_tendency_call cp g c hac).
  Proof.
    intros U X g c hac Hs u h st dt u' h' r H. apply (h_call_spares X) in H; auto.
    - intros. apply h_raw_state_grown.
    - intros. apply h_tendency_finish_grown.
  Qed.

  Theorem main_stepper_spares : forall {U} (X : cells) g c (hac : harray T U _), array_spares X hac ->
    spares X (h_stepper_call cp g c hac).
  Proof.
    intros U X g c hac Hs u h st dt u' h' r H. apply (h_call_spares X) in H; auto.
    - intros. apply h_raw_state_grown.
    - intros. apply h_stepper_finish_grown.
  Qed.

  Theorem main_diagnostic_spares : forall {U} (X : cells) c (hac : harray T U _), array_spares X hac ->
    forall u h st u' h' r, h_diagnostic_call cp c hac u h st = ((u', h'), r) -> changed_in (fun c => ~ X c) h h'.
  Proof.
    intros U X c hac Hs u h st u' h' r H. apply (h_call_spares X) in H; auto.
    - intros. apply h_raw_state_grown.
    - intros. apply hbind_grown; [apply grown_refl|]. intros. apply h_restore_grown.
  Qed.

  (** ** Proper tendencies *)

  Lemma dims_declared : forall outp inp ig dd, NoDup (keys outp) -> extract_output_dims_properties outp inp ig = Ok dd ->
    forall name ds, In (name, ds) dd -> declared_dims outp inp name ds.
  Proof.
    intros outp inp ig dd Hnd H name ds Hin. unfold extract_output_dims_properties in H.
    assert (K : forall l acc dd', (forall n d, In (n, d) acc -> declared_dims outp inp n d) -> incl l outp ->
                  foldM (extract_dims_step inp ig) l acc = Ok dd' -> forall n d, In (n, d) dd' -> declared_dims outp inp n d).
    { induction l as [|[k p] l IH]; intros acc dd' Ha Hi Hf; cbn [foldM] in Hf.
      - injection Hf as <-. exact Ha.
      - apply bind_ok in Hf as (acc1 & H1 & Hf). refine (IH acc1 dd' _ (fun x Hx => Hi x (or_intror Hx)) Hf).
        assert (Hp : dget k outp = Some p) by (apply dget_NoDup_In; auto; apply Hi; left; auto).
        unfold extract_dims_step in H1. cbn [fst snd] in H1. destruct (mem k ig); [injection H1 as <-; exact Ha|].
        destruct (p_dims p) as [d0|] eqn:Ep.
        + injection H1 as <-. intros n d Hn. apply In_dset_inv in Hn as [(-> & ->)|Hn]; auto. exists p. auto.
        + destruct (dget k inp) as [q|] eqn:Eq; [|discriminate]. destruct (p_dims q) as [d0|] eqn:Eq'; [|discriminate]. injection H1 as <-.
          intros n d Hn. apply In_dset_inv in Hn as [(-> & ->)|Hn]; auto. exists p. split; auto. right. split; auto. exists q. auto. }
    refine (K outp [] dd _ (fun x Hx => Hx) H name ds Hin). intros n d [].
  Qed.

  Lemma restore_proper : forall (raw : dict (nd T)) outp st inp ig im out, NoDup (keys outp) -> plain_dims outp inp ->
    (forall k a, In (k, a) raw -> wf_nd a) -> restore_data_arrays_with_properties raw outp st inp ig im = Ok out -> proper out.
  Proof.
    intros raw outp st inp ig im out Hnd Hpl Hw H. unfold restore_data_arrays_with_properties in H.
    apply bind_ok in H as ([wn dl] & _ & H). apply bind_ok in H as (dd & Hdd & H). apply bind_ok in H as ([dl' o] & H & E).
    injection E as <-. pose proof (dims_declared _ _ _ _ Hnd Hdd) as Hdecl. clear Hdd. revert H. set (ig' := if im then _ else _).
    pose (P := fun s : dict nat * dict (da T) => NoDup (keys (snd s)) /\ forall k q, In (k, q) (snd s) -> wf_da q).
    assert (K : foldM (restore_step raw outp inp wn ig') dd (dl, []) = Ok (dl', o) -> P (dl', o)).
    { generalize (dl', o). intros s'. assert (P0 : P (dl, [])). { split; [constructor|intros k q []]. }
      revert P0. generalize (dl, @nil (string * da T)). induction dd as [|[name od] dd IH]; intros s P0 H; cbn [foldM] in H.
      { injection H as <-. exact P0. }
      apply bind_ok in H as (s1 & Hs & H). apply (IH (fun n d Hn => Hdecl n d (or_intror Hn)) s1); auto. clear IH H.
      destruct (Hpl name od (Hdecl name od (or_introl eq_refl))) as (Hno & Hst).
      unfold restore_step in Hs. destruct s as [dl0 out]. destruct (mem name ig'). { injection Hs as <-. exact P0. }
      apply bind_ok in Hs as (rn & _ & Hs). apply bind_ok in Hs as ([[dl1 ds] oa] & Hr & Hs).
      apply bind_ok in Hs as (p & _ & Hs). apply bind_ok in Hs as (u & _ & Hs). apply bind_ok in Hs as (q & Hq & Hs).
      injection Hs as <-. destruct P0 as (Hn & Hall). split; [apply NoDup_dset; auto|]. intros k q' Hin. cbn [snd] in *.
      apply In_dset_inv in Hin as [(-> & ->)|Hin]; [|apply (Hall _ _ Hin)].
      apply create_quantity_ok in Hq as (Hl & ->). apply mem_false in Hst. rewrite Hst in Hr.
      apply bind_ok in Hr as (ra & Hra & Hr). apply bind_ok in Hr as (_ & _ & Hr). injection Hr as <- <- <-.
      split; [exact Hl|]. split; [exact Hno|]. apply dgetE_ok, dget_In in Hra. exact (Hw _ _ Hra). }
    intros H. destruct (K H) as (K1 & K2). split; [exact K1|]. intros X a Ha. apply (K2 X), dget_In, Ha.
  Qed.

  Theorem main_returns_proper : forall {U} g c (ac : U -> dict (rval T) -> Z -> U * res (dict (nd T) * dict (nd T))),
    t_packer c = None -> NoDup (keys (t_tend c)) -> plain_dims (t_tend c) (t_inp c) -> returns_real ac ->
    returns_proper (fun v st dt => tendency_call g c (fun v raw => ac v raw dt) v st).
  Proof.
    intros U g c ac Hpk Hnd Hpl Hw v st dt v' t d H. unfold tendency_call in H.
    destruct (let* _ := raise_if (negb (t_init c)) ERuntime in _) as [raw|e]; [|discriminate].
    destruct (ac v raw dt) as [v1 [o|e]] eqn:E; [|discriminate]. injection H as _ H. cbn [bind] in H.
    unfold tendency_finish in H. rewrite Hpk in H. unfold unpack_tracers in H. cbn [bind] in H.
    apply bind_ok in H as (x1 & _ & H). apply bind_ok in H as (x2 & _ & H). apply bind_ok in H as (tend & Ht & H).
    apply bind_ok in H as (di & _ & H). injection H as <- _.
    destruct (restore_proper _ _ _ _ _ _ _ Hnd Hpl (Hw _ _ _ _ _ E) Ht) as (K1 & K2). split.
    - apply NoDup_dupdate. constructor.
    - intros X a Ha. rewrite dget_dupdate in Ha by auto. destruct (dget X tend) as [b|] eqn:Eb; [|discriminate]. injection Ha as <-. exact (K2 X b Eb).
  Qed.
End Spare.
