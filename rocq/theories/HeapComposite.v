(** Composites in memory: C23. *)
From Coq Require Import String List Bool Arith ZArith QArith Qcanon Lia.
From Verif Require Import Prelude PreludeFacts ArithM NdArray NdFacts Units DataArrayM UnitsFacts SpecDa DaFacts
  Components Composite Steppers Heap SpecHeap LeapFacts HeapFacts.
Import ListNotations.
Open Scope string_scope.
Open Scope nat_scope.
Open Scope list_scope.

Section Composite.
  Context {T : Type} {A : Arith T} {R : Registry}.

  Lemma In_dset_inv : forall {V} k (v : V) j w d, In (j, w) (dset k v d) -> (j = k /\ w = v) \/ In (j, w) d.
  Proof.
    induction d as [|[k' b] d IH]; simpl.
    - intros [E|[]]. injection E as <- <-. auto.
    - destruct (String.eqb k k') eqn:E; simpl; intros [H|H]; auto.
      + apply String.eqb_eq in E. subst. injection H as <- <-. auto.
      + destruct (IH H) as [K|K]; auto.
  Qed.

  Lemma In_dset_other : forall {V} k (v : V) j w d, NoDup (keys d) -> In (j, w) (dset k v d) ->
    (j = k /\ w = v) \/ (j <> k /\ In (j, w) d).
  Proof.
    intros V k v j w d Hn H. destruct (String.string_dec j k) as [E|E].
    - subst. left. split; auto. apply dget_NoDup_In in H; [|apply NoDup_dset; auto]. rewrite dget_dset_eq in H. congruence.
    - right. split; auto. apply In_dset_inv in H as [(K & _)|H]; auto. contradiction.
  Qed.

  (** ** What [h_add_quantities] writes *)

  Lemma h_add_changed : forall (h : heap T) a b h' r, h_add_quantities h a b = (h', r) ->
    changed_in (fun c => In c (h_cells a)) h h' /\
    match r with
    | Ok s => s = a \/ (forall c, In c (h_cells s) -> length h <= c < length h')
    | Err _ => True
    end.
  Proof.
    intros h a b h' r H. unfold h_add_quantities in H.
    destruct (dget "units" (h_attrs a)) as [u|]; [|injection H as <- <-; split; auto using changed_refl].
    destruct (dget "units" (h_attrs b)) as [u'|]; [|injection H as <- <-; split; auto using changed_refl].
    destruct (to_units (load h b) u) as [b'|e]; [|injection H as <- <-; split; auto using changed_refl].
    destruct (da_iadd (load h a) b') as [s|e].
    - injection H as <- <-. split; auto. apply changed_write.
    - destruct e; try (injection H as <- <-; split; auto using changed_refl; fail).
      destruct (da_add (load h a) b') as [s|e]; [|injection H as <- <-; split; auto using changed_refl].
      injection H as <- <-. split.
      + apply grown_changed. exists (data (arr s)). auto.
      + right. intros c Hc. cbn [h_cells] in Hc. apply in_seq in Hc. unfold heap in *. rewrite app_length. lia.
  Qed.

  Lemma dget_In' : forall {V} k (v : V) d, dget k d = Some v -> In (k, v) d.
  Proof. intros. apply dget_In; auto. Qed.

  Definition owned (X : cells) (d : dict hda) : Prop := forall k a, In (k, a) d -> forall c, In c (h_cells a) -> X c.

  Lemma h_update_changed : forall d2 (h : heap T) d1 (X : cells) h' r, owned X d1 ->
    h_update_by_adding h d1 d2 = (h', r) ->
    changed_in X h h' /\
    match r with
    | Ok d => owned (fun c => X c \/ length h <= c < length h') d
    | Err _ => True
    end.
  Proof.
    induction d2 as [|[key b] d2 IH]; intros h d1 X h' r Ho H; cbn [h_update_by_adding] in H.
    - injection H as <- <-. split. apply changed_refl. intros k a Hk c Hc. left; eauto.
    - destruct (dget key d1) as [a|] eqn:Eg.
      + destruct (h_add_quantities h a b) as [h1 [s|e]] eqn:Ea.
        * destruct (h_add_changed _ _ _ _ _ Ea) as (C1 & Hs).
          assert (L1 : length h <= length h1) by apply C1.
          assert (C1' : changed_in X h h1).
          { apply (changed_weaken _ X _ _ C1). intros c _ Hc. exact (Ho _ _ (dget_In' _ _ _ Eg) c Hc). }
          apply (IH _ _ (fun c => X c \/ length h <= c < length h1)) in H.
          -- destruct H as (C2 & Hr). split.
             ++ apply (changed_trans X _ X _ _ _ C1' C2). intros c Hc [K|[K|K]]; auto. lia.
             ++ assert (L2 : length h1 <= length h') by apply C2. destruct r as [d|e]; auto.
                intros k' a' Hin c Hc. destruct (Hr k' a' Hin c Hc) as [[K|K]|K]; auto; right; lia.
          -- intros k' a' Hin c Hc. apply In_dset_inv in Hin as [(-> & ->)|Hin].
             ++ destruct Hs as [->|Hs]; [left; exact (Ho _ _ (dget_In' _ _ _ Eg) c Hc)|right; auto].
             ++ left. exact (Ho _ _ Hin c Hc).
        * injection H as <- <-. destruct (h_add_changed _ _ _ _ _ Ea) as (C1 & _). split; auto.
          apply (changed_weaken _ X _ _ C1). intros c _ Hc. exact (Ho _ _ (dget_In' _ _ _ Eg) c Hc).
      + cbn [alloc] in H. set (h1 := h ++ data (arr (load h b))) in *.
        assert (G : grown h h1) by (exists (data (arr (load h b))); auto).
        pose proof (grown_length _ _ G) as L1.
        apply (IH _ _ (fun c => X c \/ length h <= c < length h1)) in H.
        * destruct H as (C2 & Hr). split.
          -- apply (changed_trans X _ X _ _ _ (grown_changed X _ _ G) C2). intros c Hc [K|[K|K]]; auto. lia.
          -- assert (L2 : length h1 <= length h') by apply C2. destruct r as [d|e]; auto.
             intros k' a' Hin c Hc. destruct (Hr k' a' Hin c Hc) as [[K|K]|K]; auto; right; lia.
        * intros k' a' Hin c Hc. apply In_dset_inv in Hin as [(-> & ->)|Hin].
          -- right. cbn [h_cells] in Hc. apply in_seq in Hc. unfold h1. unfold heap in *. rewrite app_length. lia.
          -- left. exact (Ho _ _ Hin c Hc).
  Qed.

  (** Only cells the composite allocated itself change between the calls. *)
  Lemma composite_only_own : forall {U} (cs : list (hcaller (T:=T) U)) own u h st tend diag u' h' r,
    owned own tend -> h_composite_loop cs u h st tend diag = ((u', h'), r) -> only_own st own cs u h u' h'.
  Proof.
    induction cs as [|c cs IH]; intros own u h st tend diag u' h' r Ho H; cbn [h_composite_loop] in H.
    - injection H as <- <- _. constructor.
    - destruct (c u h st) as [[u1 h1] r1] eqn:Ec. destruct r1 as [[t d]|e].
      + destruct (h_update_by_adding h1 tend t) as [h2 [tend'|e]] eqn:Eu.
        * destruct (h_update_changed _ _ _ _ _ _ Ho Eu) as (C & Ho').
          apply (own_next st own c cs u h u1 h1 (t, d) h2 u' h'); auto.
          exact (IH _ _ _ _ _ _ _ _ _ Ho' H).
        * destruct (h_update_changed _ _ _ _ _ _ Ho Eu) as (C & _). injection H as <- <- _.
          exact (own_stop st own c cs u h u1 h1 (t, d) h2 Ec C).
      + injection H as <- <- _. exact (own_raise st own c cs u h u1 h1 e Ec).
  Qed.

  Lemma main_composite_only_own : forall {U} (cs : list (hcaller (T:=T) U)) u h st u' h' r,
    h_composite cs u h st = ((u', h'), r) -> only_own st no_cells cs u h u' h'.
  Proof. intros U cs u h st u' h' r H. refine (composite_only_own cs no_cells u h st [] [] u' h' r _ H). intros k a []. Qed.

  Lemma only_own_spares : forall (K : cells) st {U} (cs : list (hcaller (T:=T) U)) own u h u' h', only_own st own cs u h u' h' ->
    (forall c, In c cs -> spares K (no_step c)) ->
    forall h0, changed_in (fun c => ~ K c) h0 h -> (forall x, own x -> length h0 <= x) -> changed_in (fun c => ~ K c) h0 h'.
  Proof.
    intros K st U cs own u h u' h' H. induction H as [own u h|own c cs u h u1 h1 e Hc|own c cs u h u1 h1 out h2 Hc Ho|
      own c cs u h u1 h1 out h2 u' h' Hc Ho H IH]; intros HK h0 C0 Hx; auto.
    - pose proof (HK c (or_introl eq_refl) u h st 0%Z u1 h1 _ Hc) as C1.
      apply (changed_trans _ _ _ _ _ _ C0 C1). intros x _ [E|E]; auto.
    - pose proof (HK c (or_introl eq_refl) u h st 0%Z u1 h1 _ Hc) as C1.
      assert (C01 : changed_in (fun c => ~ K c) h0 h1) by (apply (changed_trans _ _ _ _ _ _ C0 C1); intros x _ [E|E]; auto).
      apply (changed_trans _ _ _ _ _ _ C01 Ho). intros x Lx [E|E]; auto. apply Hx in E. lia.
    - pose proof (HK c (or_introl eq_refl) u h st 0%Z u1 h1 _ Hc) as C1.
      assert (C01 : changed_in (fun c => ~ K c) h0 h1) by (apply (changed_trans _ _ _ _ _ _ C0 C1); intros x _ [E|E]; auto).
      apply IH.
      + intros c' Hc'. apply HK. right; auto.
      + apply (changed_trans _ _ _ _ _ _ C01 Ho). intros x Lx [E|E]; auto. apply Hx in E. lia.
      + intros x [E|E]; auto. assert (length h0 <= length h1) by apply C01. lia.
  Qed.

  Lemma main_composite_spares : forall (K : cells) {U} (cs : list (hcaller (T:=T) U)),
    (forall c, In c cs -> spares K (no_step c)) -> spares K (no_step (h_composite cs)).
  Proof.
    intros K U cs HK u h st dt u' h' r H. pose proof (main_composite_only_own _ _ _ _ _ _ _ H) as O.
    apply (only_own_spares K st cs _ _ _ _ _ O HK); [apply changed_refl|]. intros x [].
  Qed.

  (** ** The sums *)

  Record acc_ok (X : cells) (h : heap T) (d : dict hda) : Prop := mkacc {
    acc_nodup : NoDup (keys d);
    acc_own : owned X d;
    acc_in : forall k a, In (k, a) d -> exists_in h a;
    acc_cells : forall k a, In (k, a) d -> NoDup (h_cells a);
    acc_wf : forall k a, In (k, a) d -> wf_da (load h a);
    acc_sep : forall k j a b, In (k, a) d -> In (j, b) d -> k <> j -> disjoint a b
  }.

  Lemma load_iadd : forall (h : heap T) a b' s, wf_da (load h a) -> wf_da b' -> NoDup (h_cells a) -> exists_in h a ->
    da_iadd (load h a) b' = Ok s -> load (write h a s) a = s /\ wf_da s.
  Proof.
    intros h a b' s Wa Wb Hn Hi H. pose proof H as H0. unfold da_iadd in H0.
    destruct (forallb (fun d => mem d (dims (load h a))) (dims b')) eqn:E; [|discriminate].
    assert (Hincl : incl (dims b') (dims (load h a))). { intros d Hd. rewrite forallb_forall in E. apply mem_In. auto. }
    apply da_binop_ok in H0 as (W & At & _ & _ & L & _); auto.
    destruct (da_iadd_ok _ _ _ H Wa Wb) as (_ & D & _).
    assert (Hsh : shape (arr s) = shape (arr (load h a))).
    { rewrite (shape_dim_len s) by auto. rewrite (shape_dim_len (load h a)) by auto. rewrite D. apply map_ext_in.
      intros d Hd. rewrite L. destruct (dim_len (load h a) d) eqn:Ed; auto.
      apply dim_len_none in Ed; auto. contradiction. }
    split; auto. apply load_write; auto.
    destruct W as (_ & _ & W). unfold wf_nd in W. rewrite W, Hsh.
    destruct Wa as (_ & _ & Wa). unfold wf_nd in Wa. rewrite <- Wa. simpl. apply map_length.
  Qed.

  Lemma exists_changed : forall X (h h' : heap T) a, changed_in X h h' -> exists_in h a -> exists_in h' a.
  Proof. intros X h h' a (L & _). apply exists_mono. auto. Qed.

  Lemma acc_alloc : forall X (h : heap T) d key v, acc_ok X h d -> wf_da v ->
    acc_ok (fun c => X c \/ length h <= c < length (fst (alloc h v))) (fst (alloc h v)) (dset key (snd (alloc h v)) d) /\
    load_dict (fst (alloc h v)) (dset key (snd (alloc h v)) d) = dset key v (load_dict h d).
  Proof.
    intros X h d key v HA Wv. pose proof (load_alloc h v) as El.
    set (h1 := fst (alloc h v)) in *. set (a := snd (alloc h v)) in *.
    assert (G : grown h h1) by (exists (data (arr v)); auto). pose proof (grown_length _ _ G) as L.
    assert (Hc : forall c, In c (h_cells a) -> length h <= c < length h1).
    { intros c Hc. unfold a, alloc in Hc. cbn [snd h_cells] in Hc. apply in_seq in Hc. unfold h1, alloc. cbn [fst].
      unfold heap in *. rewrite app_length. lia. }
    assert (Hl : forall k b, In (k, b) d -> load h1 b = load h b).
    { intros k b Hb. apply load_grown; auto. exact (acc_in _ _ _ HA k b Hb). }
    split.
    - split.
      + apply NoDup_dset. apply HA.
      + intros k b Hb c Hcb. apply In_dset_inv in Hb as [(-> & ->)|Hb]; auto.
        left. exact (acc_own _ _ _ HA _ _ Hb c Hcb).
      + intros k b Hb. apply In_dset_inv in Hb as [(-> & ->)|Hb].
        * intros c Hcc. apply Hc; auto.
        * apply (exists_mono h); auto. exact (acc_in _ _ _ HA k b Hb).
      + intros k b Hb. apply In_dset_inv in Hb as [(-> & ->)|Hb].
        * apply seq_NoDup.
        * exact (acc_cells _ _ _ HA k b Hb).
      + intros k b Hb. apply In_dset_inv in Hb as [(-> & ->)|Hb].
        * rewrite El. auto.
        * rewrite (Hl k b Hb). exact (acc_wf _ _ _ HA k b Hb).
      + intros k j b1 b2 H1 H2 Hne c K1 K2.
        apply In_dset_other in H1; [|apply HA]. apply In_dset_other in H2; [|apply HA].
        destruct H1 as [(-> & ->)|(N1 & H1)], H2 as [(-> & ->)|(N2 & H2)].
        * contradiction.
        * apply Hc in K1. pose proof (acc_in _ _ _ HA _ _ H2 c K2). unfold heap in *. lia.
        * apply Hc in K2. pose proof (acc_in _ _ _ HA _ _ H1 c K1). unfold heap in *. lia.
        * exact (acc_sep _ _ _ HA _ _ _ _ H1 H2 Hne c K1 K2).
    - rewrite load_dict_dset, El. f_equal. apply load_dict_eq. auto.
  Qed.

  Lemma dset_get : forall {V} k (v : V) d, dget k d = Some v -> dset k v d = d.
  Proof.
    induction d as [|[k' w] d IH]; simpl; [discriminate|]. destruct (String.eqb k k') eqn:E; intros H.
    - injection H as ->. apply String.eqb_eq in E. subst; auto.
    - f_equal; auto.
  Qed.

  Lemma acc_write : forall X (h : heap T) d key a b' s, acc_ok X h d -> dget key d = Some a -> wf_da b' ->
    da_iadd (load h a) b' = Ok s ->
    acc_ok X (write h a s) d /\ load_dict (write h a s) d = dset key s (load_dict h d).
  Proof.
    intros X h d key a b' s HA Hg Wb H. pose proof (dget_In' _ _ _ Hg) as Hin.
    destruct (load_iadd h a b' s) as (El & Ws); auto;
      try (exact (acc_wf _ _ _ HA _ _ Hin)); try (exact (acc_cells _ _ _ HA _ _ Hin)); try (exact (acc_in _ _ _ HA _ _ Hin)).
    pose proof (changed_write h a s) as C.
    assert (Hl : forall k b, In (k, b) d -> k <> key -> load (write h a s) b = load h b).
    { intros k b Hb Hne. apply (load_same _ _ _ _ C). exact (acc_in _ _ _ HA _ _ Hb).
      intros c Hc K. exact (acc_sep _ _ _ HA _ _ _ _ Hb Hin Hne c Hc K). }
    split.
    - split; try (apply HA).
      + intros k b Hb. apply (exists_changed _ _ _ _ C). exact (acc_in _ _ _ HA _ _ Hb).
      + intros k b Hb. apply (wf_load_any h). exact (acc_wf _ _ _ HA _ _ Hb).
    - rewrite <- (dset_get key a d Hg) at 1. rewrite load_dict_dset, El.
      pose proof (acc_nodup _ _ _ HA) as Hn. clear - Hl Hn.
      induction d as [|[k b] d IH]; auto. inversion Hn as [|? ? Hk Hn']; subst.
      change (load_dict (write h a s) ((k, b) :: d)) with ((k, load (write h a s) b) :: load_dict (write h a s) d).
      change (load_dict h ((k, b) :: d)) with ((k, load h b) :: load_dict h d).
      cbn [dset]. destruct (String.eqb key k) eqn:E.
      + apply String.eqb_eq in E; subst k. f_equal. apply load_dict_eq. intros k' b' Hb'. apply (Hl k'). right; auto.
        intros ->. apply Hk. apply in_map_iff. exists (key, b'); auto.
      + f_equal.
        * f_equal. apply (Hl k). left; auto. intros ->. rewrite String.eqb_refl in E. discriminate.
        * apply IH; auto. intros k' b' Hb'. apply Hl. right; auto.
  Qed.

  Lemma load_changed_dict : forall (X : cells) (h h' : heap T) d, changed_in X h h' -> dict_in h d -> avoids (cells_of d) X ->
    load_dict h' d = load_dict h d.
  Proof.
    intros X h h' d C Hi Hx. apply load_dict_eq. intros k a Ha. apply (load_same _ _ _ _ C).
    - intros c Hc. apply Hi. exists k, a; auto.
    - intros c Hc. apply Hx. exists k, a; auto.
  Qed.

  Lemma load_changed_state : forall (X : cells) (h h' : heap T) d, changed_in X h h' -> state_in h d -> avoids (state_cells d) X ->
    load_state h' d = load_state h d.
  Proof.
    intros X h h' d C Hi Hx. apply load_state_eq. intros k a Ha. apply (load_same _ _ _ _ C).
    - intros c Hc. apply Hi. exists k, a; auto.
    - intros c Hc. apply Hx. exists k, a; auto.
  Qed.

  Lemma acc_weaken : forall (X Y : cells) (h : heap T) d, acc_ok X h d -> (forall c, X c -> Y c) -> acc_ok Y h d.
  Proof. intros X Y h d HA H. split; try (apply HA). intros k a Hin c Hc. apply H. exact (acc_own _ _ _ HA _ _ Hin c Hc). Qed.

  Lemma h_update_spec : forall d2 (h : heap T) d1 (X : cells) h' r, acc_ok X h d1 ->
    dict_in h d2 -> (forall k a, In (k, a) d2 -> wf_da (load h a)) -> avoids (cells_of d2) X ->
    h_update_by_adding h d1 d2 = (h', r) ->
    match r with
    | Err e => update_dict_by_adding_another (load_dict h d1) (load_dict h d2) = Err e
    | Ok d => update_dict_by_adding_another (load_dict h d1) (load_dict h d2) = Ok (load_dict h' d) /\
              acc_ok (fun c => X c \/ length h <= c < length h') h' d
    end.
  Proof.
    induction d2 as [|[key b] d2 IH]; intros h d1 X h' r HA Hi Hw Hx H; cbn [h_update_by_adding] in H.
    - injection H as <- <-. split; auto. apply (acc_weaken X); auto.
    - unfold update_dict_by_adding_another.
      change (load_dict h ((key, b) :: d2)) with ((key, load h b) :: load_dict h d2). cbn [foldM].
      assert (Estep : add_entry (load_dict h d1) (key, load h b) =
                      match dget key d1 with
                      | None => Ok (dset key (load h b) (load_dict h d1))
                      | Some a => let* s := add_quantities (load h a) (load h b) in Ok (dset key s (load_dict h d1))
                      end) by (cbn [add_entry]; rewrite dget_load_dict; destruct (dget key d1); auto).
      rewrite Estep. clear Estep.
      assert (Hi2 : dict_in h d2) by (intros c (k & a & Hk & Hc); apply Hi; exists k, a; split; auto; right; auto).
      assert (Hx2 : avoids (cells_of d2) X) by (intros c (k & a & Hk & Hc); apply Hx; exists k, a; split; auto; right; auto).
      assert (Wb : wf_da (load h b)) by (apply (Hw key); left; auto).
      (* one more entry, in memory [h1] with accumulators [d'] *)
      assert (Hnext : forall h1 d' v, changed_in X h h1 ->
                load_dict h1 d' = dset key v (load_dict h d1) ->
                acc_ok (fun c => X c \/ length h <= c < length h1) h1 d' ->
                h_update_by_adding h1 d' d2 = (h', r) ->
                match r with
                | Err e => foldM add_entry (load_dict h d2) (dset key v (load_dict h d1)) = Err e
                | Ok d => foldM add_entry (load_dict h d2) (dset key v (load_dict h d1)) = Ok (load_dict h' d) /\
                          acc_ok (fun c => X c \/ length h <= c < length h') h' d
                end).
      { intros h1 d' v C1 El HA1 H1. assert (L1 : length h <= length h1) by apply C1.
        rewrite <- El. rewrite <- (load_changed_dict X h h1 d2) by auto.
        assert (Hi3 : dict_in h1 d2) by (intros c Hc; specialize (Hi2 c Hc); lia).
        assert (Hw3 : forall k a, In (k, a) d2 -> wf_da (load h1 a)) by (intros k a Ha; apply (wf_load_any h); apply (Hw k); right; auto).
        assert (Hx3 : avoids (cells_of d2) (fun c => X c \/ length h <= c < length h1)).
        { intros c Hc [K|K]. exact (Hx2 c Hc K). specialize (Hi2 c Hc). lia. }
        assert (L2 : length h1 <= length h').
        { destruct (h_update_changed _ _ _ _ _ _ (acc_own _ _ _ HA1) H1) as ((L2 & _) & _). auto. }
        specialize (IH _ _ _ _ _ HA1 Hi3 Hw3 Hx3 H1). destruct r as [d|e].
        - destruct IH as (E & HA2). split; auto. apply (acc_weaken _ _ _ _ HA2). intros c [[K|K]|K]; auto; right; lia.
        - exact IH. }
      destruct (dget key d1) as [a|] eqn:Eg.
      + destruct (h_add_quantities h a b) as [h1 ra] eqn:Ea. unfold add_quantities. rewrite !attrs_load.
        unfold h_add_quantities in Ea.
        pose proof (dget_In' _ _ _ Eg) as Hin. pose proof (acc_wf _ _ _ HA _ _ Hin) as Wa.
        destruct (dget "units" (h_attrs a)) as [u|]; [|injection Ea as <- <-; injection H as <- <-; reflexivity].
        destruct (dget "units" (h_attrs b)) as [u'|]; [|injection Ea as <- <-; injection H as <- <-; reflexivity].
        destruct (to_units (load h b) u) as [b'|e] eqn:Et; [|injection Ea as <- <-; injection H as <- <-; reflexivity].
        pose proof (to_units_wf _ _ _ Et Wb) as Wb'. cbn [bind].
        assert (C : changed_in (fun c => In c (h_cells a)) h (write h a (load h a))) by apply changed_write. clear C.
        destruct (da_iadd (load h a) b') as [s|e] eqn:Ei.
        * injection Ea as <- <-.
          assert (Es : da_add (load h a) b' = Ok s).
          { unfold da_iadd in Ei. destruct (forallb _ _); [auto|discriminate]. }
          rewrite Es. cbn [bind].
          destruct (acc_write X h d1 key a b' s HA Eg Wb' Ei) as (HA1 & El).
          assert (C : changed_in X h (write h a s)).
          { apply (changed_weaken _ X _ _ (changed_write h a s)). intros c _ Hc. exact (acc_own _ _ _ HA _ _ Hin c Hc). }
          rewrite (dset_get key a d1 Eg) in H.
          apply (Hnext (write h a s) d1 s); auto. apply (acc_weaken X); auto.
        * destruct e;
            try (assert (Es : exists e', da_add (load h a) b' = Err e' /\ (h1, ra) = (h, Err e'))
                   by (unfold da_iadd in Ei; destruct (forallb _ _); [|discriminate Ei];
                       eexists; split; [exact Ei|symmetry; exact Ea]);
                 destruct Es as (e' & Es & Ep); injection Ep as -> ->; injection H as <- <-; rewrite Es; reflexivity).
          destruct (da_add (load h a) b') as [s|e] eqn:Es; cbn [bind];
            [|injection Ea as <- <-; injection H as <- <-; reflexivity].
          cbv zeta in Ea. change (alloc h s) with (fst (alloc h s), snd (alloc h s)) in Ea. injection Ea as <- <-.
          assert (Ws : wf_da s) by (apply da_binop_ok in Es as (W & _); auto).
          destruct (acc_alloc X h d1 key s HA Ws) as (HA1 & El).
          apply (Hnext (fst (alloc h s)) (dset key (snd (alloc h s)) d1) s); auto.
          apply grown_changed. exists (data (arr s)). auto.
      + cbn [bind]. change (alloc h (load h b)) with (fst (alloc h (load h b)), snd (alloc h (load h b))) in H.
        destruct (acc_alloc X h d1 key (load h b) HA Wb) as (HA1 & El).
        apply (Hnext (fst (alloc h (load h b))) (dset key (snd (alloc h (load h b))) d1) (load h b)); auto.
        apply grown_changed. exists (data (arr (load h b))). auto.
  Qed.

  (** ** Composites of well-behaved components *)

  Section Behave.
    Context (P : Prop) {UH UV : Type} (I : invariant (T:=T) UH UV) (Hst : stable I).

    Definition pair_behaves (hc : hcaller (T:=T) UH) (c : caller (T:=T) UV) : Prop := behaves_if P I (no_step hc) (no_step_v c).

    Lemma composite_loop_behaves : forall hcs cs, Forall2 pair_behaves hcs cs ->
      forall (X Y : cells) h0 h u v st tend diag u' h' r,
      grown h0 h -> state_in h0 st -> (P -> avoids (state_cells st) X) ->
      (forall c, X c -> c < length h0) -> (forall c, Y c -> length h0 <= c < length h) ->
      acc_ok Y h tend ->
      dict_in h diag -> avoids (cells_of diag) (fun c => X c \/ Y c) -> NoDup (keys diag) ->
      I (fun c => X c \/ Y c) h u v ->
      h_composite_loop hcs u h st tend diag = ((u', h'), r) ->
      grown h0 h' /\
      (exists v', composite_loop cs v (load_state h0 st) (load_dict h tend) (load_dict h diag) = (v', load_out h' r) /\
                  I X h' u' v') /\
      match r with
      | Err _ => True
      | Ok (t, d) => dict_in h' t /\ dict_in h' d /\ proper_dict h' t /\ NoDup (keys d) /\
                     avoids (cells_of d) X /\ (forall c, cells_of t c -> length h0 <= c)
      end.
    Proof.
      intros hcs cs HF. induction HF as [|hc c hcs cs Hb HF IH]; intros X Y h0 h u v st tend diag u' h' r
        G0 Hi Hx HX HY HA Hdi Hdx Hdn HI H; cbn [h_composite_loop] in H.
      - injection H as <- <- <-. split; auto. split.
        + exists v. cbn [composite_loop load_out]. split; auto.
          apply (Hst (fun c => X c \/ Y c) X h h u v); auto. apply changed_refl.
        + repeat match goal with |- _ /\ _ => split end; auto.
          * intros c (k & a & Ha & Hc). exact (acc_in _ _ _ HA _ _ Ha c Hc).
          * split. apply HA. exact (acc_wf _ _ _ HA).
          * intros c Hc K. apply (Hdx c Hc). auto.
          * intros c (k & a & Ha & Hc). apply HY. exact (acc_own _ _ _ HA _ _ Ha c Hc).
      - pose proof (grown_length _ _ G0) as L0.
        destruct (hc u h st) as [[u1 h1] r1] eqn:Ec.
        assert (Hi' : state_in h st) by (intros x Hc; specialize (Hi x Hc); lia).
        assert (Hx' : P -> avoids (state_cells st) (fun c => X c \/ Y c)).
        { intros p x Hc [K|K]. exact (Hx p x Hc K). apply HY in K. specialize (Hi x Hc). lia. }
        assert (HXY : forall c, X c \/ Y c -> c < length h).
        { intros x [K|K]. apply HX in K. lia. apply HY in K. lia. }
        destruct (Hb (fun c => X c \/ Y c) h u v st 0%Z u1 h1 r1 HI HXY Hi' Hx' Ec) as (G1 & (v1 & Ev & HI1) & Hr1).
        pose proof (grown_length _ _ G1) as L1.
        assert (El0 : load_state h st = load_state h0 st).
        { apply (load_changed_state no_cells); auto. apply grown_changed; auto. intros x _ K; exact K. }
        rewrite El0 in Ev. unfold no_step_v in Ev. cbn [composite_loop]. rewrite Ev.
        destruct r1 as [[t d]|e]; cbn [load_out bind fst snd].
        2: { injection H as <- <- <-. split. exact (grown_trans _ _ _ G0 G1). split; auto.
             exists v1. split; auto. apply (Hst (fun c => X c \/ Y c) X h1 h1 u1 v1); auto. apply changed_refl. }
        destruct Hr1 as (Ht & Hd & Hpt & Hnd & Hat & Had).
        assert (HA1 : acc_ok Y h1 tend).
        { split; try (apply HA).
          - intros k a Ha. apply (exists_mono h); auto. exact (acc_in _ _ _ HA _ _ Ha).
          - intros k a Ha. apply (wf_load_any h). exact (acc_wf _ _ _ HA _ _ Ha). }
        assert (Htend : load_dict h1 tend = load_dict h tend).
        { apply load_dict_eq. intros k a Ha. apply load_grown; auto. exact (acc_in _ _ _ HA _ _ Ha). }
        assert (Hdiag : load_dict h1 diag = load_dict h diag).
        { apply (load_changed_dict no_cells); auto. apply grown_changed; auto. intros x _ K; exact K. }
        rewrite <- Htend.
        destruct (h_update_by_adding h1 tend t) as [h2 [tend'|e]] eqn:Eu.
        + assert (Hat' : avoids (cells_of t) Y) by (intros x Hc K; apply (Hat x Hc); auto).
          destruct (h_update_spec t h1 tend Y h2 (Ok tend') HA1 Ht (proj2 Hpt) Hat' Eu) as (E2 & HA2).
          destruct (h_update_changed t h1 tend Y h2 (Ok tend') (acc_own _ _ _ HA1) Eu) as (C2 & _).
          assert (L2 : length h1 <= length h2) by apply C2.
          rewrite E2. cbn [bind].
          set (Y' := fun c => Y c \/ length h1 <= c < length h2) in *.
          assert (Hd2 : load_dict h2 (dupdate diag d) = dupdate (load_dict h diag) (load_dict h1 d)).
          { rewrite load_dict_dupdate. f_equal.
            - rewrite <- Hdiag. apply (load_changed_dict Y); auto.
              + intros x Hc. specialize (Hdi x Hc). lia.
              + intros x Hc K. apply (Hdx x Hc). auto.
            - apply (load_changed_dict Y); auto. intros x Hc K. apply (Had x Hc). auto. }
          rewrite <- Hd2.
          assert (Hsplit : forall x, cells_of (dupdate diag d) x -> cells_of diag x \/ cells_of d x).
          { intros x (k & a & Ha & Hc). unfold dupdate in Ha. clear - Ha Hc.
            revert diag Ha. induction d as [|[k' a'] d IHd]; intros diag Ha; cbn [fold_left] in Ha.
            - left. exists k, a; auto.
            - apply IHd in Ha as [(k2 & a2 & Ha & Hc2)|(k2 & a2 & Ha & Hc2)].
              + apply In_dset_inv in Ha as [(-> & ->)|Ha].
                * right. exists k', a'. split; auto. left; auto.
                * left. exists k2, a2; auto.
              + right. exists k2, a2; split; auto. right; auto. }
          refine (IH X Y' h0 h2 u1 v1 st tend' (dupdate diag d) u' h' r _ Hi Hx HX _ HA2 _ _ _ _ H).
          * apply (changed_grown Y).
            -- apply (changed_trans no_cells Y Y _ _ _ (grown_changed _ _ _ (grown_trans _ _ _ G0 G1)) C2).
               intros x Hxl [K|K]; [exfalso; exact K|auto].
            -- intros x Hxl K. apply HY in K. lia.
          * intros x [K|K]; [apply HY in K|]; lia.
          * intros x Hc. apply Hsplit in Hc as [Hc|Hc]; [specialize (Hdi x Hc)|specialize (Hd x Hc)]; lia.
          * intros x Hc K. apply Hsplit in Hc as [Hc|Hc].
            -- specialize (Hdi x Hc). destruct K as [K|[K|K]]; [apply (Hdx x Hc); auto|apply (Hdx x Hc); auto|lia].
            -- specialize (Hd x Hc). destruct K as [K|[K|K]]; [apply (Had x Hc); auto|apply (Had x Hc); auto|lia].
          * apply NoDup_dupdate; auto.
          * apply (Hst (fun c => X c \/ Y c) (fun c => X c \/ Y' c) h1 h2 u1 v1); auto.
            -- apply (changed_weaken Y); auto.
            -- intros x Hxl [K|[K|K]]; auto. lia.
        + assert (Hat' : avoids (cells_of t) Y) by (intros x Hc K; apply (Hat x Hc); auto).
          pose proof (h_update_spec t h1 tend Y h2 (Err e) HA1 Ht (proj2 Hpt) Hat' Eu) as E2. cbv beta iota in E2.
          destruct (h_update_changed t h1 tend Y h2 (Err e) (acc_own _ _ _ HA1) Eu) as (C2 & _).
          rewrite E2. cbn [bind]. injection H as <- <- <-. split; [|split; auto].
          * apply (changed_grown Y).
            -- apply (changed_trans no_cells Y Y _ _ _ (grown_changed _ _ _ (grown_trans _ _ _ G0 G1)) C2).
               intros x Hxl [K|K]; [exfalso; exact K|auto].
            -- intros x Hxl K. apply HY in K. lia.
          * exists v1. split; auto. apply (Hst (fun c => X c \/ Y c) X h1 h2 u1 v1); auto.
            apply (changed_weaken Y); auto.
    Qed.

    Lemma composite_behaves_new : forall hcs cs, Forall2 pair_behaves hcs cs ->
      forall (X : cells) h u v st u' h' r,
      I X h u v -> (forall c, X c -> c < length h) -> state_in h st -> (P -> avoids (state_cells st) X) ->
      h_composite hcs u h st = ((u', h'), r) ->
      grown h h' /\
      (exists v', tendency_composite_call cs v (load_state h st) = (v', load_out h' r) /\ I X h' u' v') /\
      match r with
      | Err _ => True
      | Ok (t, d) => dict_in h' t /\ dict_in h' d /\ proper_dict h' t /\ NoDup (keys d) /\
                     avoids (cells_of d) X /\ (forall c, cells_of t c -> length h <= c)
      end.
    Proof.
      intros hcs cs HF X h u v st u' h' r HI HX Hi Hx H.
      apply (composite_loop_behaves hcs cs HF X no_cells h h u v st [] [] u' h' r); auto.
      - apply grown_refl.
      - intros c K. exfalso. exact K.
      - split; [constructor|intros k a []|intros k a []|intros k a []|intros k a []|intros k j a b []].
      - intros c (k & a & Ha & _). destruct Ha.
      - intros c (k & a & Ha & _). destruct Ha.
      - constructor.
      - apply (Hst X _ h h u v HI (changed_refl _ _)). intros c _ [K|K]; auto. exfalso; exact K.
    Qed.

    Lemma main_composite_behaves : forall hcs cs, Forall2 pair_behaves hcs cs ->
      behaves_if P I (no_step (h_composite hcs)) (no_step_v (tendency_composite_call cs)).
    Proof.
      intros hcs cs HF X h u v st dt u' h' r HI HX Hi Hx H.
      destruct (composite_behaves_new hcs cs HF X h u v st u' h' r HI HX Hi Hx H) as (G & Hv & Hr).
      split; auto. split; auto. destruct r as [[t d]|e]; auto. destruct Hr as (H1 & H2 & H3 & H4 & H5 & H6).
      repeat match goal with |- _ /\ _ => split end; auto. intros c Hc K. apply H6 in Hc. apply HX in K. lia.
    Qed.

    Lemma main_implicit_behaves : forall hcs cs, Forall2 (behaves_either P I) hcs cs ->
      behaves_if P I (h_implicit_composite hcs) (fun v st dt => implicit_composite_call cs dt v st).
    Proof.
      intros hcs cs HF X h u v st dt u' h' r HI HX Hi Hx H.
      apply (main_composite_behaves
               (map (fun c => match c with inl f => fun u h st => f u h st dt | inr f => f end) hcs)
               (map (fun c => match c with inl f => fun u st => f u st dt | inr f => f end) cs)
               ltac:(clear - HF; induction HF as [|hc c hcs cs Hb HF IH]; constructor; auto;
                     destruct hc as [hc|hc], c as [c|c]; try (exfalso; exact Hb); auto;
                     intros X h u v st dt' u' h' r HI HX Hi Hx H; exact (Hb X h u v st dt u' h' r HI HX Hi Hx H))
               X h u v st dt u' h' r HI HX Hi Hx H).
    Qed.
  End Behave.
End Composite.
