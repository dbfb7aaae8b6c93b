(** Lemmas about memory (Heap.v). *)
From Coq Require Import String List Bool Arith ZArith QArith Qcanon Lia.
From Verif Require Import Prelude PreludeFacts ArithM NdArray NdFacts Units DataArrayM UnitsFacts SpecDa DaFacts
  Components Composite Steppers Heap SpecHeap LeapFacts.
Import ListNotations.
Open Scope string_scope.
Open Scope nat_scope.
Open Scope list_scope.

Section Facts.
  Context {T : Type} {A : Arith T} {R : Registry}.

  (** ** Cells *)

  Lemma length_set_cell : forall (h : heap T) c x, length (set_cell h c x) = length h.
  Proof. induction h as [|y h IH]; intros [|c] x; simpl; auto. Qed.

  Lemma cell_set_cell : forall (h : heap T) c x d,
    cell (set_cell h c x) d = if Nat.eqb d c then (if d <? length h then x else cell h d) else cell h d.
  Proof.
    unfold cell. induction h as [|y h IH]; intros c x d.
    - simpl. destruct (Nat.eqb d c); auto.
    - destruct c as [|c], d as [|d]; simpl; auto.
      rewrite IH. destruct (Nat.eqb d c); auto.
  Qed.

  Lemma length_store : forall cs (h : heap T) xs, length (store h cs xs) = length h.
  Proof.
    induction cs as [|c cs IH]; intros h [|x xs]; simpl; auto. rewrite IH, length_set_cell. auto.
  Qed.

  Lemma cell_store_other : forall cs (h : heap T) xs d, ~ In d cs -> cell (store h cs xs) d = cell h d.
  Proof.
    induction cs as [|c cs IH]; intros h [|x xs] d H; simpl; auto.
    rewrite IH by (intros K; apply H; right; auto). rewrite cell_set_cell.
    destruct (Nat.eqb_spec d c); auto. subst. exfalso; apply H; left; auto.
  Qed.

  Lemma store_cells : forall cs (h : heap T) xs, NoDup cs -> length cs = length xs ->
    (forall c, In c cs -> c < length h) -> map (cell (store h cs xs)) cs = xs.
  Proof.
    induction cs as [|c cs IH]; intros h [|x xs] Hn Hl Hi; simpl in *; try discriminate; auto.
    inversion Hn; subst. f_equal.
    - rewrite cell_store_other by auto. rewrite cell_set_cell, Nat.eqb_refl.
      assert (E : c <? length h = true) by (apply Nat.ltb_lt; auto). rewrite E. auto.
    - apply IH; auto. intros d Hd. rewrite length_set_cell. auto.
  Qed.

  Lemma cell_app : forall (h k : heap T) c, c < length h -> cell (h ++ k) c = cell h c.
  Proof. intros. unfold cell. apply app_nth1. auto. Qed.

  Lemma cell_new : forall (h k : heap T), map (cell (h ++ k)) (seq (length h) (length k)) = k.
  Proof.
    intros h k. apply nth_ext with (d := azero) (d' := azero).
    - rewrite map_length, seq_length. auto.
    - intros n Hn. rewrite map_length, seq_length in Hn.
      rewrite (nth_indep _ azero (cell (h ++ k) 0)) by (rewrite map_length, seq_length; auto).
      rewrite map_nth, seq_nth by auto. unfold cell. rewrite app_nth2 by lia. f_equal. lia.
  Qed.

  (** ** How memory changes *)

  Lemma grown_refl : forall (h : heap T), grown h h.
  Proof. intros h. exists []. rewrite app_nil_r. auto. Qed.

  Lemma grown_trans : forall (h1 h2 h3 : heap T), grown h1 h2 -> grown h2 h3 -> grown h1 h3.
  Proof. intros h1 h2 h3 (a & ->) (b & ->). exists (a ++ b). rewrite app_assoc. auto. Qed.

  Lemma grown_changed : forall X (h h' : heap T), grown h h' -> changed_in X h h'.
  Proof. intros X h h' (k & ->). split. rewrite app_length; lia. intros. apply cell_app; auto. Qed.

  Lemma changed_grown : forall (X : cells) (h h' : heap T), changed_in X h h' -> (forall c, c < length h -> ~ X c) -> grown h h'.
  Proof.
    intros X h h' (Hl & Hc) Hx. exists (skipn (length h) h'). unfold heap in *.
    assert (E : firstn (length h) h' = h).
    { apply nth_ext with (d := azero) (d' := azero).
      - rewrite firstn_length. lia.
      - intros n Hn. rewrite firstn_length in Hn. assert (Hn' : n < length h) by lia.
        pose proof (Hc n Hn' (Hx n Hn')) as E. unfold cell in E. rewrite <- E.
        rewrite <- (firstn_skipn (length h) h') at 2. rewrite app_nth1 by (rewrite firstn_length; lia). auto. }
    rewrite <- E at 1. symmetry. apply firstn_skipn.
  Qed.

  Lemma changed_refl : forall X (h : heap T), changed_in X h h.
  Proof. intros; split; auto. Qed.

  Lemma changed_trans : forall (X Y Z : cells) (h1 h2 h3 : heap T), changed_in X h1 h2 -> changed_in Y h2 h3 ->
    (forall c, c < length h1 -> X c \/ Y c -> Z c) -> changed_in Z h1 h3.
  Proof.
    intros X Y Z h1 h2 h3 (L1 & C1) (L2 & C2) HZ. split. lia.
    intros c Hc Hz. rewrite C2, C1; auto; try lia; intros K; apply Hz; apply HZ; auto.
  Qed.

  Lemma changed_weaken : forall (X Z : cells) (h h' : heap T), changed_in X h h' ->
    (forall c, c < length h -> X c -> Z c) -> changed_in Z h h'.
  Proof. intros X Z h h' (L & C) H. split; auto. Qed.

  Lemma changed_write : forall (h : heap T) a v, changed_in (fun c => In c (h_cells a)) h (write h a v).
  Proof. intros. unfold write. split. rewrite length_store; auto. intros. apply cell_store_other; auto. Qed.

  Lemma grown_length : forall (h h' : heap T), grown h h' -> length h <= length h'.
  Proof. intros h h' (k & ->). rewrite app_length. lia. Qed.

  (** ** Reading *)

  Lemma load_same : forall (X : cells) (h h' : heap T) a, changed_in X h h' -> exists_in h a ->
    (forall c, In c (h_cells a) -> ~ X c) -> load h' a = load h a.
  Proof.
    intros X h h' a (L & C) Hi Hx. unfold load. f_equal. f_equal. apply map_ext_in. intros c Hc. apply C; auto.
  Qed.

  Lemma load_grown : forall (h h' : heap T) a, grown h h' -> exists_in h a -> load h' a = load h a.
  Proof. intros h h' a H Hi. apply (load_same no_cells). apply grown_changed; auto. auto. intros c _ K; exact K. Qed.

  Lemma exists_mono : forall (h h' : heap T) a, length h <= length h' -> exists_in h a -> exists_in h' a.
  Proof. intros h h' a L H c Hc. specialize (H c Hc). lia. Qed.

  Lemma load_alloc : forall (h : heap T) v, load (fst (alloc h v)) (snd (alloc h v)) = v.
  Proof.
    intros h v. unfold alloc, load. cbn [fst snd h_dims h_shape h_cells h_attrs]. rewrite cell_new.
    destruct v as [ds [sh dt] at']; auto.
  Qed.

  Lemma load_write : forall (h : heap T) a v, NoDup (h_cells a) -> exists_in h a ->
    dims v = h_dims a -> shape (arr v) = h_shape a -> attrs v = h_attrs a -> length (data (arr v)) = length (h_cells a) ->
    load (write h a v) a = v.
  Proof.
    intros h a v Hn Hi Hd Hs Ha Hl. unfold load, write. rewrite store_cells; auto.
    rewrite <- Hd, <- Hs, <- Ha. destruct v as [ds [sh dt] at']; auto.
  Qed.

  Lemma dims_load : forall (h : heap T) a, dims (load h a) = h_dims a. Proof. auto. Qed.
  Lemma attrs_load : forall (h : heap T) a, attrs (load h a) = h_attrs a. Proof. auto. Qed.

  Lemma wf_load_any : forall (h h' : heap T) a, wf_da (load h a) -> wf_da (load h' a).
  Proof. intros h h' a (H1 & H2 & H3). repeat split; auto. unfold wf_nd in *. simpl in *. rewrite map_length in *. auto. Qed.

  (** ** Dictionaries of arrays *)

  Lemma keys_load_dict : forall (h : heap T) d, keys (load_dict h d) = keys d.
  Proof. intros. unfold keys, load_dict. rewrite map_map. auto. Qed.

  Lemma keys_load_state : forall (h : heap T) st, keys (load_state h st) = keys st.
  Proof. intros. unfold keys, load_state. rewrite map_map. auto. Qed.

  Lemma dget_load_dict : forall (h : heap T) k d, dget k (load_dict h d) = option_map (load h) (dget k d).
  Proof.
    induction d as [|[k' a] d IH]; simpl; auto. destruct (String.eqb k k'); auto.
  Qed.

  Lemma dget_load_state : forall (h : heap T) k d, dget k (load_state h d) = option_map (load_val h) (dget k d).
  Proof.
    induction d as [|[k' a] d IH]; simpl; auto. destruct (String.eqb k k'); auto.
  Qed.

  Lemma dmem_load_state : forall (h : heap T) k d, dmem k (load_state h d) = dmem k d.
  Proof. intros. unfold dmem. rewrite dget_load_state. destruct (dget k d); auto. Qed.

  Lemma dmem_load_dict : forall (h : heap T) k d, dmem k (load_dict h d) = dmem k d.
  Proof. intros. unfold dmem. rewrite dget_load_dict. destruct (dget k d); auto. Qed.

  Lemma load_dict_dset : forall (h : heap T) k a d, load_dict h (dset k a d) = dset k (load h a) (load_dict h d).
  Proof.
    induction d as [|[k' b] d IH]; simpl; auto. destruct (String.eqb k k') eqn:E; simpl; auto. f_equal. auto.
  Qed.

  Lemma load_state_dset : forall (h : heap T) k a d, load_state h (dset k a d) = dset k (load_val h a) (load_state h d).
  Proof.
    induction d as [|[k' b] d IH]; simpl; auto. destruct (String.eqb k k') eqn:E; simpl; auto. f_equal. auto.
  Qed.

  Lemma load_dict_dupdate : forall (h : heap T) d2 d1, load_dict h (dupdate d1 d2) = dupdate (load_dict h d1) (load_dict h d2).
  Proof.
    unfold dupdate. induction d2 as [|[k b] d2 IH]; intros d1; auto.
    change (load_dict h ((k, b) :: d2)) with ((k, load h b) :: load_dict h d2). cbn [fold_left fst snd].
    rewrite IH, load_dict_dset. auto.
  Qed.

  Lemma load_dict_eq : forall (h h' : heap T) d, (forall k a, In (k, a) d -> load h' a = load h a) ->
    load_dict h' d = load_dict h d.
  Proof. intros h h' d H. unfold load_dict. apply map_ext_in. intros [k a] Hin. cbn. f_equal. eauto. Qed.

  Lemma load_state_eq : forall (h h' : heap T) d, (forall k a, In (k, HDA a) d -> load h' a = load h a) ->
    load_state h' d = load_state h d.
  Proof.
    intros h h' d H. unfold load_state. apply map_ext_in. intros [k [a|t]] Hin; cbn; auto. do 2 f_equal. eauto.
  Qed.
End Facts.
