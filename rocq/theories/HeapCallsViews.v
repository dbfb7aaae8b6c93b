(** A view only has elements of the array it views. *)
From Coq Require Import String List Bool Arith ZArith QArith Qcanon Lia.
From Verif Require Import Prelude PreludeFacts ArithM NdArray NdFacts Units DataArrayM Wildcard GetNp GetNpFacts Restore InitNp Tracers TracersFacts Composite Heap Components HeapCalls SpecComposite SpecHeap SpecHeapCalls HeapFacts HeapComposite HeapCallsFacts.
Import ListNotations.
Open Scope string_scope.
Open Scope nat_scope.
Open Scope list_scope.

Lemma In_build : forall {S} sh (f : list nat -> S) x, In x (data (build sh f)) -> exists idx, in_range idx sh /\ x = f idx.
Proof.
  intros S sh f x H. unfold build in H. cbn [data] in H. apply in_map_iff in H as (k & <- & Hk).
  apply in_seq in Hk. exists (unravel sh k). split; auto. apply unravel_range. lia.
Qed.

Section Views.
  Context {S : Type} {A : Arith S}.

  Lemma In_at : forall (a : nd S) idx, wf_nd a -> in_range idx (shape a) -> In (at_ a idx) (data a).
  Proof. intros a idx Hw Hr. unfold at_. apply nth_In. rewrite Hw. apply ravel_lt, Hr. Qed.

  Lemma reshape_In : forall (a b : nd S) sh, wf_nd a -> reshape a sh = Ok b -> wf_nd b /\ incl (data b) (data a).
  Proof.
    intros a b sh Hw H. split; [exact (wf_reshape _ _ _ Hw H)|]. apply reshape_ok in H as (_ & _ & ->). apply incl_refl.
  Qed.

  Lemma transpose_In : forall (a b : nd S) axes, wf_nd a -> transpose a axes = Ok b -> wf_nd b /\ incl (data b) (data a).
  Proof.
    intros a b axes Hw H. split. { apply transpose_ok in H. apply H. }
    unfold transpose in H. destruct (is_axes _ _) eqn:E; [|discriminate]. injection H as <-. intros x Hx.
    apply In_build in Hx as (idx & Hr & ->). apply In_at; auto.
    apply is_axes_spec in E as [Hl Hin].
    assert (G : forall i, i < length (shape a) -> nth (pos_nat i axes) idx 0 < nth i (shape a) 0).
    { intros i Hi. destruct (pos_nat_nth axes i 0 (Hin i Hi)) as [Hp Hn].
      assert (K : forall (l m : list nat) k, Forall2 lt l m -> k < length m -> nth k l 0 < nth k m 0).
      { clear. intros l m k H. revert k. induction H; intros [|k] Hk; cbn [length nth] in *; try lia. apply IHForall2. lia. }
      specialize (K _ _ (pos_nat i axes) Hr). rewrite map_length in K. specialize (K Hp).
      rewrite (nth_indep (map (fun k => nth k (shape a) 0) axes) 0 (nth 0 (shape a) 0)) in K by (rewrite map_length; auto).
      rewrite (map_nth (fun k => nth k (shape a) 0)) in K. rewrite Hn in K. exact K. }
    clear -G. unfold in_range.
    assert (K : forall s sh, (forall i, i < length sh -> nth (pos_nat (s + i) axes) idx 0 < nth i sh 0) ->
      Forall2 lt (map (fun i => nth (pos_nat i axes) idx 0) (seq s (length sh))) sh).
    { clear. intros s sh. revert s. induction sh as [|n sh IH]; intros s H; cbn [length seq map]; constructor.
      - specialize (H 0). rewrite Nat.add_0_r in H. apply H. cbn; lia.
      - apply IH. intros i Hi. specialize (H (Datatypes.S i)). rewrite Nat.add_succ_r in H. apply H. cbn; lia. }
    apply K. exact G.
  Qed.

  Lemma broadcast_In : forall (a b : nd S) dst, wf_nd a -> broadcast_to a dst = Ok b -> wf_nd b /\ incl (data b) (data a).
  Proof.
    intros a b dst Hw H. split. { apply broadcast_to_ok in H. apply H. }
    unfold broadcast_to in H. destruct (bcast_ok _ _) eqn:E; [|discriminate]. injection H as <-. intros x Hx.
    apply In_build in Hx as (idx & Hr & ->). apply In_at; auto. eapply bcast_idx_range; eauto.
  Qed.

  Lemma get_numpy_array_In : forall (a : da S) od dl b, wf_nd (arr a) -> get_numpy_array a od dl = Ok b ->
    wf_nd b /\ incl (data b) (data (arr a)).
  Proof.
    intros a od dl b Hw H. unfold get_numpy_array in H.
    destruct (Nat.eqb (length (shape (arr a))) 0 && Nat.eqb (length od) 0). { injection H as <-. split; auto using incl_refl. }
    destruct (list_eqb (dims a) od). { injection H as <-. split; auto using incl_refl. }
    set (missing := filter _ od) in *. set (hm := negb _) in *. cbv zeta in H.
    apply bind_ok in H as (v & Hv & H). apply bind_ok in H as (na & Hna & H).
    assert (G1 : wf_nd v /\ incl (data v) (data (arr a))).
    { destruct hm; [exact (reshape_In _ _ _ Hw Hv)|]. injection Hv as <-. split; auto using incl_refl. }
    destruct G1 as (W1 & I1).
    assert (G2 : wf_nd na /\ incl (data na) (data v)).
    { destruct (list_eqb _ _); [injection Hna as <-; split; auto using incl_refl|].
      apply bind_ok in Hna as (axes & _ & Hna). exact (transpose_In _ _ _ W1 Hna). }
    destruct G2 as (W2 & I2).
    assert (G3 : wf_nd b /\ incl (data b) (data na)).
    { destruct hm; [|injection H as <-; split; auto using incl_refl].
      destruct (nats_eqb _ _); [injection H as <-; split; auto using incl_refl|]. exact (broadcast_In _ _ _ W2 H). }
    destruct G3 as (W3 & I3). split; auto. eauto using incl_tran.
  Qed.

  Lemma get_slice_In : forall (a b : nd S) k i, wf_nd a -> get_slice a k i = Ok b -> wf_nd b /\ incl (data b) (data a).
  Proof.
    intros a b k i Hw H. unfold get_slice in H. destruct (nth_error (shape a) k) as [n|] eqn:E; [|discriminate].
    destruct (Nat.ltb i n) eqn:L; [|discriminate]. apply Nat.ltb_lt in L. injection H as <-. split; [apply wf_build|].
    intros x Hx. apply In_build in Hx as (idx & Hr & ->). apply In_at; auto.
    assert (Es : shape a = insert_at k n (remove_at k (shape a)) /\ k <= length (remove_at k (shape a))).
    { apply nth_error_split in E as (l1 & l2 & -> & <-). unfold remove_at, insert_at.
      assert (E1 : forall l : list nat, firstn (length l1) (l1 ++ l) = l1).
      { intros l. rewrite firstn_app, Nat.sub_diag, firstn_all. apply app_nil_r. }
      assert (E2 : forall l : list nat, skipn (length l1) (l1 ++ l) = l).
      { intros l. rewrite skipn_app, Nat.sub_diag, skipn_all. reflexivity. }
      replace (skipn (Datatypes.S (length l1)) (l1 ++ n :: l2)) with l2.
      2:{ rewrite skipn_app, skipn_all2 by lia. replace (Datatypes.S (length l1) - length l1) with 1 by lia. reflexivity. }
      rewrite !E1, E2, app_length. split; [reflexivity|lia]. }
    destruct Es as (Es & Hk). rewrite Es. apply in_range_insert; auto.
  Qed.

  Lemma flatten_In : forall (a b : nd S) i j, wf_nd a -> flatten_wildcard_dims a i j = Ok b -> wf_nd b /\ incl (data b) (data a).
  Proof.
    intros a b i j Hw H. unfold flatten_wildcard_dims in H. destruct (Nat.ltb _ _); [discriminate|]. destruct (Nat.ltb _ _); [discriminate|].
    destruct (Nat.eqb i j); exact (reshape_In _ _ _ Hw H).
  Qed.

  Lemma flatten_data : forall (a b : nd S) i j, flatten_wildcard_dims a i j = Ok b -> data b = data a.
  Proof.
    intros a b i j H. unfold flatten_wildcard_dims in H. destruct (Nat.ltb _ _); [discriminate|]. destruct (Nat.ltb _ _); [discriminate|].
    destruct (Nat.eqb i j); apply reshape_ok in H; apply H.
  Qed.

  (** What is restored has the elements of an array of [raw]. *)
  Lemma restore_In : forall (raw : dict (nd S)) outp st inp ig im out, restore_data_arrays_with_properties raw outp st inp ig im = Ok out ->
    NoDup (keys out) /\ forall k q, In (k, q) out -> exists rn ra, In (rn, ra) raw /\ data (arr q) = data ra.
  Proof.
    intros raw outp st inp ig im out H. unfold restore_data_arrays_with_properties in H.
    apply bind_ok in H as ([wn dl] & _ & H). apply bind_ok in H as (dd & _ & H). apply bind_ok in H as ([dl' o] & H & E).
    injection E as <-. revert H. set (ig' := if im then _ else _).
    pose (P := fun s : dict nat * dict (da S) => NoDup (keys (snd s)) /\
                 forall k q, In (k, q) (snd s) -> exists rn ra, In (rn, ra) raw /\ data (arr q) = data ra).
    change (foldM (restore_step raw outp inp wn ig') dd (dl, []) = Ok (dl', o) -> P (dl', o)).
    generalize (dl', o). intros s'. assert (P0 : P (dl, [])). { split; [constructor|intros k q []]. }
    revert P0. generalize (dl, @nil (string * da S)). induction dd as [|[name od] dd IH]; intros s P0 H; cbn [foldM] in H.
    { injection H as <-. exact P0. }
    apply bind_ok in H as (s1 & Hs & H). apply (IH s1); auto. clear IH H.
    unfold restore_step in Hs. destruct s as [dl0 out]. destruct (mem name ig'). { injection Hs as <-. exact P0. }
    apply bind_ok in Hs as (rn & _ & Hs). apply bind_ok in Hs as ([[dl1 ds] oa] & Hr & Hs).
    apply bind_ok in Hs as (p & _ & Hs). apply bind_ok in Hs as (u & _ & Hs). apply bind_ok in Hs as (q & Hq & Hs).
    injection Hs as <-. destruct P0 as (Hn & Hall). split; [apply NoDup_dset; auto|]. intros k q' Hin. cbn [snd] in *.
    apply In_dset_inv in Hin as [(-> & ->)|Hin]; [|apply (Hall _ _ Hin)].
    unfold create_quantity in Hq. destruct (Nat.eqb _ _); [|discriminate]. injection Hq as <-. cbn [arr].
    destruct (mem "*" od).
    - apply bind_ok in Hr as (ra & Hra & Hr). apply bind_ok in Hr as ([ds' tg] & _ & Hr). apply bind_ok in Hr as (oa' & Hoa & Hr).
      injection Hr as <- <- <-. exists rn, ra. split. { apply dgetE_ok in Hra. apply dget_In; auto. }
      unfold expand_array_wildcard_dims in Hoa. destruct (reshape ra tg) as [b|] eqn:Eb; [|discriminate]. injection Hoa as <-.
      apply reshape_ok in Eb. apply Eb.
    - apply bind_ok in Hr as (ra & Hra & Hr). apply bind_ok in Hr as (_ & _ & Hr). injection Hr as <- <- <-.
      exists rn, ra. split; auto. apply dgetE_ok in Hra. apply dget_In; auto.
  Qed.
End Views.
