(** Lemmas about NdArray.v. *)
From Coq Require Import List Bool Arith Lia.
From Verif Require Import Prelude PreludeFacts ArithM NdArray.
Import ListNotations.

Lemma prod_app : forall l1 l2, prod (l1 ++ l2) = prod l1 * prod l2.
Proof.
  unfold prod; induction l1 as [|n l1 IH]; intros l2; simpl; [lia|].
  rewrite IH. lia.
Qed.

Lemma prod_cons : forall n l, prod (n :: l) = n * prod l.
Proof. reflexivity. Qed.

Lemma prod_nil : prod [] = 1.
Proof. reflexivity. Qed.

Lemma Forall2_len : forall {A B} (R : A -> B -> Prop) l1 l2,
  Forall2 R l1 l2 -> length l1 = length l2.
Proof. induction 1; simpl; auto. Qed.

Lemma in_range_length : forall idx sh, in_range idx sh -> length idx = length sh.
Proof. intros idx sh H; eapply Forall2_len; eauto. Qed.

Lemma ravel_lt : forall sh idx, in_range idx sh -> ravel sh idx < prod sh.
Proof.
  unfold in_range; intros sh idx H; induction H as [|i n idx sh Hi H IH]; simpl.
  - rewrite prod_nil; lia.
  - rewrite prod_cons. nia.
Qed.

Lemma unravel_length : forall sh k, length (unravel sh k) = length sh.
Proof. induction sh; simpl; intros; auto. Qed.

Lemma unravel_range : forall sh k, k < prod sh -> in_range (unravel sh k) sh.
Proof.
  unfold in_range; induction sh as [|n sh IH]; simpl; intros k H; constructor.
  - rewrite prod_cons in H. apply Nat.div_lt_upper_bound; nia.
  - apply IH. rewrite prod_cons in H. apply Nat.mod_upper_bound. nia.
Qed.

Lemma ravel_unravel : forall sh k, k < prod sh -> ravel sh (unravel sh k) = k.
Proof.
  induction sh as [|n sh IH]; simpl; intros k H.
  - change (prod []) with 1 in H. lia.
  - rewrite prod_cons in H. assert (prod sh <> 0) by nia.
    rewrite IH by (apply Nat.mod_upper_bound; auto).
    rewrite Nat.mul_comm. symmetry. apply Nat.div_mod; auto.
Qed.

Lemma unravel_ravel : forall sh idx, in_range idx sh -> unravel sh (ravel sh idx) = idx.
Proof.
  unfold in_range; intros sh idx H; induction H as [|i n idx sh Hi H IH]; simpl; auto.
  pose proof (ravel_lt sh idx H) as Hlt.
  assert (prod sh <> 0) by lia.
  f_equal.
  - rewrite Nat.div_add_l by auto. rewrite Nat.div_small by auto. lia.
  - rewrite Nat.add_comm, Nat.mod_add by auto. rewrite Nat.mod_small by auto. auto.
Qed.

Lemma ravel_app : forall s1 i1 s2 i2, length i1 = length s1 ->
  ravel (s1 ++ s2) (i1 ++ i2) = ravel s1 i1 * prod s2 + ravel s2 i2.
Proof.
  induction s1 as [|n s1 IH]; intros [|i i1] s2 i2 H; simpl in *; try discriminate; auto.
  rewrite IH by lia. rewrite prod_app. lia.
Qed.

(** Flattening a block of axes keeps the row-major position. *)
Lemma ravel_flatten : forall s1 i1 sm im s2 i2,
  length i1 = length s1 -> length im = length sm ->
  ravel (s1 ++ [prod sm] ++ s2) (i1 ++ [ravel sm im] ++ i2)
  = ravel (s1 ++ sm ++ s2) (i1 ++ im ++ i2).
Proof.
  intros. rewrite !ravel_app by (simpl; auto).
  rewrite !prod_app. simpl. rewrite prod_cons, prod_nil. nia.
Qed.

Lemma prod_flatten : forall s1 sm s2,
  prod (s1 ++ [prod sm] ++ s2) = prod (s1 ++ sm ++ s2).
Proof. intros. rewrite !prod_app, prod_cons, prod_nil, Nat.mul_1_r. reflexivity. Qed.

Lemma in_range_app : forall i1 s1 i2 s2,
  in_range i1 s1 -> in_range i2 s2 -> in_range (i1 ++ i2) (s1 ++ s2).
Proof. unfold in_range; intros; apply Forall2_app; auto. Qed.

Section Facts.
  Context {T : Type} {A : Arith T}.
  Implicit Types (a b : nd T).

  Lemma shape_build : forall sh (f : list nat -> T), shape (build sh f) = sh.
  Proof. reflexivity. Qed.

  Lemma wf_build : forall sh (f : list nat -> T), wf_nd (build sh f).
  Proof. intros; unfold wf_nd, build; simpl. rewrite map_length, seq_length; reflexivity. Qed.

  Lemma at_build : forall sh (f : list nat -> T) idx,
    in_range idx sh -> at_ (build sh f) idx = f idx.
  Proof.
    intros sh f idx H. unfold at_, build; simpl.
    pose proof (ravel_lt _ _ H) as Hlt.
    rewrite nth_indep with (d' := f (unravel sh 0)) by (rewrite map_length, seq_length; auto).
    rewrite (map_nth (fun k => f (unravel sh k))).
    rewrite seq_nth by auto. simpl. rewrite unravel_ravel; auto.
  Qed.

  Lemma at_full : forall sh v idx, in_range idx sh -> at_ (full sh v) idx = v.
  Proof. intros; unfold full; rewrite at_build; auto. Qed.

  Lemma wf_nd_map : forall f a, wf_nd a -> wf_nd (nd_map f a).
  Proof. unfold wf_nd, nd_map; simpl; intros; rewrite map_length; auto. Qed.

  Lemma at_nd_map : forall f a idx, wf_nd a -> in_range idx (shape a) ->
    at_ (nd_map f a) idx = f (at_ a idx).
  Proof.
    unfold at_, nd_map, wf_nd; simpl; intros f a idx Hw Hr.
    pose proof (ravel_lt _ _ Hr) as Hlt.
    rewrite nth_indep with (d' := f azero) by (rewrite map_length; lia).
    apply map_nth.
  Qed.

  Lemma reshape_ok : forall a sh b, reshape a sh = Ok b ->
    prod sh = prod (shape a) /\ shape b = sh /\ data b = data a.
  Proof.
    unfold reshape; intros a sh b H. destruct (Nat.eqb _ _) eqn:E; [|discriminate].
    apply Nat.eqb_eq in E. injection H as <-; auto.
  Qed.

  Lemma reshape_succeeds : forall a sh, prod sh = prod (shape a) ->
    reshape a sh = Ok (mknd sh (data a)).
  Proof. unfold reshape; intros a sh H. rewrite (proj2 (Nat.eqb_eq _ _) H); reflexivity. Qed.

  Lemma wf_reshape : forall a sh b, wf_nd a -> reshape a sh = Ok b -> wf_nd b.
  Proof.
    intros a sh b Hw H. apply reshape_ok in H as (Hp & Hs & Hd).
    unfold wf_nd in *; rewrite Hd, Hs; lia.
  Qed.

  Lemma at_reshape : forall a sh b idx idx', reshape a sh = Ok b ->
    ravel sh idx = ravel (shape a) idx' -> at_ b idx = at_ a idx'.
  Proof.
    intros a sh b idx idx' H E. apply reshape_ok in H as (Hp & Hs & Hd).
    unfold at_. rewrite Hd, Hs, E. reflexivity.
  Qed.

  (** Arrays with equal shapes and equal elements are equal. *)
  Lemma nd_ext : forall a b, wf_nd a -> wf_nd b -> shape a = shape b ->
    (forall idx, in_range idx (shape a) -> at_ a idx = at_ b idx) -> a = b.
  Proof.
    intros [s1 d1] [s2 d2]; unfold wf_nd, at_; simpl; intros H1 H2 <- H.
    f_equal. apply nth_ext with (d := azero) (d' := azero); [lia|].
    intros k Hk. specialize (H (unravel s1 k)).
    rewrite ravel_unravel in H by lia. apply H. apply unravel_range; lia.
  Qed.

  (** ** Transposition *)
  Lemma pos_nat_nth : forall l i d, In i l -> pos_nat i l < length l /\ nth (pos_nat i l) l d = i.
  Proof.
    induction l as [|j l IH]; simpl; intros i d H; [contradiction|].
    destruct (Nat.eqb i j) eqn:E.
    - apply Nat.eqb_eq in E; subst; split; auto; lia.
    - destruct H as [->|H]; [rewrite Nat.eqb_refl in E; discriminate|].
      destruct (IH i d H); split; auto; lia.
  Qed.

  Lemma is_axes_spec : forall n axes, is_axes n axes = true <->
    length axes = n /\ (forall i, i < n -> In i axes).
  Proof.
    intros n axes; unfold is_axes. rewrite andb_true_iff, Nat.eqb_eq, forallb_forall.
    split; intros [H1 H2]; split; auto; intros i Hi.
    - specialize (H2 i). rewrite in_seq in H2.
      assert (H : 0 <= i < 0 + n) by lia. apply H2 in H.
      apply existsb_exists in H as (j & Hj & E). apply Nat.eqb_eq in E; subst; auto.
    - apply in_seq in Hi. apply existsb_exists. exists i; split; [apply H2; lia|apply Nat.eqb_refl].
  Qed.

  Lemma is_axes_NoDup : forall n axes, is_axes n axes = true ->
    NoDup axes /\ (forall i, In i axes -> i < n).
  Proof.
    intros n axes H. apply is_axes_spec in H as [Hl Hin].
    assert (Hinc : incl (seq 0 n) axes).
    { intros i Hi; apply in_seq in Hi; apply Hin; lia. }
    assert (Hnd : NoDup axes).
    { apply (NoDup_incl_NoDup (l := seq 0 n)); auto; [apply seq_NoDup|rewrite seq_length; lia]. }
    split; auto.
    assert (Hinc' : incl axes (seq 0 n)).
    { apply NoDup_length_incl; auto; [apply seq_NoDup|rewrite seq_length; lia]. }
    intros i Hi. apply Hinc' in Hi. apply in_seq in Hi; lia.
  Qed.

  Lemma transpose_ok : forall a axes b, transpose a axes = Ok b ->
    is_axes (length (shape a)) axes = true /\
    shape b = map (fun k => nth k (shape a) 0) axes /\ wf_nd b.
  Proof.
    unfold transpose; intros a axes b H. destruct (is_axes _ _) eqn:E; [|discriminate].
    injection H as <-. split; auto. split; auto. apply wf_build.
  Qed.

  (** Elements of a transposed array, indexed by coordinates of the original. *)
  Lemma at_transpose : forall a axes b idx, transpose a axes = Ok b ->
    in_range idx (shape a) ->
    at_ b (map (fun k => nth k idx 0) axes) = at_ a idx.
  Proof.
    unfold transpose; intros a axes b idx H Hr. destruct (is_axes _ _) eqn:E; [|discriminate].
    injection H as <-.
    pose proof (in_range_length _ _ Hr) as Hlen.
    destruct (is_axes_NoDup _ _ E) as [Hnd Hlt].
    apply is_axes_spec in E as [Hl Hin].
    rewrite at_build.
    - f_equal. apply nth_ext with (d := 0) (d' := 0).
      + rewrite map_length, seq_length; auto.
      + intros k Hk. rewrite map_length, seq_length in Hk.
        rewrite nth_indep with (d' := nth (pos_nat 0 axes) (map (fun k => nth k idx 0) axes) 0)
          by (rewrite map_length, seq_length; auto).
        rewrite (map_nth (fun i => nth (pos_nat i axes) (map (fun k => nth k idx 0) axes) 0)).
        rewrite seq_nth by auto. simpl.
        destruct (pos_nat_nth axes k 0 (Hin k Hk)) as [Hp Hn].
        rewrite nth_indep with (d' := nth 0 idx 0) by (rewrite map_length; auto).
        rewrite (map_nth (fun k => nth k idx 0)). rewrite Hn. reflexivity.
    - clear -Hr Hlt. unfold in_range in *.
      induction axes as [|x axes IH]; simpl; constructor.
      + clear IH. assert (Hx : x < length (shape a)) by (apply Hlt; left; auto). clear Hlt.
        revert x Hx. induction Hr as [|i n idx sh Hi Hr IH]; simpl; intros x Hx; [lia|].
        destruct x; auto. apply IH; lia.
      + apply IH. intros i Hi; apply Hlt; right; auto.
  Qed.

  (** ** Broadcasting *)
  Lemma bcast_ok_length : forall s d, bcast_ok s d = true -> length s = length d.
  Proof.
    induction s as [|n s IH]; intros [|m d] H; simpl in *; try discriminate; auto.
    apply andb_true_iff in H as [_ H]; f_equal; auto.
  Qed.

  Lemma broadcast_to_ok : forall a dst b, broadcast_to a dst = Ok b ->
    bcast_ok (shape a) dst = true /\ shape b = dst /\ wf_nd b /\
    forall idx, in_range idx dst -> at_ b idx = at_ a (bcast_idx (shape a) idx).
  Proof.
    unfold broadcast_to; intros a dst b H. destruct (bcast_ok _ _) eqn:E; [|discriminate].
    injection H as <-. repeat split; auto. apply wf_build.
    intros idx Hr; rewrite at_build; auto.
  Qed.

  Lemma bcast_idx_range : forall s d idx, bcast_ok s d = true ->
    in_range idx d -> in_range (bcast_idx s idx) s.
  Proof.
    unfold in_range; induction s as [|n s IH]; intros [|m d] idx E H;
      simpl in *; try discriminate; inversion H; subst; simpl; constructor.
    - apply andb_true_iff in E as [E _]. destruct (Nat.eqb n 1) eqn:E1; simpl in E.
      + apply Nat.eqb_eq in E1; lia.
      + apply Nat.eqb_eq in E; lia.
    - apply andb_true_iff in E as [_ E]. eapply IH; eauto.
  Qed.
End Facts.
