(** Lemmas about DataArray operations (DataArrayM.v). *)
From Coq Require Import String List Bool Arith ZArith QArith Qcanon Lia.
From Verif Require Import Prelude PreludeFacts ArithM NdArray NdFacts Units DataArrayM GetNpFacts SpecUnits SpecDa UnitsFacts.
Import ListNotations.
Open Scope string_scope.
Open Scope nat_scope.
Open Scope list_scope.

Lemma dget_combine_some : forall {V} (ds : list string) (l : list V) d, length ds = length l ->
  (In d ds <-> exists v, dget d (combine ds l) = Some v).
Proof.
  intros V ds; induction ds as [|x ds IH]; intros [|v l] d Hl; simpl in *; try discriminate.
  - split; [tauto|intros (? & ?); discriminate].
  - destruct (String.eqb d x) eqn:E.
    + apply String.eqb_eq in E; subst. split; eauto.
    + apply String.eqb_neq in E. rewrite <- (IH l d) by lia. split; [intros [->|]; [congruence|auto]|auto].
Qed.

Lemma dget_combine_none : forall {V} (ds : list string) (l : list V) d, length ds = length l ->
  ~ In d ds -> dget d (combine ds l) = None.
Proof.
  intros V ds l d Hl Hn. destruct (dget d (combine ds l)) as [v|] eqn:E; auto.
  exfalso. apply Hn. apply (dget_combine_some ds l d Hl). eauto.
Qed.

Lemma dget_combine_map : forall {V} (f : string -> V) ds d, In d ds -> dget d (combine ds (map f ds)) = Some (f d).
Proof.
  intros V f ds; induction ds as [|x ds IH]; intros d Hd; [destruct Hd|]. simpl.
  destruct (String.eqb d x) eqn:E; [apply String.eqb_eq in E; subst; auto|].
  apply IH. destruct Hd as [->|Hd]; auto. rewrite String.eqb_refl in E; discriminate.
Qed.

Section Facts.
  Context {T : Type} {A : Arith T} {R : Registry}.

  Lemma dim_len_In : forall (a : da T) d, wf_da a -> (In d (dims a) <-> exists n, dim_len a d = Some n).
  Proof. intros a d (Hl & _). apply dget_combine_some; auto. Qed.

  Lemma dim_len_none : forall (a : da T) d, wf_da a -> (~ In d (dims a) <-> dim_len a d = None).
  Proof.
    intros a d Hw. rewrite (dim_len_In a d Hw). destruct (dim_len a d); split; intros H; try congruence.
    - exfalso; apply H; eauto.
    - intros (? & ?); discriminate.
  Qed.

  Lemma shape_dim_len : forall (a : da T), wf_da a -> shape (arr a) = map (fun d => or1 (dim_len a d)) (dims a).
  Proof.
    intros a (Hl & Hnd & _). unfold dim_len. revert Hl Hnd. generalize (shape (arr a)).
    induction (dims a) as [|x ds IH]; intros [|n l] Hl Hnd; simpl in *; try discriminate; auto.
    rewrite String.eqb_refl. inversion Hnd; subst. f_equal.
    rewrite (IH l) at 1 by (auto; lia). apply map_ext_in. intros d Hd.
    destruct (String.eqb d x) eqn:E; auto. apply String.eqb_eq in E; subst; contradiction.
  Qed.

  Lemma in_range_grid : forall (a : da T) c, wf_da a -> in_grid a c -> in_range (map c (dims a)) (shape (arr a)).
  Proof.
    intros a c Hw Hc. rewrite (shape_dim_len a Hw). unfold in_range.
    assert (H : forall d, In d (dims a) -> c d < or1 (dim_len a d)).
    { intros d Hd. apply (dim_len_In a d Hw) in Hd as (n & Hn). rewrite Hn. simpl. apply Hc; auto. }
    clear Hc. induction (dims a) as [|d ds IH]; simpl; constructor; auto.
    - apply H; left; auto.
    - apply IH. intros; apply H; right; auto.
  Qed.

  (** ** Elementwise maps *)

  Lemma dim_len_map : forall f at' (a : da T) d, dim_len (da_map f at' a) d = dim_len a d.
  Proof. reflexivity. Qed.

  Lemma wf_da_map : forall f at' (a : da T), wf_da a -> wf_da (da_map f at' a).
  Proof. intros f at' a (H1 & H2 & H3). repeat split; simpl; auto. apply wf_nd_map; auto. Qed.

  Lemma da_at_map : forall f at' (a : da T) c, wf_da a -> in_grid a c -> da_at (da_map f at' a) c = f (da_at a c).
  Proof.
    intros f at' a c Hw Hc. unfold da_at. simpl. apply at_nd_map; [apply Hw|]. apply in_range_grid; auto.
  Qed.

  (** ** Unit conversion *)

  Lemma to_units_ok : forall (a q : da T) s, to_units a s = Ok q ->
    exists own u1 u2, units_of a = Some own /\ parse own = Some u1 /\ parse s = Some u2 /\
      ((one_eqb u1 u2 = true /\ q = a) \/
       (one_eqb u1 u2 = false /\ u_dim u1 = u_dim u2 /\ q = da_map (uconv u1 u2) (dset "units" s (attrs a)) a)).
  Proof.
    intros a q s H. unfold to_units in H. unfold units_of.
    destruct (dget "units" (attrs a)) as [own|]; [|discriminate].
    apply bind_ok in H as (u1 & H1 & H). apply bind_ok in H as (u2 & H2 & H).
    unfold parseE in H1, H2. destruct (parse own) as [x|] eqn:Eo; [|discriminate]. injection H1 as ->.
    destruct (parse s) as [x|] eqn:Es; [|discriminate]. injection H2 as ->.
    exists own, u1, u2. repeat (split; auto).
    destruct (one_eqb u1 u2); simpl in H; [left; split; congruence|].
    right. split; auto. destruct (udim_eqb u1 u2) eqn:E; [|discriminate].
    apply udim_eqb_eq in E. split; congruence.
  Qed.

  Lemma to_units_wf : forall (a q : da T) s, to_units a s = Ok q -> wf_da a -> wf_da q.
  Proof.
    intros a q s H Hw. apply to_units_ok in H as (own & u1 & u2 & _ & _ & _ & [(_ & ->)|(_ & _ & ->)]); auto.
    apply wf_da_map; auto.
  Qed.

  Lemma to_units_dims : forall (a q : da T) s, to_units a s = Ok q -> dims q = dims a /\ shape (arr q) = shape (arr a).
  Proof. intros a q s H. apply to_units_ok in H as (own & u1 & u2 & _ & _ & _ & [(_ & ->)|(_ & _ & ->)]); auto. Qed.

  Lemma to_units_len : forall (a q : da T) s d, to_units a s = Ok q -> dim_len q d = dim_len a d.
  Proof. intros a q s d H. apply to_units_dims in H as [H1 H2]. unfold dim_len. rewrite H1, H2; auto. Qed.

  Lemma to_units_at : forall (a q : da T) s own c, to_units a s = Ok q -> wf_da a -> in_grid a c ->
    units_of a = Some own -> converted own s (da_at a c) (da_at q c).
  Proof.
    intros a q s own c H Hw Hc Ho. apply to_units_ok in H as (own' & u1 & u2 & Ho' & H1 & H2 & H).
    rewrite Ho in Ho'. injection Ho' as <-. exists u1, u2. repeat (split; auto).
    - destruct H as [(E & _)|(_ & E & _)]; auto. apply one_eqb_eq in E. tauto.
    - destruct H as [(E & ->)|(E & _ & ->)]; auto. right. split; auto. apply da_at_map; auto.
  Qed.

  Lemma to_units_succeeds : forall (a : da T) s own u1 u2, units_of a = Some own ->
    parse own = Some u1 -> parse s = Some u2 -> u_dim u1 = u_dim u2 -> exists q, to_units a s = Ok q.
  Proof.
    intros a s own u1 u2 Ho H1 H2 Hd. unfold to_units, parseE. unfold units_of in Ho. rewrite Ho, H1, H2. simpl.
    destruct (one_eqb u1 u2); simpl; eauto. rewrite (proj2 (udim_eqb_eq u1 u2) Hd). eauto.
  Qed.

  (** Converting to the units a quantity already has does nothing. *)
  Lemma to_units_own : forall (a : da T) s u, units_of a = Some s -> parse s = Some u -> to_units a s = Ok a.
  Proof.
    intros a s u Ho Hp. unfold to_units, parseE. unfold units_of in Ho. rewrite Ho, Hp. simpl.
    rewrite one_eqb_refl. reflexivity.
  Qed.

  (** ** Binary operations *)

  Lemma sizes_agree_iff : forall (a b : da T), wf_da a -> (sizes_agree a b = true <-> sizes_match a b).
  Proof.
    intros a b Hw. unfold sizes_agree, sizes_match. rewrite forallb_forall. split.
    - intros H d n m Ha Hb. assert (Hd : In d (dims a)) by (apply dim_len_In; eauto).
      specialize (H d Hd). rewrite Ha, Hb in H. apply Nat.eqb_eq in H; auto.
    - intros H d Hd. destruct (dim_len a d) as [n|] eqn:Ea; auto. destruct (dim_len b d) as [m|] eqn:Eb; auto.
      apply Nat.eqb_eq. eauto.
  Qed.

  Lemma NoDup_bin_dims : forall (a b : da T), wf_da a -> wf_da b -> NoDup (bin_dims a b).
  Proof.
    intros a b (_ & Ha & _) (_ & Hb & _). unfold bin_dims.
    assert (G : forall l1 l2 : list string, NoDup l1 -> NoDup l2 -> (forall x, In x l1 -> ~ In x l2) -> NoDup (l1 ++ l2)).
    { clear. induction l1 as [|x l1 IH]; simpl; intros l2 H1 H2 H; auto. inversion H1; subst. constructor.
      - rewrite in_app_iff. intros [Hx|Hx]; auto. eapply H; eauto.
      - apply IH; auto. }
    apply G; auto. { apply NoDup_filter; auto. }
    intros x Hx Hf. apply filter_In in Hf as [_ Hf]. apply negb_true_iff, mem_false in Hf. auto.
  Qed.

  Lemma In_bin_dims : forall (a b : da T) d, In d (bin_dims a b) <-> In d (dims a) \/ In d (dims b).
  Proof.
    intros a b d. unfold bin_dims. rewrite in_app_iff, filter_In, negb_true_iff, mem_false.
    destruct (In_dec_str d (dims a)); tauto.
  Qed.

  Lemma da_binop_ok : forall op at' (a b r : da T), da_binop op at' a b = Ok r -> wf_da a -> wf_da b ->
    wf_da r /\ attrs r = at' /\ dims r = bin_dims a b /\ sizes_match a b /\
    (forall d, dim_len r d = match dim_len a d with Some n => Some n | None => dim_len b d end) /\
    (forall c, in_grid r c -> in_grid a c /\ in_grid b c /\ da_at r c = op (da_at a c) (da_at b c)).
  Proof.
    intros op at' a b r H Ha Hb. unfold da_binop in H.
    destruct (sizes_agree a b) eqn:Es; [|discriminate]. injection H as <-.
    pose proof (proj1 (sizes_agree_iff a b Ha) Es) as Hm.
    pose proof (NoDup_bin_dims a b Ha Hb) as Hnd.
    set (r := mkda _ _ _).
    assert (Hw : wf_da r).
    { split; [|split]; simpl; auto. { rewrite map_length; auto. } apply wf_build. }
    assert (Hlen : forall d, dim_len r d = match dim_len a d with Some n => Some n | None => dim_len b d end).
    { intros d. unfold r. unfold dim_len at 1. simpl.
      destruct (In_dec_str d (bin_dims a b)) as [Hd|Hd].
      - rewrite dget_combine_map by auto. unfold bin_len. apply In_bin_dims in Hd.
        destruct (dim_len a d) as [n|] eqn:Ea; auto. destruct Hd as [Hd|Hd].
        + apply (dim_len_In a d Ha) in Hd as (n & Hn). congruence.
        + apply (dim_len_In b d Hb) in Hd as (n & Hn). rewrite Hn. reflexivity.
      - rewrite dget_combine_none; auto; [|rewrite map_length; auto].
        rewrite In_bin_dims in Hd.
        rewrite (proj1 (dim_len_none a d Ha)) by tauto. rewrite (proj1 (dim_len_none b d Hb)) by tauto. auto. }
    split; auto. split; auto. split; auto. split; auto. split; auto.
    intros c Hc. assert (Hga : in_grid a c). { intros d n Hd. apply Hc. rewrite Hlen, Hd; auto. }
    assert (Hgb : in_grid b c).
    { intros d m Hd. apply Hc. rewrite Hlen. destruct (dim_len a d) as [n|] eqn:Ea; auto.
      f_equal. eapply Hm; eauto. }
    split; auto. split; auto. unfold da_at at 1. unfold r. cbn [arr dims].
    rewrite at_build.
    - unfold da_at. f_equal; f_equal; apply map_ext_in; intros d Hd; apply coord_map; apply In_bin_dims; auto.
    - apply (in_range_grid r c Hw Hc).
  Qed.

  Lemma da_binop_succeeds : forall op at' (a b : da T), wf_da a -> sizes_match a b -> exists r, da_binop op at' a b = Ok r.
  Proof.
    intros op at' a b Ha Hm. unfold da_binop. rewrite (proj2 (sizes_agree_iff a b Ha) Hm). eauto.
  Qed.

  Lemma da_binop_fails : forall op at' (a b : da T), wf_da a -> ~ sizes_match a b -> da_binop op at' a b = Err EValue.
  Proof.
    intros op at' a b Ha Hm. unfold da_binop. destruct (sizes_agree a b) eqn:E; auto.
    exfalso. apply Hm, sizes_agree_iff; auto.
  Qed.

  (** Equal dims, lengths, attrs and values: equal DataArrays. *)
  Lemma da_ext : forall (a b : da T), wf_da a -> wf_da b -> dims a = dims b -> attrs a = attrs b ->
    (forall d, dim_len a d = dim_len b d) -> (forall c, in_grid a c -> da_at a c = da_at b c) -> a = b.
  Proof.
    intros a b Ha Hb Hd Hat Hlen Hv.
    assert (Hs : shape (arr a) = shape (arr b)).
    { rewrite (shape_dim_len a Ha), (shape_dim_len b Hb), Hd. apply map_ext. intros d; rewrite Hlen; auto. }
    destruct a as [da_ aa ata], b as [db ab atb]. simpl in *. subst. f_equal.
    apply nd_ext; auto; try apply Ha; try apply Hb.
    intros idx Hr. pose proof (in_range_length _ _ Hr) as Hl.
    assert (Hc : map (coord db idx) db = idx).
    { apply map_coord_self; [apply Hb|]. destruct Ha as (Hla & _). simpl in Hla. lia. }
    specialize (Hv (coord db idx)). unfold da_at in Hv. simpl in Hv. rewrite Hc in Hv. apply Hv.
    intros d n Hn. unfold dim_len in Hn. simpl in Hn.
    destruct Ha as (Hla & Hnda & _). simpl in Hla. clear - Hn Hr Hnda Hl Hla. revert idx Hr Hl Hnda Hla Hn.
    generalize (shape aa). induction db as [|x db IH]; intros l idx Hr Hl Hnda Hla Hn; simpl in *; [discriminate|].
    destruct l as [|m l]; simpl in *; [discriminate|]. inversion Hr; subst. simpl.
    destruct (String.eqb d x) eqn:E; [injection Hn as <-; auto|].
    inversion Hnda; subst. eapply IH; eauto; simpl in *; lia.
  Qed.
End Facts.
