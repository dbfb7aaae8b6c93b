(** Lemmas about Prelude.v. *)
From Coq Require Import String List Bool Arith Lia Permutation.
From Verif Require Import Prelude.
Import ListNotations.

(** ** Results *)
Lemma bind_ok : forall {A B} (x : res A) (f : A -> res B) b,
  bind x f = Ok b -> exists a, x = Ok a /\ f a = Ok b.
Proof. intros A B [a|e] f b H; simpl in H; [eauto | discriminate]. Qed.

Lemma bind_err : forall {A B} (x : res A) (f : A -> res B) e,
  bind x f = Err e -> x = Err e \/ exists a, x = Ok a /\ f a = Err e.
Proof. intros A B [a|e'] f e H; simpl in H; [right; eauto | left; congruence]. Qed.

Lemma foldM_app : forall {A S} (f : S -> A -> res S) l1 l2 s,
  foldM f (l1 ++ l2) s = bind (foldM f l1 s) (foldM f l2).
Proof.
  induction l1 as [|x l1 IH]; intros l2 s; simpl; [reflexivity|].
  destruct (f s x); simpl; auto.
Qed.

Lemma foldM_inv : forall {A S} (P : S -> Prop) (f : S -> A -> res S) l s s',
  (forall s x s', In x l -> P s -> f s x = Ok s' -> P s') ->
  P s -> foldM f l s = Ok s' -> P s'.
Proof.
  intros A S P f; induction l as [|x l IH]; intros s s' Hstep HP H; simpl in H.
  - congruence.
  - destruct (f s x) as [s1|e] eqn:E; [|discriminate]. simpl in H.
    eapply IH; [ | | exact H].
    + intros; eapply Hstep; eauto; right; auto.
    + eapply Hstep; eauto. left; reflexivity.
Qed.

Lemma mapM_length : forall {A B} (f : A -> res B) l l',
  mapM f l = Ok l' -> length l' = length l.
Proof.
  induction l as [|x l IH]; intros l' H; simpl in H.
  - injection H as <-; reflexivity.
  - apply bind_ok in H as (y & Hy & H). apply bind_ok in H as (ys & Hys & H).
    injection H as <-. simpl. f_equal; auto.
Qed.

Lemma mapM_Forall2 : forall {A B} (f : A -> res B) l l',
  mapM f l = Ok l' -> Forall2 (fun x y => f x = Ok y) l l'.
Proof.
  induction l as [|x l IH]; intros l' H; simpl in H.
  - injection H as <-; constructor.
  - apply bind_ok in H as (y & Hy & H). apply bind_ok in H as (ys & Hys & H).
    injection H as <-. constructor; auto.
Qed.

Lemma Forall2_mapM : forall {A B} (f : A -> res B) l l',
  Forall2 (fun x y => f x = Ok y) l l' -> mapM f l = Ok l'.
Proof.
  induction 1 as [|x y l l' Hx _ IH]; simpl; [reflexivity|].
  rewrite Hx, IH; reflexivity.
Qed.

(** ** Membership *)
Lemma mem_In : forall x l, mem x l = true <-> In x l.
Proof.
  intros x l; unfold mem; rewrite existsb_exists; split.
  - intros (y & Hy & E); apply String.eqb_eq in E; subst; auto.
  - intros H; exists x; split; auto; apply String.eqb_refl.
Qed.

Lemma mem_false : forall x l, mem x l = false <-> ~ In x l.
Proof.
  intros x l; rewrite <- mem_In; destruct (mem x l); split; congruence.
Qed.

Lemma mem_app : forall x l1 l2, mem x (l1 ++ l2) = mem x l1 || mem x l2.
Proof. intros; unfold mem; apply existsb_app. Qed.

Lemma In_dec_str : forall (x : string) l, {In x l} + {~ In x l}.
Proof. intros; apply in_dec, string_dec. Qed.

Lemma list_eqb_eq : forall l1 l2, list_eqb l1 l2 = true <-> l1 = l2.
Proof.
  induction l1 as [|x l1 IH]; intros [|y l2]; simpl; split; try congruence; auto.
  - rewrite andb_true_iff, String.eqb_eq, IH; intros [-> ->]; reflexivity.
  - intros H; injection H as -> ->. rewrite String.eqb_refl. simpl. apply IH; reflexivity.
Qed.

Lemma nats_eqb_eq : forall l1 l2, nats_eqb l1 l2 = true <-> l1 = l2.
Proof.
  induction l1 as [|x l1 IH]; intros [|y l2]; simpl; split; try congruence; auto.
  - rewrite andb_true_iff, Nat.eqb_eq, IH; intros [-> ->]; reflexivity.
  - intros H; injection H as -> ->. rewrite Nat.eqb_refl. simpl. apply IH; reflexivity.
Qed.

Lemma index_of_some : forall x l n,
  index_of x l = Some n ->
  exists pre post, l = pre ++ x :: post /\ length pre = n /\ ~ In x pre.
Proof.
  induction l as [|y l IH]; intros n H; simpl in H; [discriminate|].
  destruct (String.eqb x y) eqn:E.
  - apply String.eqb_eq in E; subst y. injection H as <-.
    exists [], l; repeat split; auto.
  - destruct (index_of x l) as [m|]; [|discriminate]. injection H as <-.
    destruct (IH m eq_refl) as (pre & post & -> & <- & Hn).
    exists (y :: pre), post; repeat split; auto.
    simpl; intros [->|H]; [rewrite String.eqb_refl in E; discriminate|auto].
Qed.

Lemma index_of_none : forall x l, index_of x l = None <-> ~ In x l.
Proof.
  induction l as [|y l IH]; simpl; split; auto; intros H.
  - destruct (String.eqb x y) eqn:E; [discriminate|].
    destruct (index_of x l); [discriminate|].
    intros [->|Hi]; [rewrite String.eqb_refl in E; discriminate|].
    apply IH in Hi; auto.
  - destruct (String.eqb x y) eqn:E.
    + apply String.eqb_eq in E; subst; exfalso; apply H; auto.
    + destruct (index_of x l) eqn:E2; auto. exfalso.
      assert (Hn : ~ In x l) by (intros Hi; apply H; auto).
      apply IH in Hn; discriminate.
Qed.

Lemma index_of_app_cons : forall x pre post,
  ~ In x pre -> index_of x (pre ++ x :: post) = Some (length pre).
Proof.
  induction pre as [|y pre IH]; intros post H; simpl.
  - rewrite String.eqb_refl; reflexivity.
  - destruct (String.eqb x y) eqn:E.
    + apply String.eqb_eq in E; subst; exfalso; apply H; left; auto.
    + rewrite IH; auto. intros Hi; apply H; right; auto.
Qed.

(** ** dedup *)
Lemma dedup_acc_In : forall l seen x,
  In x (dedup_acc seen l) <-> In x l /\ ~ In x seen.
Proof.
  induction l as [|y l IH]; intros seen x; simpl; [tauto|].
  destruct (mem y seen) eqn:E.
  - apply mem_In in E. rewrite IH. split; [tauto|].
    intros [[->|H] Hn]; [contradiction|auto].
  - apply mem_false in E. simpl. rewrite IH. split.
    + intros [->|[H Hn]]; [auto|]. split; auto. intros Hi; apply Hn; right; auto.
    + intros [[->|H] Hn]; [auto|].
      destruct (string_dec y x) as [->|Hd]; [auto|].
      right; split; auto. intros [->|Hi]; auto.
Qed.

Lemma dedup_acc_NoDup : forall l seen, NoDup (dedup_acc seen l).
Proof.
  induction l as [|y l IH]; intros seen; simpl; [constructor|].
  destruct (mem y seen); auto. constructor; auto.
  rewrite dedup_acc_In. intros [_ H]; apply H; left; auto.
Qed.

Lemma dedup_In : forall l x, In x (dedup l) <-> In x l.
Proof. intros; unfold dedup; rewrite dedup_acc_In; simpl; tauto. Qed.

Lemma dedup_NoDup : forall l, NoDup (dedup l).
Proof. intros; apply dedup_acc_NoDup. Qed.

(** ** Dictionaries *)
Section DictFacts.
  Context {V : Type}.
  Implicit Types (d : dict V) (k : string) (v : V).

  Lemma dget_In : forall k v d, dget k d = Some v -> In (k, v) d.
  Proof.
    induction d as [|[k' v'] d IH]; simpl; intros H; [discriminate|].
    destruct (String.eqb k k') eqn:E.
    - apply String.eqb_eq in E; injection H as ->; subst; auto.
    - right; auto.
  Qed.

  Lemma dget_In_keys : forall k v d, dget k d = Some v -> In k (keys d).
  Proof. intros k v d H; apply dget_In in H. apply (in_map fst) in H; auto. Qed.

  Lemma dget_none : forall k d, dget k d = None <-> ~ In k (keys d).
  Proof.
    induction d as [|[k' v'] d IH]; simpl; split; auto; intros H.
    - destruct (String.eqb k k') eqn:E; [discriminate|].
      intros [->|Hi]; [rewrite String.eqb_refl in E; discriminate|].
      apply IH in Hi; auto.
    - destruct (String.eqb k k') eqn:E.
      + apply String.eqb_eq in E; subst; exfalso; apply H; auto.
      + apply IH; intros Hi; apply H; auto.
  Qed.

  Lemma In_keys_dget : forall k d, In k (keys d) -> exists v, dget k d = Some v.
  Proof.
    intros k d H. destruct (dget k d) eqn:E; eauto.
    apply dget_none in E; contradiction.
  Qed.

  Lemma dget_NoDup_In : forall k v d, NoDup (keys d) -> In (k, v) d -> dget k d = Some v.
  Proof.
    induction d as [|[k' v'] d IH]; simpl; intros Hn Hi; [contradiction|].
    inversion Hn as [|? ? Hk Hn']; subst.
    destruct Hi as [E|Hi].
    - injection E as -> ->. rewrite String.eqb_refl; reflexivity.
    - destruct (String.eqb k k') eqn:E; auto.
      apply String.eqb_eq in E; subst. exfalso; apply Hk.
      apply (in_map fst) in Hi; auto.
  Qed.

  Lemma dmem_In : forall k d, dmem k d = true <-> In k (keys d).
  Proof.
    intros k d; unfold dmem. destruct (dget k d) eqn:E; split; intros H; auto.
    - eapply dget_In_keys; eauto.
    - discriminate.
    - apply dget_none in E; contradiction.
  Qed.

  Lemma dmem_false : forall k d, dmem k d = false <-> ~ In k (keys d).
  Proof. intros; rewrite <- dmem_In; destruct (dmem k d); split; congruence. Qed.

  Lemma dget_dset_eq : forall k v d, dget k (dset k v d) = Some v.
  Proof.
    induction d as [|[k' v'] d IH]; simpl.
    - rewrite String.eqb_refl; reflexivity.
    - destruct (String.eqb k k') eqn:E; simpl; rewrite E; auto.
  Qed.

  Lemma dget_dset_neq : forall k k' v d, k <> k' -> dget k (dset k' v d) = dget k d.
  Proof.
    induction d as [|[k2 v2] d IH]; simpl; intros H.
    - destruct (String.eqb k k') eqn:E; auto. apply String.eqb_eq in E; contradiction.
    - destruct (String.eqb k' k2) eqn:E; simpl.
      + apply String.eqb_eq in E; subst.
        destruct (String.eqb k k2) eqn:E; auto. apply String.eqb_eq in E; contradiction.
      + destruct (String.eqb k k2); auto.
  Qed.

  Lemma dget_dset : forall k k' v d,
    dget k (dset k' v d) = if String.eqb k k' then Some v else dget k d.
  Proof.
    intros. destruct (String.eqb k k') eqn:E.
    - apply String.eqb_eq in E; subst; apply dget_dset_eq.
    - apply String.eqb_neq in E; apply dget_dset_neq; auto.
  Qed.

  Lemma keys_dset : forall k v d,
    keys (dset k v d) = if dmem k d then keys d else keys d ++ [k].
  Proof.
    unfold dmem; induction d as [|[k' v'] d IH]; simpl; auto.
    destruct (String.eqb k k') eqn:E; simpl; auto.
    rewrite IH. destruct (dget k d); reflexivity.
  Qed.

  Lemma In_keys_dset : forall k k' v d, In k (keys (dset k' v d)) <-> k = k' \/ In k (keys d).
  Proof.
    intros. rewrite keys_dset. destruct (dmem k' d) eqn:E.
    - apply dmem_In in E. split; auto. intros [->|]; auto.
    - rewrite in_app_iff. simpl. split; intros [H|H]; auto. destruct H; auto; contradiction.
  Qed.

  Lemma NoDup_snoc : forall (l : list string) x, NoDup l -> ~ In x l -> NoDup (l ++ [x]).
  Proof.
    induction l as [|y l IH]; simpl; intros x Hn Hx.
    - constructor; auto.
    - inversion Hn; subst. constructor.
      + rewrite in_app_iff; simpl. intros [H|[->|[]]]; auto.
      + apply IH; auto.
  Qed.

  Lemma NoDup_dset : forall k v d, NoDup (keys d) -> NoDup (keys (dset k v d)).
  Proof.
    intros k v d H. rewrite keys_dset. destruct (dmem k d) eqn:E; auto.
    apply dmem_false in E. apply NoDup_snoc; auto.
  Qed.

  Lemma keys_ddel : forall k d, keys (ddel k d) = filter (fun x => negb (String.eqb k x)) (keys d).
  Proof.
    induction d as [|[k' v'] d IH]; simpl; auto.
    destruct (String.eqb k k'); simpl; rewrite IH; reflexivity.
  Qed.

  Lemma dget_ddel : forall k k' d,
    dget k (ddel k' d) = if String.eqb k k' then None else dget k d.
  Proof.
    induction d as [|[k2 v2] d IH]; simpl.
    - destruct (String.eqb k k'); reflexivity.
    - destruct (String.eqb k' k2) eqn:E.
      + rewrite IH. apply String.eqb_eq in E; subst k2.
        destruct (String.eqb k k'); reflexivity.
      + simpl. rewrite IH. destruct (String.eqb k k2) eqn:E2; auto.
        apply String.eqb_eq in E2; subst k2. rewrite String.eqb_sym in E. rewrite E. reflexivity.
  Qed.

  Lemma NoDup_ddel : forall k d, NoDup (keys d) -> NoDup (keys (ddel k d)).
  Proof. intros. rewrite keys_ddel. apply NoDup_filter; auto. Qed.

  Lemma dget_app : forall k d1 d2,
    dget k (d1 ++ d2) = match dget k d1 with Some v => Some v | None => dget k d2 end.
  Proof.
    induction d1 as [|[k' v'] d1 IH]; simpl; intros; auto.
    destruct (String.eqb k k'); auto.
  Qed.

  Lemma dget_dupdate : forall k e d, NoDup (keys e) ->
    dget k (dupdate d e) = match dget k e with Some v => Some v | None => dget k d end.
  Proof.
    unfold dupdate; induction e as [|[k' v'] e IH]; simpl; intros d Hn; auto.
    inversion Hn as [|? ? Hk Hn']; subst. rewrite IH; auto.
    rewrite dget_dset. destruct (String.eqb k k') eqn:E; auto.
    apply String.eqb_eq in E; subst.
    destruct (dget k' e) eqn:E2; auto.
    apply dget_In_keys in E2; contradiction.
  Qed.

  Lemma In_keys_dupdate : forall k e d, In k (keys (dupdate d e)) <-> In k (keys d) \/ In k (keys e).
  Proof.
    unfold dupdate; induction e as [|[k' v'] e IH]; simpl; intros d; [tauto|].
    rewrite IH, In_keys_dset. simpl. intuition congruence.
  Qed.

  Lemma NoDup_dupdate : forall e d, NoDup (keys d) -> NoDup (keys (dupdate d e)).
  Proof.
    unfold dupdate; induction e as [|[k' v'] e IH]; simpl; intros d H; auto.
    apply IH, NoDup_dset; auto.
  Qed.

  Lemma dset_same : forall k v d, dget k d = Some v -> dset k v d = d.
  Proof.
    induction d as [|[k' v'] d IH]; simpl; intros H; [discriminate|].
    destruct (String.eqb k k') eqn:E.
    - injection H as ->; reflexivity.
    - rewrite IH; auto.
  Qed.

  Lemma dset_absent : forall k v d, ~ In k (keys d) -> dset k v d = d ++ [(k, v)].
  Proof.
    induction d as [|[k' v'] d IH]; simpl; intros H; auto.
    destruct (String.eqb k k') eqn:E.
    - apply String.eqb_eq in E; subst; exfalso; apply H; auto.
    - rewrite IH; auto.
  Qed.

  Lemma dgetE_ok : forall k d v, dgetE k d = Ok v <-> dget k d = Some v.
  Proof. intros; unfold dgetE; destruct (dget k d); split; congruence. Qed.
End DictFacts.

Lemma keys_map_snd : forall {V W} (f : V -> W) (d : dict V),
  keys (map (fun kv => (fst kv, f (snd kv))) d) = keys d.
Proof. intros; unfold keys; rewrite map_map; reflexivity. Qed.

Lemma dget_map_snd : forall {V W} (f : V -> W) (d : dict V) k,
  dget k (map (fun kv => (fst kv, f (snd kv))) d) = option_map f (dget k d).
Proof.
  induction d as [|[k' v'] d IH]; simpl; intros k; auto.
  destruct (String.eqb k k'); auto.
Qed.

(** Rewrite the first [foldM] of the goal (of hypothesis [K]) with [H], up to conversion of types. *)
Ltac rew_fold H :=
  match type of H with
  | ?l = ?r => match goal with
               | |- context [foldM ?f ?lst ?x] => replace (foldM f lst x) with r by (symmetry; exact H)
               end
  end.
Ltac rew_fold_in H K :=
  match type of H with
  | ?l = ?r => match type of K with
               | context [foldM ?f ?lst ?x] => replace (foldM f lst x) with r in K by (symmetry; exact H)
               end
  end.
