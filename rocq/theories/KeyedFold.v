(** Folds over a list of (key, value) pairs whose steps touch only their own key. *)
From Coq Require Import String List Bool Arith.
From Verif Require Import Prelude PreludeFacts Units GetNp SpecComposite.
Import ListNotations.
Open Scope string_scope.
Open Scope nat_scope.
Open Scope list_scope.

Section Keyed.
  Context {V W : Type}.
  Variable g : string -> option W -> V -> res W.

  Definition kstep (acc : dict W) (kv : string * V) : res (dict W) :=
    let* w := g (fst kv) (dget (fst kv) acc) (snd kv) in Ok (dset (fst kv) w acc).

  Definition kone (X : string) (o : option W) (v : V) : res (option W) :=
    let* w := g X o v in Ok (Some w).

  Lemma keyed_ok : forall l acc acc', foldM kstep l acc = Ok acc' ->
    forall X, foldM (kone X) (entries X l) (dget X acc) = Ok (dget X acc').
  Proof.
    induction l as [|[k v] l IH]; intros acc acc' H X; cbn [foldM] in H.
    - injection H as <-. reflexivity.
    - apply bind_ok in H as (acc1 & Hs & H). specialize (IH _ _ H X). unfold kstep in Hs. cbn [fst snd] in Hs.
      apply bind_ok in Hs as (w & Hw & Hs). injection Hs as <-.
      unfold entries. cbn [flat_map fst snd]. destruct (String.eqb X k) eqn:E.
      + apply String.eqb_eq in E; subst k. cbn [app foldM].
        replace (kone X (dget X acc) v) with (Ok (Some w)) by (unfold kone; rewrite Hw; reflexivity). cbn [bind].
        rewrite dget_dset_eq in IH. exact IH.
      + apply String.eqb_neq in E. cbn [app]. rewrite dget_dset_neq in IH by auto. exact IH.
  Qed.

  Lemma keyed_err : forall l acc e, foldM kstep l acc = Err e ->
    exists X, foldM (kone X) (entries X l) (dget X acc) = Err e.
  Proof.
    induction l as [|[k v] l IH]; intros acc e H; cbn [foldM] in H; [discriminate|].
    destruct (kstep acc (k, v)) as [acc1|e1] eqn:Hs.
    - cbn [bind] in H. destruct (IH _ _ H) as (X & HX). exists X.
      unfold kstep in Hs. cbn [fst snd] in Hs. apply bind_ok in Hs as (w & Hw & Hs). injection Hs as <-.
      unfold entries. cbn [flat_map fst snd]. destruct (String.eqb X k) eqn:E.
      + apply String.eqb_eq in E; subst k. cbn [app foldM].
        replace (kone X (dget X acc) v) with (Ok (Some w)) by (unfold kone; rewrite Hw; reflexivity). cbn [bind].
        rewrite dget_dset_eq in HX. exact HX.
      + apply String.eqb_neq in E. cbn [app]. rewrite dget_dset_neq in HX by auto. exact HX.
    - cbn [bind] in H. injection H as ->. exists k. unfold entries. cbn [flat_map fst snd].
      rewrite String.eqb_refl. cbn [app foldM]. unfold kstep in Hs. cbn [fst snd] in Hs.
      apply bind_err in Hs as [Hs|(w & _ & Hs)]; [|discriminate]. unfold kone. rewrite Hs. reflexivity.
  Qed.

  Lemma dset_keys_new : forall k (w : W) (d : dict W), keys (dset k w d) = if mem k (keys d) then keys d else keys d ++ [k].
  Proof.
    intros k w d. induction d as [|[k' w'] d IH]; [reflexivity|]. unfold keys, mem in *. cbn [dset map fst existsb].
    destruct (String.eqb k k') eqn:E; cbn [orb map fst]. { apply String.eqb_eq in E; subst; reflexivity. }
    rewrite IH. destruct (existsb (String.eqb k) (map fst d)); reflexivity.
  Qed.

  Lemma dedup_acc_ext : forall l s1 s2, (forall x, In x s1 <-> In x s2) -> dedup_acc s1 l = dedup_acc s2 l.
  Proof.
    induction l as [|x l IH]; intros s1 s2 H; cbn [dedup_acc]; auto.
    assert (E : mem x s1 = mem x s2).
    { destruct (mem x s1) eqn:E1, (mem x s2) eqn:E2; auto.
      - apply mem_In in E1. apply H in E1. apply mem_In in E1. congruence.
      - apply mem_In in E2. apply H in E2. apply mem_In in E2. congruence. }
    rewrite E. destruct (mem x s2); auto. f_equal. apply IH. intros y. simpl. rewrite H. tauto.
  Qed.

  Lemma keyed_keys : forall l acc acc', foldM kstep l acc = Ok acc' ->
    keys acc' = keys acc ++ dedup_acc (keys acc) (map fst l).
  Proof.
    induction l as [|[k v] l IH]; intros acc acc' H; cbn [foldM] in H.
    - injection H as <-. cbn. rewrite app_nil_r. reflexivity.
    - apply bind_ok in H as (acc1 & Hs & H). rewrite (IH _ _ H).
      unfold kstep in Hs. cbn [fst snd] in Hs. apply bind_ok in Hs as (w & Hw & Hs). injection Hs as <-.
      cbn [map fst dedup_acc]. rewrite dset_keys_new. destruct (mem k (keys acc)); auto.
      rewrite <- app_assoc. cbn [app]. f_equal. f_equal. apply dedup_acc_ext.
      intros x. rewrite in_app_iff. simpl. tauto.
  Qed.
End Keyed.
