(** Lemmas about Wildcard.v. *)
From Coq Require Import String List Bool Arith ZArith Lia.
From Verif Require Import Prelude PreludeFacts ArithM NdArray NdFacts Units DataArrayM
  Wildcard GetNp GetNpFacts SpecArrays.
Import ListNotations.
Open Scope string_scope.
Open Scope nat_scope.
Open Scope list_scope.

(** ** dedup_acc *)
Lemma dedup_acc_ext : forall l s1 s2, (forall x, In x s1 <-> In x s2) ->
  dedup_acc s1 l = dedup_acc s2 l.
Proof.
  induction l as [|y l IH]; simpl; intros s1 s2 H; auto.
  assert (E : mem y s1 = mem y s2).
  { destruct (mem y s2) eqn:E2.
    - apply mem_In, H, mem_In; auto.
    - apply mem_false. apply mem_false in E2. rewrite H; auto. }
  rewrite E. destruct (mem y s2); auto. f_equal. apply IH.
  intros x; simpl; rewrite H; tauto.
Qed.

Lemma dedup_acc_app : forall l1 l2 s,
  dedup_acc s (l1 ++ l2) = dedup_acc s l1 ++ dedup_acc (s ++ dedup_acc s l1) l2.
Proof.
  induction l1 as [|x l1 IH]; simpl; intros l2 s.
  - rewrite app_nil_r; reflexivity.
  - destruct (mem x s); [apply IH|]. simpl. f_equal. rewrite IH. f_equal.
    apply dedup_acc_ext. intros y; simpl; rewrite !in_app_iff; simpl. tauto.
Qed.

Lemma dedup_acc_filter : forall l s, NoDup l ->
  filter (fun d => negb (mem d s)) l = dedup_acc s l.
Proof.
  assert (G : forall l s s', NoDup l -> (forall x, In x l -> (In x s <-> In x s')) ->
     filter (fun d => negb (mem d s)) l = dedup_acc s' l).
  { induction l as [|x l IH]; simpl; intros s s' Hn H; auto.
    inversion Hn; subst.
    assert (E : mem x s = mem x s').
    { destruct (mem x s') eqn:E2.
      - apply mem_In, H; [left; auto|apply mem_In; auto].
      - apply mem_false. apply mem_false in E2. rewrite H; auto. }
    rewrite E. destruct (mem x s'); simpl.
    - apply IH; auto.
    - f_equal. apply IH; auto. intros y Hy. rewrite H by auto. simpl.
      split; auto. intros [->|]; auto; contradiction. }
  intros l s Hn; apply G; auto; tauto.
Qed.

(** ** The scan *)
Definition agrees (dl : dict nat) (l : list (string * nat)) : Prop :=
  forall d n, In (d, n) l -> dget d dl = Some n.

Lemma check_dims_ok : forall l dl dl', foldM check_dim_length l dl = Ok dl' ->
  (forall d n, dget d dl = Some n -> dget d dl' = Some n) /\
  agrees dl' l /\
  (forall d n, dget d dl' = Some n -> dget d dl = Some n \/ In (d, n) l).
Proof.
  unfold agrees; induction l as [|[d n] l IH]; simpl; intros dl dl' H.
  - injection H as <-. repeat split; auto; intros; contradiction.
  - apply bind_ok in H as (dl1 & H1 & H). apply IH in H as (He & Ha & Hb).
    unfold check_dim_length in H1; simpl in H1.
    destruct (dget d dl) as [m|] eqn:E.
    + destruct (Nat.eqb n m) eqn:En; [|discriminate]. injection H1 as <-.
      apply Nat.eqb_eq in En; subst m. repeat split; auto.
      * intros d' n' [E'|Hi]; auto. injection E' as <- <-; auto.
      * intros d' n' Hd. apply Hb in Hd as [Hd|Hd]; auto.
    + injection H1 as <-. repeat split.
      * intros d' n' Hd. apply He. rewrite dget_dset. destruct (String.eqb d' d) eqn:E'; auto.
        apply String.eqb_eq in E'; subst; congruence.
      * intros d' n' [E'|Hi]; auto. injection E' as <- <-. apply He. apply dget_dset_eq.
      * intros d' n' Hd. apply Hb in Hd as [Hd|Hd]; auto. rewrite dget_dset in Hd.
        destruct (String.eqb d' d) eqn:E'; auto. apply String.eqb_eq in E'; subst.
        injection Hd as ->; auto.
Qed.

Lemma check_dims_err : forall l dl e, foldM check_dim_length l dl = Err e ->
  e = EInvalidState /\
  exists d n m, In (d, n) l /\ n <> m /\ (dget d dl = Some m \/ In (d, m) l).
Proof.
  induction l as [|[d n] l IH]; simpl; intros dl e H; [discriminate|].
  apply bind_err in H as [H|(dl1 & H1 & H)].
  - unfold check_dim_length in H; simpl in H. destruct (dget d dl) as [m|] eqn:E; [|discriminate].
    destruct (Nat.eqb n m) eqn:En; [discriminate|]. injection H as <-.
    apply Nat.eqb_neq in En. split; auto. exists d, n, m; auto.
  - apply IH in H as (-> & d' & n' & m' & Hi & Hne & Hor). split; auto.
    destruct (check_dims_ok [(d, n)] dl dl1) as (_ & _ & Hb).
    { simpl. rewrite H1. reflexivity. }
    exists d', n', m'; repeat split; auto.
    destruct Hor as [Hd|Hd]; auto. apply Hb in Hd as [Hd|[Hd|[]]]; auto.
Qed.

Section Scan.
  Context {T : Type}.
  Implicit Types (st : state T).

  Lemma wildcard_scan_ok : forall st pd wn0 dl0 wn dl,
    wf_state st ->
    foldM (wildcard_step st) pd (wn0, dl0) = Ok (wn, dl) ->
    complete st pd /\ ~ unexpected_dim st pd /\
    wn = wn0 ++ dedup_acc wn0 (flat_map (undeclared st) pd) /\
    (forall d n, dget d dl0 = Some n -> dget d dl = Some n) /\
    (forall name p ds a d n, listed st pd name p ds a -> has_dim a d n -> dget d dl = Some n) /\
    (forall d n, dget d dl = Some n -> dget d dl0 = Some n \/
       exists name p ds a, listed st pd name p ds a /\ has_dim a d n).
  Proof.
    intros st; induction pd as [|[name p] pd IH]; intros wn0 dl0 wn dl Hwf H; simpl in H.
    - injection H as <- <-. split; [intros ? ? []|].
      split; [intros (? & ? & ? & ? & ? & ([] & _) & _)|].
      simpl. rewrite app_nil_r. repeat split; auto.
      intros ? ? ? ? ? ? ([] & _).
    - apply bind_ok in H as ((wn1 & dl1) & H1 & H).
      apply IH in H as (Hc & Hu & Hwn & Hext & Hl & Hb); auto.
      unfold wildcard_step in H1; simpl in H1.
      apply bind_ok in H1 as ((ds & u) & Hdu & H1).
      unfold dims_and_units in Hdu. destruct (p_dims p) as [ds'|] eqn:Hds; [|discriminate].
      destruct (p_units p) as [u'|] eqn:Hu'; [|discriminate].
      injection Hdu as -> ->.
      apply bind_ok in H1 as (v & Hv & H1). apply dgetE_ok in Hv.
      destruct v as [a|t]; [|discriminate].
      apply bind_ok in H1 as (dl2 & Hdl & H1).
      set (new := filter (fun d => negb (mem d ds)) (dims a)) in *.
      destruct (negb (Nat.eqb (length new) 0) && negb (mem "*" ds)) eqn:Eu; [discriminate|].
      injection H1 as <- <-.
      destruct (Hwf _ _ Hv) as [(Hwl & Hwn' & _) _].
      apply check_dims_ok in Hdl as (He & Ha & Hk).
      split; [|split; [|split; [|split; [|split]]]].
      + intros n q [E|Hi]; [injection E as <- <-; eauto 10|apply Hc; auto].
      + intros (n & q & ds' & b & d & (Hin & Hq & Hb') & Hd & Hnd & Hstar).
        destruct Hin as [E|Hin].
        * injection E as <- <-. rewrite Hv in Hb'. injection Hb' as <-.
          rewrite Hds in Hq; injection Hq as <-.
          apply mem_false in Hstar. rewrite Hstar, andb_true_r in Eu.
          apply negb_false_iff, Nat.eqb_eq in Eu.
          assert (Hin : In d new).
          { unfold new. apply filter_In. split; auto. apply negb_true_iff, mem_false; auto. }
          destruct new; [contradiction|discriminate].
        * apply Hu. exists n, q, ds', b, d. repeat split; auto.
      + rewrite Hwn.
        assert (Hund : undeclared st (name, p) = new).
        { unfold undeclared; simpl. rewrite Hds, Hv. reflexivity. }
        simpl. rewrite Hund, dedup_acc_app, <- app_assoc. f_equal.
        rewrite dedup_acc_filter by (unfold new; apply NoDup_filter; auto). reflexivity.
      + auto.
      + intros n q ds' b d m (Hin & Hq & Hb') Hd. destruct Hin as [E|Hin].
        * injection E as <- <-. rewrite Hv in Hb'; injection Hb' as <-. apply Hext, Ha, Hd.
        * eapply Hl; [split; [exact Hin|split; eauto]|exact Hd].
      + intros d n Hd. apply Hb in Hd as [Hd|(nm & q & ds' & b & (Hin & Hq & Hb') & Hd)].
        * apply Hk in Hd as [Hd|Hd]; auto. right. exists name, p, ds, a.
          repeat split; auto. left; auto.
        * right. exists nm, q, ds', b. repeat split; auto. right; auto.
  Qed.

  Lemma has_dim_fun : forall (a : da T) d n m, wf_da a -> has_dim a d n -> has_dim a d m -> n = m.
  Proof.
    intros a d n m (Hl & Hn & _) H1 H2. unfold has_dim in *.
    assert (K : NoDup (keys (combine (dims a) (shape (arr a))))) by (rewrite keys_combine; auto).
    apply (dget_NoDup_In _ _ _ K) in H1. apply (dget_NoDup_In _ _ _ K) in H2. congruence.
  Qed.

  Lemma has_dim_len : forall (a : da T) d n, wf_da a -> (has_dim a d n <-> dim_len a d = Some n).
  Proof.
    intros a d n (Hl & Hn & _). unfold has_dim, dim_len. split; intros H.
    - apply dget_NoDup_In; auto. rewrite keys_combine; auto.
    - apply dget_In; auto.
  Qed.

  Lemma has_dim_In : forall (a : da T) d n, has_dim a d n -> In d (dims a).
  Proof. intros a d n H. apply in_combine_l in H; auto. Qed.

  (** The scan of a complete dictionary fails only with InvalidStateError. *)
  Lemma wildcard_scan_err : forall st pd wn0 dl0 e,
    wf_state st -> complete st pd ->
    foldM (wildcard_step st) pd (wn0, dl0) = Err e ->
    e = EInvalidState /\
    (unexpected_dim st pd \/ length_conflict st pd \/
     exists name p ds a d n m, listed st pd name p ds a /\ has_dim a d n /\
        dget d dl0 = Some m /\ n <> m).
  Proof.
    intros st; induction pd as [|[name p] pd IH]; intros wn0 dl0 e Hwf Hc H; simpl in H;
      [discriminate|].
    destruct (Hc name p) as ((ds & Hds) & (u & Hu) & (a & Ha)); [left; auto|].
    unfold wildcard_step in H at 1; simpl in H. unfold dims_and_units in H.
    rewrite Hds, Hu in H; simpl in H. unfold dgetE in H at 1. rewrite Ha in H. simpl in H.
    destruct (Hwf _ _ Ha) as [Hwa _].
    assert (Hlist : listed st ((name, p) :: pd) name p ds a) by (repeat split; auto; left; auto).
    apply bind_err in H as [H|((wn1 & dl1) & H1 & H)].
    - apply bind_err in H as [H|(dl1 & H1 & H)].
      + apply check_dims_err in H as (-> & d & n & m & Hi & Hne & [Hd|Hd]); split; auto.
        * right; right. exists name, p, ds, a, d, n, m. auto.
        * exfalso. apply Hne. eapply has_dim_fun; eauto.
      + destruct (negb _ && negb _) eqn:E; [|discriminate]. injection H as <-. split; auto.
        left. apply andb_true_iff in E as [E1 E2]. apply negb_true_iff in E1, E2.
        apply mem_false in E2.
        destruct (filter (fun d => negb (mem d ds)) (dims a)) as [|d r] eqn:Ef; [discriminate|].
        assert (Hd : In d (dims a) /\ ~ In d ds).
        { assert (Hd : In d (filter (fun d => negb (mem d ds)) (dims a))) by (rewrite Ef; left; auto).
          apply filter_In in Hd as [Hd Hm]. split; auto. apply mem_false, negb_true_iff; auto. }
        exists name, p, ds, a, d. tauto.
    - apply bind_ok in H1 as (dl2 & Hdl & H1).
      destruct (negb _ && negb _); [discriminate|]. injection H1 as <- <-.
      apply IH in H; auto; [|intros n q Hi; apply Hc; right; auto].
      destruct H as (-> & [H|[H|H]]); split; auto.
      + left. destruct H as (n & q & ds' & b & d & (Hin & Hq) & Hd).
        exists n, q, ds', b, d. repeat split; try apply Hq; try apply Hd. right; auto.
      + right; left.
        destruct H as (n1 & p1 & ds1 & a1 & n2 & p2 & ds2 & a2 & d & l1 & l2 & (Hi1 & H1) & (Hi2 & H2) & H3).
        exists n1, p1, ds1, a1, n2, p2, ds2, a2, d, l1, l2.
        split; [split; [right; auto|auto]|]. split; [split; [right; auto|auto]|]. auto.
      + destruct H as (nm & q & ds' & b & d & n & m & (Hin & Hq & Hb) & Hd & Hm & Hne).
        apply check_dims_ok in Hdl as (He & Hag & Hk).
        apply Hk in Hm as [Hm|Hm].
        * right; right. exists nm, q, ds', b, d, n, m. repeat split; auto. right; auto.
        * right; left. exists nm, q, ds', b, name, p, ds, a, d, n, m.
          split; [repeat split; auto; right; auto|]. auto.
  Qed.

  Lemma no_wildcard_no_undeclared : forall st pd,
    ~ unexpected_dim st pd -> existsb (fun np => has_wildcard (snd np)) pd = false ->
    flat_map (undeclared st) pd = [].
  Proof.
    intros st; induction pd as [|[name p] pd IH]; simpl; intros Hu H; auto.
    apply orb_false_iff in H as [H1 H2]. rewrite IH; auto.
    - rewrite app_nil_r. unfold undeclared; simpl.
      destruct (p_dims p) as [ds|] eqn:Hds; auto.
      destruct (dget name st) as [[a|t]|] eqn:Ha; auto.
      unfold has_wildcard in H1. rewrite Hds in H1. apply mem_false in H1.
      apply filter_nil. intros d Hd. apply negb_false_iff, mem_In.
      destruct (In_dec_str d ds); auto. exfalso. apply Hu.
      exists name, p, ds, a, d. repeat split; auto. left; auto.
    - intros (n & q & ds' & b & d & (Hin & Hq) & Hd). apply Hu.
      exists n, q, ds', b, d. repeat split; try apply Hq; try apply Hd. right; auto.
  Qed.

  (** What get_wildcard_matches_and_dim_lengths guarantees. *)
  Definition scan_result (st : state T) (pd : pdict) (dl : dict nat) : Prop :=
    complete st pd /\ ~ unexpected_dim st pd /\
    common_lengths st pd (fun d => or1 (dget d dl)) /\
    (forall name p ds a d, listed st pd name p ds a -> In d (dims a) -> dget d dl = dim_len a d) /\
    (forall d n, dget d dl = Some n ->
       exists name p ds a, listed st pd name p ds a /\ has_dim a d n).

  Lemma wildcard_matches_spec : forall st pd wn dl,
    wf_state st ->
    get_wildcard_matches_and_dim_lengths st pd = Ok (wn, dl) ->
    scan_result st pd dl /\
    wn = (if existsb (fun np => has_wildcard (snd np)) pd
          then Some (wildcard_dims st pd) else None).
  Proof.
    intros st pd wn dl Hwf H. unfold get_wildcard_matches_and_dim_lengths in H.
    apply bind_ok in H as ((wn1 & dl1) & H1 & H).
    apply wildcard_scan_ok in H1 as (Hc & Hu & Hwn & _ & Hl & Hb); auto.
    simpl in Hwn. fold (dedup (flat_map (undeclared st) pd)) in Hwn.
    assert (Hdl : dl1 = dl) by (destruct (existsb _ pd); congruence). subst dl1.
    split; [|destruct (existsb _ pd); unfold wildcard_dims; congruence].
    split; auto. split; auto. split; [|split].
    - split.
      + intros name p ds a d n Hli Hd. rewrite (Hl _ _ _ _ _ _ Hli Hd); reflexivity.
      + intros d Hd. destruct (dget d dl) as [n|] eqn:E; auto.
        apply Hb in E as [E|(nm & p & ds & a & Hli & Hh)]; [discriminate|].
        exfalso. eapply Hd; eauto. eapply has_dim_In; eauto.
    - intros name p ds a d Hli Hd.
      assert (Hwa : wf_da a) by (eapply Hwf; apply Hli).
      apply (dim_len_some a d Hwa) in Hd as (n & Hn). rewrite Hn.
      eapply Hl; eauto. apply has_dim_len; auto.
    - intros d n Hd. apply Hb in Hd as [Hd|Hd]; [discriminate|auto].
  Qed.

  (** The scan of a complete, consistent dictionary succeeds. *)
  Lemma wildcard_matches_iff : forall st pd, wf_state st -> complete st pd ->
    (length_conflict st pd \/ unexpected_dim st pd ->
       get_wildcard_matches_and_dim_lengths st pd = Err EInvalidState) /\
    (~ length_conflict st pd -> ~ unexpected_dim st pd ->
       exists wn dl, get_wildcard_matches_and_dim_lengths st pd = Ok (wn, dl)).
  Proof.
    intros st pd Hwf Hc. unfold get_wildcard_matches_and_dim_lengths.
    destruct (foldM (wildcard_step st) pd ([], [])) as [[wn dl]|e] eqn:E; simpl.
    - pose proof E as E'. apply wildcard_scan_ok in E as (_ & Hu & _ & _ & Hl & _); auto.
      split.
      + intros [H|H]; [|contradiction]. exfalso.
        destruct H as (n1 & p1 & ds1 & a1 & n2 & p2 & ds2 & a2 & d & l1 & l2 & H1 & H2 & Hd1 & Hd2 & Hne).
        pose proof (Hl _ _ _ _ _ _ H1 Hd1). pose proof (Hl _ _ _ _ _ _ H2 Hd2). congruence.
      + destruct (existsb _ pd); eauto.
    - apply wildcard_scan_err in E as (-> & Hor); auto. split; auto.
      intros Hn1 Hn2. destruct Hor as [H|[H|H]]; try contradiction.
      destruct H as (? & ? & ? & ? & ? & ? & ? & _ & _ & H & _). discriminate.
  Qed.

  Lemma wildcard_err : forall st pd e, wf_state st -> complete st pd ->
    get_wildcard_matches_and_dim_lengths st pd = Err e -> e = EInvalidState.
  Proof.
    intros st pd e Hwf Hc H. unfold get_wildcard_matches_and_dim_lengths in H.
    destruct (foldM (wildcard_step st) pd ([], [])) as [[wn dl]|e'] eqn:E; simpl in H.
    - destruct (existsb _ pd); discriminate.
    - injection H as <-. apply wildcard_scan_err in E; tauto.
  Qed.
End Scan.
