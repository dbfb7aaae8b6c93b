(** Proofs about repr() (C86). *)
From Coq Require Import String List Bool Arith Lia.
From Verif Require Import Prelude ReprM SpecRepr.
Import ListNotations.
Open Scope string_scope.
Open Scope nat_scope.
Open Scope list_scope.

Lemma nmem_In : forall i l, nmem i l = true <-> In i l.
Proof.
  intros i l. unfold nmem. rewrite existsb_exists. split.
  - intros (x & Hx & E). apply Nat.eqb_eq in E as ->. exact Hx.
  - intros H. exists i. split; [exact H|]. apply Nat.eqb_refl.
Qed.

Lemma nremove_head : forall i l, nremove i (i :: l) = l.
Proof. intros i l. simpl. rewrite Nat.eqb_refl. reflexivity. Qed.

Lemma join_separated : forall sep l, separated sep l (join sep l).
Proof.
  intros sep l. induction l as [|s l IH]; [constructor|]. destruct l as [|s' r]; [constructor|].
  change (join sep (s :: s' :: r)) with (s ++ sep ++ join sep (s' :: r))%string. constructor. exact IH.
Qed.

Lemma separated_fun : forall sep l t1, separated sep l t1 -> forall t2, separated sep l t2 -> t1 = t2.
Proof.
  intros sep l t1 H. induction H as [|s|s s' r t H IH]; intros t2 H2; inversion H2; subst; auto.
  f_equal. f_equal. apply IH. assumption.
Qed.

(** The failures that the objects of a heap hold. *)
Definition fails_with (h : rheap) (e : exn) : Prop := exists i n, nth_error h i = Some n /\ In (FFail e) (holds n).

Definition answered (h : rheap) (busy : list nat) (v : fval) (r : list nat * res string) : Prop :=
  (exists s, r = (busy, Ok s) /\ shows h busy v s) \/
  (exists busy' e, r = (busy', Err e) /\ (v = FFail e \/ fails_with h e)).

Lemma show_all_answered : forall h f busy vs,
  (forall v, In v vs -> answered h busy v (f busy v)) ->
  (exists ss, show_all f busy vs = (busy, Ok ss) /\ Forall2 (shows h busy) vs ss) \/
  (exists busy' e, show_all f busy vs = (busy', Err e) /\ (In (FFail e) vs \/ fails_with h e)).
Proof.
  intros h f busy vs. induction vs as [|v vs IH]; intros H.
  - left. exists []. split; [reflexivity|constructor].
  - simpl. destruct (H v (or_introl eq_refl)) as [(s & E & Hs)|(b' & e & E & He)]; rewrite E.
    + destruct IH as [(ss & E2 & Hss)|(b' & e & E2 & He)].
      * intros w Hw. apply H. right; exact Hw.
      * rewrite E2. left. exists (s :: ss). split; [reflexivity|constructor; assumption].
      * rewrite E2. right. exists b', e. split; [reflexivity|]. destruct He; [left; right; assumption|right; assumption].
    + right. exists b', e. split; [reflexivity|]. destruct He as [->|He]; [left; left; reflexivity|right; exact He].
Qed.

Lemma busy_bound : forall (h : rheap) busy i, NoDup busy -> (forall j, In j busy -> j < length h) ->
  i < length h -> ~ In i busy -> length busy < length h.
Proof.
  intros h busy i Hn Hin Hi Hni.
  assert (H : NoDup (i :: busy)) by (constructor; assumption).
  assert (Hincl : incl (i :: busy) (seq 0 (length h))).
  { intros x [<-|Hx]; apply in_seq; [lia|]. apply Hin in Hx. lia. }
  pose proof (NoDup_incl_length H Hincl) as Hl. rewrite seq_length in Hl. simpl in Hl. lia.
Qed.

Definition limit (h : rheap) (busy : list nat) (v : fval) : nat :=
  match v with FRef i => (length h - length busy) * (length h + 1) + i + 1 | _ => 0 end.

Lemma show_answered : forall h, well_made h -> forall depth busy v,
  NoDup busy -> (forall j, In j busy -> j < length h) ->
  (forall j, v = FRef j -> j < length h) -> limit h busy v <= depth ->
  answered h busy v (show depth h busy v).
Proof.
  intros h [Href Hord] depth. induction depth as [|n IH]; intros busy v Hnd Hin Hv Hd.
  - destruct v as [s|e|i]; simpl.
    + left. exists s. split; [reflexivity|constructor].
    + right. exists busy, e. auto.
    + exfalso. unfold limit in Hd. rewrite Nat.add_1_r in Hd. inversion Hd.
  - destruct v as [s|e|i]; simpl.
    + left. exists s. split; [reflexivity|constructor].
    + right. exists busy, e. auto.
    + specialize (Hv i eq_refl). destruct (nth_error h i) as [nd|] eqn:En.
      2:{ apply nth_error_None in En. lia. }
      unfold limit in Hd. destruct nd as [c fs|op sep cl items].
      * destruct (nmem i busy) eqn:Em.
        { apply nmem_In in Em. left. eexists. split; [reflexivity|]. eapply sh_again; eauto. }
        assert (Hni : ~ In i busy) by (intros Hx; apply nmem_In in Hx; congruence).
        pose proof (busy_bound h busy i Hnd Hin Hv Hni) as Hb.
        destruct (show_all_answered h (show n h) (i :: busy) (map snd fs)) as [(ss & E & Hss)|(b' & e & E & He)].
        { intros v Hvi. apply IH.
          - constructor; assumption.
          - intros j [<-|Hj]; auto.
          - intros j ->. eapply Href; eauto.
          - destruct v as [s|e|j]; simpl; try lia.
            assert (Hj : j < length h) by (eapply Href; eauto).
            assert (Hm : (length h - length busy) * (length h + 1)
                         = (length h - S (length busy)) * (length h + 1) + (length h + 1)).
            { replace (length h - length busy) with (S (length h - S (length busy))) by lia. simpl. lia. }
            lia. }
        { rewrite E. left. eexists. split; [rewrite nremove_head; reflexivity|].
          eapply sh_object; eauto. apply join_separated. }
        { rewrite E. right. exists b', e. split; [reflexivity|]. right.
          destruct He as [He|He]; [|exact He]. exists i, (Guarded c fs). auto. }
      * destruct (show_all_answered h (show n h) busy items) as [(ss & E & Hss)|(b' & e & E & He)].
        { intros v Hvi. apply IH; auto.
          - intros j ->. eapply Href; eauto.
          - destruct v as [s|e|j]; simpl; try lia.
            assert (Hj : j < i) by (eapply Hord; eauto). lia. }
        { rewrite E. left. eexists. split; [reflexivity|]. eapply sh_list; eauto. apply join_separated. }
        { rewrite E. right. exists b', e. split; [reflexivity|]. right.
          destruct He as [He|He]; [|exact He]. exists i, (Listing op sep cl items). auto. }
Qed.

(** ** C86 *)
Lemma limit_deep : forall h depth v, (forall j, v = FRef j -> j < length h) -> deep h depth -> limit h [] v <= depth.
Proof.
  intros h depth v Hv Hd. unfold deep in Hd. destruct v as [| |i]; simpl; try lia.
  specialize (Hv i eq_refl). rewrite Nat.sub_0_r. nia.
Qed.

(** repr() of any object in any heap ends, gives the text it should, and leaves no
    object marked. *)
Lemma repr_total : forall h depth i, well_made h -> printable h -> i < length h -> deep h depth ->
  exists s, show depth h [] (FRef i) = ([], Ok s) /\ shows h [] (FRef i) s.
Proof.
  intros h depth i Hw Hp Hi Hd.
  assert (Hv : forall j, FRef i = FRef j -> j < length h) by (intros j E; injection E as <-; exact Hi).
  destruct (show_answered h Hw depth [] (FRef i)) as [H|(b' & e & E & [He|(k & n & Hn & Hf)])].
  - constructor.
  - intros j [].
  - exact Hv.
  - apply limit_deep; assumption.
  - exact H.
  - discriminate.
  - exfalso. eapply Hp; eauto.
Qed.

(** The text is determined. *)
Lemma shows_fun : forall h path v s1, shows h path v s1 -> forall s2, shows h path v s2 -> s1 = s2.
Proof.
  intros h. fix F 4. intros path v s1 H1.
  destruct H1 as [path s|path i c fs Hn Hi|path i c fs ss text Hn Hi Hss Hj|path i op sep cl items ss text Hn Hss Hj]; intros s2 H2.
  - inversion H2; reflexivity.
  - inversion H2 as [|p' i' c' fs' Hn' Hi'|p' i' c' fs' ss' text' Hn' Hi' Hss' Hj'|p' i' op' sep' cl' it' ss' text' Hn' Hss' Hj']; subst;
      rewrite Hn in Hn'; try discriminate; [injection Hn' as <- <-; reflexivity|contradiction].
  - inversion H2 as [|p' i' c' fs' Hn' Hi'|p' i' c' fs' ss' text' Hn' Hi' Hss' Hj'|p' i' op' sep' cl' it' ss' text' Hn' Hss' Hj']; subst;
      rewrite Hn in Hn'; try discriminate; [contradiction|]. injection Hn' as <- <-.
    assert (E : ss = ss').
    { clear H2 Hn Hj Hj'. revert ss' Hss'. induction Hss as [|v s vs ss Hv Hss IH]; intros ss' Hss'; inversion Hss'; subst; [reflexivity|].
      f_equal; [eapply F; eassumption|apply IH; auto]. }
    subst ss'. rewrite (separated_fun _ _ _ Hj _ Hj'). reflexivity.
  - inversion H2 as [|p' i' c' fs' Hn' Hi'|p' i' c' fs' ss' text' Hn' Hi' Hss' Hj'|p' i' op' sep' cl' it' ss' text' Hn' Hss' Hj']; subst;
      rewrite Hn in Hn'; try discriminate. injection Hn' as <- <- <- <-.
    assert (E : ss = ss').
    { clear H2 Hn Hj Hj'. revert ss' Hss'. induction Hss as [|v s vs ss Hv Hss IH]; intros ss' Hss'; inversion Hss'; subst; [reflexivity|].
      f_equal; [eapply F; eassumption|apply IH; auto]. }
    subst ss'. rewrite (separated_fun _ _ _ Hj _ Hj'). reflexivity.
Qed.

(** Printing never fails by itself: an exception is one that printing some attribute
    raises. *)
Lemma repr_ends : forall h depth i, well_made h -> i < length h -> deep h depth ->
  (exists s, show depth h [] (FRef i) = ([], Ok s) /\ shows h [] (FRef i) s) \/
  (exists busy e k n, show depth h [] (FRef i) = (busy, Err e) /\ nth_error h k = Some n /\ In (FFail e) (holds n)).
Proof.
  intros h depth i Hw Hi Hd.
  assert (Hv : forall j, FRef i = FRef j -> j < length h) by (intros j E; injection E as <-; exact Hi).
  destruct (show_answered h Hw depth [] (FRef i)) as [H|(b' & e & E & [He|(k & n & Hn & Hf)])].
  - constructor.
  - intros j [].
  - exact Hv.
  - apply limit_deep; assumption.
  - left. exact H.
  - discriminate.
  - right. exists b', e, k, n. auto.
Qed.

(** Printing changes nothing that can be seen: in any sequence of prints every object
    is written as if it were the first. *)
Lemma repr_repeats : forall h depth is, well_made h -> printable h -> deep h depth ->
  (forall i, In i is -> i < length h) ->
  exists ss, prints depth h [] is = map Ok ss /\ Forall2 (fun i s => shows h [] (FRef i) s) is ss.
Proof.
  intros h depth is Hw Hp Hd. induction is as [|i is IH]; intros Hi.
  - exists []. split; [reflexivity|constructor].
  - destruct (repr_total h depth i Hw Hp (Hi i (or_introl eq_refl)) Hd) as (s & E & Hs).
    destruct IH as (ss & E2 & Hss); [intros j Hj; apply Hi; right; exact Hj|].
    exists (s :: ss). simpl. rewrite E, E2. split; [reflexivity|constructor; assumption].
Qed.
