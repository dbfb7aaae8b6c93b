(** Lemmas about DataArrayM.v and GetNp.get_numpy_array. *)
From Coq Require Import String List Bool Arith ZArith Lia.
From Verif Require Import Prelude PreludeFacts ArithM NdArray NdFacts Units DataArrayM
  Wildcard GetNp.
Import ListNotations.
Open Scope string_scope.
Open Scope nat_scope.
Open Scope list_scope.

(** ** Named lengths *)
Lemma keys_combine : forall {V} (ks : list string) (vs : list V),
  length ks = length vs -> keys (combine ks vs) = ks.
Proof.
  induction ks as [|k ks IH]; intros [|v vs] H; simpl in *; try discriminate; auto.
  f_equal. apply IH; lia.
Qed.

Lemma map_dget_combine : forall (ks : list string) (vs : list nat),
  length ks = length vs -> NoDup ks ->
  map (fun k => or1 (dget k (combine ks vs))) ks = vs.
Proof.
  induction ks as [|k ks IH]; intros [|v vs] Hl Hn; simpl in *; try discriminate; auto.
  inversion Hn as [|? ? Hk Hn']; subst. rewrite String.eqb_refl. simpl. f_equal.
  etransitivity; [|apply (IH vs); auto].
  apply map_ext_in. intros x Hx. destruct (String.eqb x k) eqn:E; auto.
  apply String.eqb_eq in E; subst; contradiction.
Qed.

Section Named.
  Context {T : Type}.
  Implicit Type a : da T.

  Lemma dim_len_some : forall a d, wf_da a -> (In d (dims a) <-> exists n, dim_len a d = Some n).
  Proof.
    intros a d (Hl & Hn & _). unfold dim_len. split.
    - intros H. apply In_keys_dget. rewrite keys_combine; auto.
    - intros (n & H). apply dget_In_keys in H. rewrite keys_combine in H; auto.
  Qed.

  Lemma dim_len_none : forall a d, wf_da a -> ~ In d (dims a) -> dim_len a d = None.
  Proof.
    intros a d Hw H. destruct (dim_len a d) eqn:E; auto.
    exfalso; apply H. apply dim_len_some; eauto.
  Qed.

  Lemma map_dim_len : forall a, wf_da a -> map (fun d => or1 (dim_len a d)) (dims a) = shape (arr a).
  Proof. intros a (Hl & Hn & _). apply map_dget_combine; auto. Qed.
End Named.

Lemma Forall2_map_lt : forall (f g : string -> nat) l,
  (forall x, In x l -> f x < g x) -> in_range (map f l) (map g l).
Proof.
  unfold in_range; induction l as [|x l IH]; simpl; intros H; constructor; auto.
Qed.

(** ** coord *)
Lemma coord_map : forall (c : string -> nat) ds d, In d ds -> coord ds (map c ds) d = c d.
Proof.
  induction ds as [|x ds IH]; simpl; intros d H; [contradiction|].
  destruct (String.eqb d x) eqn:E.
  - apply String.eqb_eq in E; subst; auto.
  - destruct H as [->|H]; [rewrite String.eqb_refl in E; discriminate|auto].
Qed.

Lemma map_coord_self : forall ds idx, NoDup ds -> length idx = length ds ->
  map (coord ds idx) ds = idx.
Proof.
  induction ds as [|x ds IH]; intros [|i idx] Hn Hl; simpl in *; try discriminate; auto.
  rewrite String.eqb_refl. f_equal. inversion Hn as [|? ? Hx Hn']; subst.
  etransitivity; [|apply (IH idx); auto]. apply map_ext_in. intros y Hy.
  destruct (String.eqb y x) eqn:E; auto. apply String.eqb_eq in E; subst; contradiction.
Qed.

(** ** last_index *)
Lemma last_index_some : forall l x n, last_index x l = Some n ->
  n < length l /\ forall d, nth n l d = x.
Proof.
  induction l as [|y l IH]; simpl; intros x n H; [discriminate|].
  destruct (last_index x l) as [m|] eqn:E.
  - injection H as <-. destruct (IH x m E). split; [lia|auto].
  - destruct (String.eqb x y) eqn:E2; [|discriminate]. injection H as <-.
    apply String.eqb_eq in E2; subst. split; [lia|auto].
Qed.

Lemma last_index_In : forall l x, In x l -> exists n, last_index x l = Some n.
Proof.
  induction l as [|y l IH]; simpl; intros x H; [contradiction|].
  destruct (last_index x l) eqn:E; eauto.
  destruct H as [->|H].
  - rewrite String.eqb_refl; eauto.
  - apply IH in H as (n & Hn); congruence.
Qed.

Lemma mapM_last_index_nth : forall {B} (g : string -> B) cur tgt axes dflt,
  mapM (fun d => match last_index d cur with Some i => Ok i | None => Err EValue end) tgt = Ok axes ->
  map (fun k => nth k (map g cur) dflt) axes = map g tgt.
Proof.
  induction tgt as [|d tgt IH]; simpl; intros axes dflt H.
  - injection H as <-; reflexivity.
  - destruct (last_index d cur) as [i|] eqn:E; [|discriminate]. simpl in H.
    apply bind_ok in H as (ys & Hys & H). injection H as <-. simpl. f_equal; auto.
    apply last_index_some in E as [Hlt Hn].
    rewrite nth_indep with (d' := g (nth i cur "")) by (rewrite map_length; auto).
    rewrite map_nth. rewrite Hn. reflexivity.
Qed.

Lemma mapM_last_index_succeeds : forall cur tgt, incl tgt cur ->
  exists axes, mapM (fun d => match last_index d cur with
                              | Some i => Ok i | None => Err EValue end) tgt = Ok axes.
Proof.
  induction tgt as [|x l IH]; simpl; intros Hi; [eauto|].
  destruct (last_index_In cur x) as (n & Hn); [apply Hi; left; auto|].
  rewrite Hn. simpl. destruct IH as (ys & Hys); [intros y Hy; apply Hi; right; auto|].
  rewrite Hys. simpl; eauto.
Qed.

Lemma last_index_covers : forall cur tgt axes i,
  mapM (fun d => match last_index d cur with
                 | Some i => Ok i | None => Err EValue end) tgt = Ok axes ->
  NoDup cur -> i < length cur -> In (nth i cur "") tgt -> In i axes.
Proof.
  intros cur tgt axes i Hax Hcnd Hi Hin. apply mapM_Forall2 in Hax.
  induction Hax as [|x y l l' Hxy Hax IH]; [contradiction|].
  destruct Hin as [->|Hin]; [left|right; auto].
  destruct (last_index (nth i cur "") cur) as [n|] eqn:E; [|discriminate].
  injection Hxy as <-. apply last_index_some in E as [Hlt Hn].
  eapply (proj1 (NoDup_nth cur "")); eauto.
Qed.

Lemma ravel_ones : forall m sh idx,
  ravel (repeat 1 m ++ sh) (repeat 0 m ++ idx) = ravel sh idx.
Proof. induction m; simpl; intros; auto. Qed.

Lemma prod_ones : forall m sh, prod (repeat 1 m ++ sh) = prod sh.
Proof. induction m as [|m IH]; simpl; intros sh; auto. rewrite prod_cons, IH. lia. Qed.

Lemma filter_nil : forall {B} (f : B -> bool) l, (forall x, In x l -> f x = false) -> filter f l = [].
Proof.
  induction l as [|x l IH]; simpl; intros H; auto.
  rewrite H by auto. apply IH; auto.
Qed.

Lemma skipn_len_map : forall {B C} (f : B -> C) l, skipn (length l) (map f l) = [].
Proof. induction l; simpl; auto. Qed.

Lemma map_const : forall {B C} (f : B -> C) v l, (forall x, In x l -> f x = v) ->
  map f l = repeat v (length l).
Proof. induction l as [|x l IH]; simpl; intros H; auto. rewrite H by auto. f_equal; auto. Qed.

Lemma NoDup_app_disj : forall {B} (l1 l2 : list B), NoDup l1 -> NoDup l2 ->
  (forall x, In x l1 -> ~ In x l2) -> NoDup (l1 ++ l2).
Proof.
  induction l1 as [|x l1 IH]; simpl; intros l2 H1 H2 Hd; auto.
  inversion H1; subst. constructor.
  - rewrite in_app_iff. intros [H|H]; auto. apply (Hd x); auto.
  - apply IH; auto.
Qed.

Section GNA.
  Context {T : Type} {A : Arith T} {R : Registry}.
  Implicit Type a : da T.

  Section One.
    Variables (a : da T) (od : list string) (dl : dict nat).
    Hypothesis Hwf : wf_da a.
    Hypothesis Hincl : incl (dims a) od.
    Hypothesis Hlen : forall d, In d (dims a) -> dget d dl = dim_len a d.

    Let sz (d : string) : nat := if mem d (dims a) then or1 (dim_len a d) else 1.
    Let missing := filter (fun d => negb (mem d (dims a))) od.
    Let cur := if negb (Nat.eqb (length missing) 0) then rev missing ++ dims a else dims a.

    Lemma missing_In : forall d, In d missing <-> In d od /\ ~ In d (dims a).
    Proof.
      intros d; unfold missing; rewrite filter_In, negb_true_iff, mem_false; tauto.
    Qed.

    Lemma cur_eq : cur = rev missing ++ dims a.
    Proof.
      unfold cur. destruct missing; reflexivity.
    Qed.

    Lemma cur_incl : forall d, In d cur <-> In d od.
    Proof.
      intros d. rewrite cur_eq, in_app_iff, <- in_rev, missing_In. split.
      - intros [[H _]|H]; auto.
      - intros H. destruct (In_dec_str d (dims a)); auto.
    Qed.

    Let gz (c : string -> nat) (d : string) : nat := if mem d (dims a) then c d else 0.

    Lemma values_shape :
      shape (mknd (repeat 1 (length missing) ++ shape (arr a)) (data (arr a))) = map sz cur.
    Proof.
      simpl. rewrite cur_eq, map_app. f_equal.
      - symmetry. rewrite (map_const sz 1).
        + rewrite rev_length; reflexivity.
        + intros x Hx. apply in_rev in Hx. apply missing_In in Hx as [_ Hx].
          unfold sz. apply mem_false in Hx. rewrite Hx; reflexivity.
      - rewrite <- (map_dim_len a Hwf). apply map_ext_in. intros x Hx.
        unfold sz. apply mem_In in Hx; rewrite Hx; reflexivity.
    Qed.

    Lemma values_at : forall c,
      at_ (mknd (repeat 1 (length missing) ++ shape (arr a)) (data (arr a))) (map (gz c) cur)
      = at_ (arr a) (map c (dims a)).
    Proof.
      intros c. unfold at_; simpl. rewrite cur_eq, map_app.
      rewrite (map_const (gz c) 0).
      - rewrite rev_length. rewrite ravel_ones. f_equal. f_equal.
        apply map_ext_in. intros x Hx. unfold gz. apply mem_In in Hx; rewrite Hx; reflexivity.
      - intros x Hx. apply in_rev in Hx. apply missing_In in Hx as [_ Hx].
        unfold gz. apply mem_false in Hx; rewrite Hx; reflexivity.
    Qed.

    Lemma values_wf : wf_nd (mknd (repeat 1 (length missing) ++ shape (arr a)) (data (arr a))).
    Proof.
      destruct Hwf as (_ & _ & Hw). unfold wf_nd in *; simpl. rewrite prod_ones; auto.
    Qed.

    Lemma dl_sz : forall d, In d (dims a) -> or1 (dget d dl) = sz d.
    Proof.
      intros d H. unfold sz. rewrite Hlen by auto. apply mem_In in H; rewrite H; reflexivity.
    Qed.

    (** Everything about the array returned by get_numpy_array. *)
    Lemma get_numpy_array_spec : forall r,
      get_numpy_array a od dl = Ok r ->
      wf_nd r /\ shape r = map (fun d => or1 (dget d dl)) od /\
      forall c, (forall d, In d od -> c d < or1 (dget d dl)) ->
        at_ r (map c od) = at_ (arr a) (map c (dims a)).
    Proof.
      intros r H. unfold get_numpy_array in H.
      destruct (Nat.eqb (length (shape (arr a))) 0 && Nat.eqb (length od) 0) eqn:E0.
      { apply andb_true_iff in E0 as [E1 E2]. apply Nat.eqb_eq in E1, E2.
        destruct od; [|discriminate]. destruct (shape (arr a)) eqn:Es; [|discriminate].
        injection H as <-. destruct Hwf as (Hl & Hn & Hw). rewrite Es in Hl.
        destruct (dims a); [|discriminate]. repeat split; auto. }
      destruct (list_eqb (dims a) od) eqn:E1.
      { apply list_eqb_eq in E1. injection H as <-. rewrite <- E1.
        destruct Hwf as (Hl & Hn & Hw). split; auto. split; auto.
        rewrite <- (map_dim_len a Hwf). apply map_ext_in. intros d Hd. rewrite Hlen; auto. }
      fold missing in H. cbv zeta in H.
      (* the reshaped values *)
      assert (Hv : (if negb (Nat.eqb (length missing) 0)
                    then reshape (arr a) (repeat 1 (length missing) ++ shape (arr a))
                    else Ok (arr a))
                   = Ok (mknd (repeat 1 (length missing) ++ shape (arr a)) (data (arr a)))).
      { destruct missing as [|m0 ms].
        - simpl. destruct (arr a); reflexivity.
        - simpl negb. cbv iota. apply reshape_succeeds. apply prod_ones. }
      rewrite Hv in H. simpl bind in H. clear Hv.
      fold cur in H.
      set (vals := mknd (repeat 1 (length missing) ++ shape (arr a)) (data (arr a))) in *.
      assert (Hext : filter (fun d => negb (mem d od)) cur = []).
      { apply filter_nil. intros x Hx. apply cur_incl in Hx. apply mem_In in Hx.
        rewrite Hx; reflexivity. }
      rewrite Hext, app_nil_r in H.
      apply bind_ok in H as (na & Hna & H).
      (* the transposed array *)
      assert (Hna' : wf_nd na /\ shape na = map sz od /\
              forall c, (forall d, In d (dims a) -> c d < sz d) ->
                at_ na (map (gz c) od) = at_ (arr a) (map c (dims a))).
      { destruct (list_eqb cur od) eqn:E2.
        - apply list_eqb_eq in E2. injection Hna as <-. rewrite <- E2.
          split; [apply values_wf|]. split; [apply values_shape|].
          intros c _. apply values_at.
        - apply bind_ok in Hna as (axes & Hax & Hna).
          pose proof (transpose_ok _ _ _ Hna) as (Hisax & Hsh & Hw).
          split; auto. split.
          + rewrite Hsh. unfold vals. rewrite values_shape. apply mapM_last_index_nth; auto.
          + intros c Hc. rewrite <- values_at.
            rewrite <- (mapM_last_index_nth (gz c) _ _ _ 0 Hax).
            apply (at_transpose _ _ _ _ Hna).
            unfold vals. rewrite values_shape.
            apply Forall2_map_lt. intros x Hx.
            unfold gz, sz. destruct (mem x (dims a)) eqn:Em; [|lia].
            apply mem_In in Em. specialize (Hc x Em). unfold sz in Hc.
            apply mem_In in Em. rewrite Em in Hc. exact Hc. }
      destruct Hna' as (Hwna & Hshna & Hatna).
      destruct (negb (Nat.eqb (length missing) 0)) eqn:Em.
      - rewrite Hshna, skipn_len_map, app_nil_r in H.
        set (osh := map (fun n => or1 (dget n dl)) od) in *.
        assert (Hc' : forall c, (forall d, In d od -> c d < or1 (dget d dl)) ->
                      forall d, In d (dims a) -> c d < sz d).
        { intros c Hc d Hd. rewrite <- dl_sz by auto. apply Hc, Hincl; auto. }
        destruct (nats_eqb osh (map sz od)) eqn:E3.
        + apply nats_eqb_eq in E3. injection H as <-. split; auto.
          split; [congruence|]. intros c Hc.
          rewrite <- Hatna by (apply Hc'; auto). f_equal.
          apply map_ext_in. intros d Hd. unfold gz. destruct (mem d (dims a)) eqn:Em2; auto.
          specialize (Hc d Hd).
          assert (Hd1 : or1 (dget d dl) = sz d).
          { unfold osh in E3. clear -E3 Hd. induction od as [|x l IH]; [contradiction|].
            simpl in E3. injection E3 as E3 E4. destruct Hd as [->|Hd]; auto. }
          unfold sz in Hd1. rewrite Em2 in Hd1. lia.
        + apply broadcast_to_ok in H as (Hb & Hsh & Hw & Hat).
          split; auto. split; auto. intros c Hc.
          rewrite Hat.
          * rewrite <- Hatna by (apply Hc'; auto). f_equal.
            rewrite Hshna. clear -Hc Hincl Hlen Hwf sz gz.
            assert (Hgen : forall l, incl l od ->
              bcast_idx (map sz l) (map c l) = map (gz c) l).
            { induction l as [|x l IH]; simpl; intros Hi; auto.
              f_equal; [|apply IH; intros y Hy; apply Hi; right; auto].
              assert (Hx : In x od) by (apply Hi; left; auto). specialize (Hc x Hx).
              unfold gz. destruct (mem x (dims a)) eqn:Em.
              - apply mem_In in Em. rewrite dl_sz in Hc by auto.
                destruct (Nat.eqb (sz x) 1) eqn:E1; auto.
                apply Nat.eqb_eq in E1. lia.
              - unfold sz. rewrite Em. reflexivity. }
            apply Hgen, incl_refl.
          * unfold osh. apply Forall2_map_lt; auto.
      - apply negb_false_iff, Nat.eqb_eq in Em.
        injection H as <-. split; auto.
        assert (Hall : forall d, In d od -> In d (dims a)).
        { intros d Hd. destruct (In_dec_str d (dims a)); auto. exfalso.
          assert (Hm : In d missing) by (apply missing_In; auto).
          destruct missing; [contradiction|discriminate]. }
        split.
        + rewrite Hshna. apply map_ext_in. intros d Hd. symmetry. apply dl_sz; auto.
        + intros c Hc. rewrite <- Hatna.
          * f_equal. apply map_ext_in. intros d Hd. unfold gz.
            apply Hall, mem_In in Hd. rewrite Hd; reflexivity.
          * intros d Hd. rewrite <- dl_sz by auto. apply Hc; auto.
    Qed.

    (** get_numpy_array succeeds when no output dim is repeated. *)
    Lemma get_numpy_array_succeeds : NoDup od -> exists r, get_numpy_array a od dl = Ok r.
    Proof.
      intros Hnd. unfold get_numpy_array.
      destruct (Nat.eqb (length (shape (arr a))) 0 && Nat.eqb (length od) 0); [eauto|].
      destruct (list_eqb (dims a) od); [eauto|].
      fold missing. cbv zeta.
      assert (Hv : (if negb (Nat.eqb (length missing) 0)
                    then reshape (arr a) (repeat 1 (length missing) ++ shape (arr a))
                    else Ok (arr a))
                   = Ok (mknd (repeat 1 (length missing) ++ shape (arr a)) (data (arr a)))).
      { destruct missing as [|m0 ms].
        - simpl. destruct (arr a); reflexivity.
        - simpl negb. cbv iota. apply reshape_succeeds. apply prod_ones. }
      rewrite Hv. simpl bind. clear Hv. fold cur.
      set (vals := mknd (repeat 1 (length missing) ++ shape (arr a)) (data (arr a))) in *.
      assert (Hext : filter (fun d => negb (mem d od)) cur = []).
      { apply filter_nil. intros x Hx. apply cur_incl in Hx. apply mem_In in Hx.
        rewrite Hx; reflexivity. }
      rewrite Hext, app_nil_r.
      assert (Hcnd : NoDup cur).
      { rewrite cur_eq. destruct Hwf as (_ & Hn & _).
        assert (Hm : NoDup (rev missing)).
        { apply NoDup_rev. unfold missing. apply NoDup_filter; auto. }
        assert (Hd : forall x, In x (rev missing) -> ~ In x (dims a)).
        { intros x Hx. apply in_rev in Hx. apply missing_In in Hx as [_ Hx]; auto. }
        apply NoDup_app_disj; auto. }
      assert (Hlenc : length cur = length od).
      { assert (Hi1 : incl cur od) by (intros x Hx; apply cur_incl; auto).
        assert (Hi2 : incl od cur) by (intros x Hx; apply cur_incl; auto).
        apply Nat.le_antisymm; apply NoDup_incl_length; auto. }
      assert (Hna : exists na,
        (if list_eqb cur od then Ok vals
         else let* axes := mapM (fun d => match last_index d cur with
                                          | Some i => Ok i | None => Err EValue end) od in
              transpose vals axes) = Ok na /\ shape na = map sz od).
      { destruct (list_eqb cur od) eqn:E2.
        - apply list_eqb_eq in E2. exists vals; split; auto. unfold vals.
          rewrite values_shape, E2. reflexivity.
        - assert (Hax : exists axes, mapM (fun d => match last_index d cur with
                            | Some i => Ok i | None => Err EValue end) od = Ok axes).
          { assert (Hi : incl od cur) by (intros x Hx; apply cur_incl; auto).
            apply mapM_last_index_succeeds; auto. }
          destruct Hax as (axes & Hax). rewrite Hax. simpl bind.
          assert (Hisax : is_axes (length (shape vals)) axes = true).
          { unfold vals. rewrite values_shape, map_length.
            apply is_axes_spec. split.
            - rewrite (mapM_length _ _ _ Hax). auto.
            - intros i Hi.
              assert (Hin : In (nth i cur "") od) by (apply cur_incl, nth_In; auto).
              eapply last_index_covers; eauto. }
          exists (build (map (fun k => nth k (shape vals) 0) axes)
            (fun idx => at_ vals (map (fun i => nth (pos_nat i axes) idx 0)
                                   (seq 0 (length (shape vals)))))).
          split.
          + unfold transpose. rewrite Hisax. reflexivity.
          + rewrite shape_build. unfold vals. rewrite values_shape.
            apply mapM_last_index_nth; auto. }
      destruct Hna as (na & -> & Hsh). simpl bind.
      destruct (negb (Nat.eqb (length missing) 0)); [|eauto].
      rewrite Hsh, skipn_len_map, app_nil_r.
      destruct (nats_eqb _ _); [eauto|].
      unfold broadcast_to. rewrite Hsh.
      assert (Hb : bcast_ok (map sz od) (map (fun n => or1 (dget n dl)) od) = true).
      { clear -Hlen Hwf sz. induction od as [|x l IH]; simpl; auto.
        rewrite IH, andb_true_r. apply orb_true_iff.
        destruct (mem x (dims a)) eqn:E.
        - right. apply mem_In in E. rewrite dl_sz by auto. apply Nat.eqb_refl.
        - left. unfold sz. rewrite E. reflexivity. }
      rewrite Hb. eauto.
    Qed.
  End One.
End GNA.
