(** Packing and unpacking tracers (C45) and the tracer registry (C46-C48). *)
From Coq Require Import String List Bool Arith ZArith Lia.
From Verif Require Import Prelude PreludeFacts ArithM NdArray NdFacts Units DataArrayM Wildcard WildcardFacts GetNp GetNpFacts Restore
  RestoreFacts SpecArrays ExtractFacts RoundTripFacts ArraysMain UnitsFacts InitNp InitFacts Tracers SpecTracers RestoreExtract.
Import ListNotations.
Open Scope string_scope.
Open Scope nat_scope.
Open Scope list_scope.

(** ** Order and units *)

Lemma tracer_names_order : forall g p, tracer_names g p = tracer_order g p.
Proof.
  intros g p. unfold tracer_names, tracer_order. set (pre := map fst (pk_prepend p)). generalize (tr_names g) as l.
  assert (G : forall l acc, fold_left (fun acc n => if mem n acc then acc else acc ++ [n]) l acc = acc ++ dedup_acc acc l).
  { induction l as [|x l IH]; intros acc; cbn [fold_left dedup_acc]. symmetry; apply app_nil_r.
    destruct (mem x acc) eqn:E; rewrite IH; auto. rewrite <- app_assoc. cbn [app]. do 2 f_equal.
    apply dedup_acc_ext. intros y. rewrite in_app_iff. cbn [In]. tauto. }
  intros l0. rewrite G. f_equal. clear.
  assert (H : forall l s, dedup_acc (pre ++ s) l = filter (fun n => negb (mem n pre)) (dedup_acc s l)).
  { induction l as [|x l IH]; intros s; auto. cbn [dedup_acc].
    destruct (mem x s) eqn:E.
    - assert (E' : mem x (pre ++ s) = true) by (apply mem_In, in_or_app; right; apply mem_In; auto). rewrite E'. apply IH.
    - cbn [filter]. destruct (mem x pre) eqn:Ep; cbn [negb].
      + assert (E' : mem x (pre ++ s) = true) by (apply mem_In, in_or_app; left; apply mem_In; auto). rewrite E'.
        rewrite <- IH. apply dedup_acc_ext. intros y. rewrite !in_app_iff. cbn [In]. split; [tauto|]. intros [K|[<-|K]]; auto. left; apply mem_In; auto.
      + assert (E' : mem x (pre ++ s) = false). { apply mem_false. rewrite in_app_iff. apply mem_false in E. apply mem_false in Ep. tauto. }
        rewrite E'. f_equal. rewrite <- IH. apply dedup_acc_ext. intros y. cbn [In]. rewrite !in_app_iff. cbn [In]. tauto. }
  rewrite <- (app_nil_r pre) at 1. rewrite H. reflexivity.
Qed.

Lemma tracer_order_In : forall g p n, In n (tracer_order g p) <-> In n (map fst (pk_prepend p)) \/ In n (tr_names g).
Proof.
  intros g p n. unfold tracer_order. rewrite in_app_iff, filter_In, dedup_In, negb_true_iff, mem_false.
  destruct (In_dec_str n (map fst (pk_prepend p))); tauto.
Qed.

Lemma main_tracer_order_once : forall g p, NoDup (map fst (pk_prepend p)) -> NoDup (tracer_order g p).
Proof.
  intros g p N. unfold tracer_order. apply NoDup_app_disj; auto. apply NoDup_filter, dedup_NoDup.
  intros x H1 H2. apply filter_In in H2 as (_ & H2). apply negb_true_iff, mem_false in H2. contradiction.
Qed.

(** dict(l): the last pair of a name counts *)
Lemma dget_app' : forall {V} (l1 l2 : dict V) k, dget k (l1 ++ l2) = match dget k l1 with Some v => Some v | None => dget k l2 end.
Proof. induction l1 as [|[x v] l1 IH]; intros l2 k; cbn; auto. destruct (String.eqb k x); auto. Qed.

Lemma dupdate_last : forall {V} (l acc : dict V) k, dget k (dupdate acc l) = match dget k (rev l) with Some v => Some v | None => dget k acc end.
Proof.
  intros V. unfold dupdate. induction l as [|[x v] l IH]; intros acc k; auto. cbn [fold_left fst snd rev]. rewrite IH, dget_app'.
  destruct (dget k (rev l)); auto. cbn [dget]. rewrite dget_dset. destruct (String.eqb k x); auto.
Qed.

Lemma remove_first_split : forall x l, In x l -> exists pre post, l = pre ++ x :: post /\ ~ In x pre /\ remove_first x l = pre ++ post.
Proof.
  induction l as [|y l IH]; intros H; [destruct H|]. cbn [remove_first]. destruct (String.eqb_spec x y) as [->|Hne].
  - exists [], l. auto.
  - destruct H as [->|H]; [contradiction|]. destruct (IH H) as (pre & post & -> & Hp & ->). exists (y :: pre), post.
    split; auto. split; auto. intros [K|K]; [congruence|auto].
Qed.

Lemma remove_first_absent : forall x l, ~ In x l -> remove_first x l = l.
Proof.
  induction l as [|y l IH]; intros H; auto. cbn [remove_first]. destruct (String.eqb_spec x y) as [->|Hne].
  - exfalso. apply H. left; auto.
  - f_equal. apply IH. intros K; apply H; right; auto.
Qed.

Lemma has_dims_facts : forall p qd, has_dims p qd ->
  quantity_dims p = qd /\ tracer_index p <= length qd /\ forall B (f : string -> B), map f (pk_dims p) = insert_at (tracer_index p) (f "tracer") (map f qd).
Proof.
  intros p qd (pre & post & Hd & -> & Hno). unfold quantity_dims, tracer_index. rewrite Hd.
  assert (Hpre : ~ In "tracer" pre) by (intros K; apply Hno, in_or_app; auto).
  assert (E : remove_first "tracer" (pre ++ "tracer" :: post) = pre ++ post).
  { clear - Hpre. induction pre as [|x pre IH]; cbn [app remove_first]. reflexivity.
    destruct (String.eqb_spec "tracer" x) as [<-|_]. exfalso; apply Hpre; left; auto. f_equal. apply IH. intros K; apply Hpre; right; auto. }
  assert (Ei : index_of "tracer" (pre ++ "tracer" :: post) = Some (length pre)).
  { clear - Hpre. induction pre as [|x pre IH]; cbn [app index_of length]. reflexivity.
    destruct (String.eqb_spec "tracer" x) as [<-|_]. exfalso; apply Hpre; left; auto. rewrite IH; auto. intros K; apply Hpre; right; auto. }
  rewrite E, Ei. split; auto. split. rewrite app_length; lia.
  intros B f. unfold insert_at. rewrite !map_app. cbn [map]. rewrite <- (map_length f pre), firstn_app, skipn_app, Nat.sub_diag, firstn_all, skipn_all.
  cbn [firstn skipn app]. rewrite app_nil_r. auto.
Qed.

Section Pack.
  Context {T : Type} {A : Arith T} {R : Registry}.

  Lemma main_tracer_quantities : forall g p qd, consistent g -> has_dims p qd ->
    tracer_quantities g p qd (get_tracer_input_properties g (pk_prepend p) (pk_dims p)) /\
    get_tracer_input_properties g (pk_prepend p) (quantity_dims p) = get_tracer_input_properties g (pk_prepend p) (pk_dims p).
  Proof.
    intros g p qd (N & Hc) Hd. pose proof (has_dims_facts p qd Hd) as (Eq & _ & _). pose proof Hd as (_ & _ & _ & _ & Hno).
    assert (E : remove_first "tracer" (quantity_dims p) = remove_first "tracer" (pk_dims p)).
    { change (remove_first "tracer" (pk_dims p)) with (quantity_dims p). rewrite Eq. apply remove_first_absent; auto. }
    split; [|unfold get_tracer_input_properties; rewrite E; auto].
    unfold get_tracer_input_properties. change (remove_first "tracer" (pk_dims p)) with (quantity_dims p). rewrite Eq. clear E Eq Hno Hd.
    set (m := dupdate (tr_units g) (dupdate [] (pk_prepend p))).
    assert (Em : forall n, dget n m = tracer_units g p n).
    { intros n. unfold m, tracer_units. rewrite dupdate_last.
      assert (Nd : NoDup (keys (dupdate [] (pk_prepend p)))) by (apply NoDup_dupdate; constructor).
      assert (E : dget n (rev (dupdate [] (pk_prepend p))) = dget n (dupdate [] (pk_prepend p))).
      { destruct (dget n (dupdate [] (pk_prepend p))) as [u|] eqn:E.
        - apply dget_NoDup_In. { unfold keys in *. rewrite map_rev. apply NoDup_rev; auto. } apply -> in_rev. apply dget_In; auto.
        - apply dget_none. intros K. unfold keys in K. rewrite map_rev in K. apply in_rev in K. apply In_keys_dget in K as (u & Hu). congruence. }
      rewrite E, dupdate_last. cbn [dget]. destruct (dget n (rev (pk_prepend p))); auto. }
    assert (Nm : NoDup (keys m)) by (apply NoDup_dupdate; auto).
    assert (Ek : keys (map (fun nu => (fst nu, qprops qd (snd nu))) m) = keys m) by (unfold keys; rewrite map_map; auto).
    split. { rewrite Ek; auto. } split.
    - intros n. rewrite Ek, tracer_order_In. split.
      + intros K. apply In_keys_dget in K as (u & Hu). rewrite Em in Hu. unfold tracer_units in Hu.
        destruct (dget n (rev (pk_prepend p))) eqn:E.
        * left. apply dget_In_keys in E. unfold keys in E. rewrite map_rev in E. apply in_rev in E. auto.
        * right. apply Hc. eapply dget_In_keys; eauto.
      + intros K. destruct (dget n m) eqn:E. { eapply dget_In_keys; eauto. } exfalso. rewrite Em in E. unfold tracer_units in E.
        destruct (dget n (rev (pk_prepend p))) eqn:E'; [discriminate E|]. destruct K as [K|K].
        * apply dget_none in E'. apply E'. unfold keys. rewrite map_rev. apply -> in_rev. auto.
        * apply Hc in K. apply In_keys_dget in K as (u & Hu). congruence.
    - intros n. rewrite <- Em. clear. induction m as [|[x u] m IH]; auto. cbn [map fst snd dget]. destruct (String.eqb n x); auto.
  Qed.

  (** ** Slices *)

  Lemma insert_length : forall {B} k (x : B) l, k <= length l -> length (insert_at k x l) = S (length l).
  Proof. intros B k x l H. unfold insert_at. rewrite app_length. cbn [length]. rewrite firstn_length, skipn_length. lia. Qed.

  Lemma nth_insert : forall {B} k (x d : B) l, k <= length l -> nth k (insert_at k x l) d = x.
  Proof.
    intros B k x d l H. unfold insert_at. rewrite app_nth2; rewrite firstn_length, Nat.min_l by auto; auto. rewrite Nat.sub_diag. auto.
  Qed.

  Lemma nth_error_insert : forall {B} k (x : B) l, k <= length l -> nth_error (insert_at k x l) k = Some x.
  Proof.
    intros B k x l H. unfold insert_at. rewrite nth_error_app2; rewrite firstn_length, Nat.min_l by auto; auto. rewrite Nat.sub_diag. auto.
  Qed.

  Lemma remove_insert : forall {B} k (x : B) l, k <= length l -> remove_at k (insert_at k x l) = l.
  Proof.
    intros B k x l H. unfold remove_at, insert_at.
    assert (E : length (firstn k l) = k) by (rewrite firstn_length; lia).
    rewrite firstn_app, E, Nat.sub_diag. cbn [firstn]. rewrite app_nil_r.
    rewrite skipn_app, (skipn_all2 (firstn k l)), E by lia. replace (S k - k) with 1 by lia.
    change (skipn 1 (x :: skipn k l)) with (skipn k l). cbn [app]. rewrite firstn_firstn, Nat.min_id. apply firstn_skipn.
  Qed.

  Lemma in_range_insert : forall k i n idx sh, k <= length sh -> i < n -> in_range idx sh -> in_range (insert_at k i idx) (insert_at k n sh).
  Proof.
    intros k i n idx sh Hk Hi Hr. unfold insert_at, in_range in *. rewrite <- (firstn_skipn k sh) in Hr. rewrite <- (firstn_skipn k idx) in Hr.
    pose proof (Forall2_len _ _ _ Hr) as El. rewrite !firstn_skipn in El.
    apply Forall2_app_inv_l in Hr as (a & b & H1 & H2 & E).
    apply app_inj_len in E as (<- & <-). 2: { apply Forall2_len in H1. rewrite firstn_length in *. lia. }
    apply Forall2_app; auto.
  Qed.

  Lemma insert_surj : forall k n idx sh, k <= length sh -> in_range idx (insert_at k n sh) ->
    exists i idx', idx = insert_at k i idx' /\ i < n /\ in_range idx' sh.
  Proof.
    intros k n idx sh Hk Hr. unfold insert_at in Hr. apply in_range_mid in Hr as (i1 & i & i2 & -> & H1 & Hi & H2).
    exists i, (i1 ++ i2). unfold insert_at. pose proof (Forall2_len _ _ _ H1) as El. rewrite firstn_length, Nat.min_l in El by auto.
    rewrite firstn_app, skipn_app, El, Nat.sub_diag. cbn [firstn skipn]. rewrite app_nil_r.
    rewrite firstn_all2, skipn_all2 by lia. cbn [app]. split; auto. split; auto.
    rewrite <- (firstn_skipn k sh). apply Forall2_app; auto.
  Qed.

  Definition pack_step (raw : dict (nd T)) (k : nat) (a : nd T) (iname : nat * string) : res (nd T) :=
    let* sub := dgetE (snd iname) raw in set_slice a k (fst iname) sub.

  Lemma pack_fold : forall k n sh0 (raw : dict (nd T)) names s a,
    shape a = insert_at k n sh0 -> k <= length sh0 -> s + length names <= n -> wf_nd a ->
    (forall m, In m names -> exists r, dget m raw = Some r /\ shape r = sh0) ->
    exists b, foldM (pack_step raw k) (combine (seq s (length names)) names) a = Ok b /\ wf_nd b /\ shape b = shape a /\
      forall i idx, i < n -> in_range idx sh0 ->
        (forall j m r, nth_error names j = Some m -> i = s + j -> dget m raw = Some r -> at_ b (insert_at k i idx) = at_ r idx) /\
        (i < s -> at_ b (insert_at k i idx) = at_ a (insert_at k i idx)).
  Proof.
    intros k n sh0 raw. induction names as [|m names IH]; intros s a Hs Hk Hn Hw Hr.
    - exists a. cbn. split; auto. split; auto. split; auto. intros i idx Hi Hx. split; auto. intros [|j] m r H; discriminate H.
    - cbn [length seq combine foldM]. destruct (Hr m (or_introl eq_refl)) as (r & Hm & Hrs). cbn [length] in Hn.
      assert (E : pack_step raw k a (s, m) = Ok (build (shape a) (fun idx => if Nat.eqb (nth k idx 0) s then at_ r (remove_at k idx) else at_ a idx))).
      { unfold pack_step. cbn [fst snd]. unfold dgetE. rewrite Hm. cbn [bind]. unfold set_slice. rewrite Hs, nth_insert, remove_insert by auto.
        rewrite (proj2 (Nat.ltb_lt s n)) by lia.
        assert (En : nats_eqb (shape r) sh0 = true) by (rewrite Hrs; apply nats_eqb_eq; auto). rewrite En. auto. }
      rewrite E. cbn [bind]. set (a1 := build _ _) in *.
      destruct (IH (S s) a1) as (b & Hb & Hwb & Hsb & Hv); auto. { lia. } { apply wf_build. } { intros; apply Hr; right; auto. }
      exists b. split; auto. split; auto. split; auto. intros i idx Hi Hx. destruct (Hv i idx Hi Hx) as (Hv1 & Hv2).
      assert (Hlen : length idx = length sh0) by (apply Forall2_len in Hx; auto).
      assert (Ha1 : at_ a1 (insert_at k i idx) = if Nat.eqb i s then at_ r idx else at_ a (insert_at k i idx)).
      { unfold a1. rewrite at_build. rewrite nth_insert, remove_insert by lia. auto. rewrite Hs. apply in_range_insert; auto. }
      split.
      + intros [|j] m' r' Hj Hi' Hm'. { cbn in Hj. injection Hj as <-. rewrite Hm in Hm'. injection Hm' as <-. rewrite Hv2 by lia. rewrite Ha1.
          assert (Ei : Nat.eqb i s = true) by (apply Nat.eqb_eq; lia). rewrite Ei. auto. }
        cbn in Hj. apply (Hv1 j m' r'); auto. lia.
      + intros Hlt. rewrite Hv2 by lia. rewrite Ha1. assert (Ei : Nat.eqb i s = false) by (apply Nat.eqb_neq; lia). rewrite Ei. auto.
  Qed.

  Lemma nth_error_In' : forall {B} (l : list B) i x, nth_error l i = Some x -> i < length l /\ In x l.
  Proof. intros B l i x H. split. apply nth_error_Some; congruence. eapply nth_error_In; eauto. Qed.

  Section One.
    Context (g : treg) (p : packer) (qd : list string) (st : state T).
    Context (Hg : consistent g) (Hd : has_dims p qd) (Hos : one_star qd) (Hwf : wf_state st).
    Let tp := get_tracer_input_properties g (pk_prepend p) (pk_dims p).
    Let W := wildcard_dims st tp.

    Lemma tp_entry : forall n pr, In (n, pr) tp -> exists u, tracer_units g p n = Some u /\ pr = qprops qd u.
    Proof.
      intros n pr H. destruct (main_tracer_quantities g p qd Hg Hd) as ((N & _ & Hu) & _). fold tp in N, Hu.
      apply dget_NoDup_In in H; auto. rewrite Hu in H. destruct (tracer_units g p n) as [u|]; [|discriminate H]. injection H as <-. eauto.
    Qed.

    Lemma tp_wf : wf_pdict tp.
    Proof. intros n pr ds H Hds. apply tp_entry in H as (u & _ & ->). cbn in Hds. injection Hds as <-. auto. Qed.

    Lemma tp_raw : map (fun np => raw_name (fst np) (snd np)) tp = keys tp.
    Proof.
      unfold keys. apply map_ext_in. intros [n pr] H. apply tp_entry in H as (u & _ & ->). reflexivity.
    Qed.

    Lemma tp_nodup : NoDup (keys tp).
    Proof. destruct (main_tracer_quantities g p qd Hg Hd) as ((N & _) & _). exact N. Qed.

    Lemma tp_order : forall m, In m (tracer_order g p) -> exists u, tracer_units g p m = Some u /\ In (m, qprops qd u) tp.
    Proof.
      intros m H. destruct (main_tracer_quantities g p qd Hg Hd) as ((_ & Hk & Hu) & _). fold tp in Hk, Hu.
      apply Hk in H. apply In_keys_dget in H as (pr & Hpr). pose proof (dget_In _ _ _ Hpr) as Hin. apply tp_entry in Hin as (u & Eu & ->).
      exists u. split; auto. apply dget_In; auto.
    Qed.

    Lemma axes_insert : forall n (L : string -> nat), map (tracer_axis n W L) (pk_dims p) = insert_at (tracer_index p) n (map (axis_len W L) qd).
    Proof.
      intros n L. destruct (has_dims_facts p qd Hd) as (_ & _ & Hm). rewrite Hm. f_equal. apply map_ext_in. intros d Hin.
      unfold tracer_axis. destruct (String.eqb_spec d "tracer") as [->|]; auto. destruct Hd as (_ & _ & _ & _ & Hno). contradiction.
    Qed.

    Lemma pos_insert : forall i (L c : string -> nat), map (tracer_pos i W L c) (pk_dims p) = insert_at (tracer_index p) i (map (axis_pos W L c) qd).
    Proof.
      intros n L c. destruct (has_dims_facts p qd Hd) as (_ & _ & Hm). rewrite Hm. f_equal. apply map_ext_in. intros d Hin.
      unfold tracer_pos. destruct (String.eqb_spec d "tracer") as [->|]; auto. destruct Hd as (_ & _ & _ & _ & Hno). contradiction.
    Qed.

    Lemma slice_of : forall (b r : nd T) i n sh0, wf_nd b -> wf_nd r -> shape b = insert_at (tracer_index p) n sh0 -> shape r = sh0 ->
      tracer_index p <= length sh0 -> i < n -> (forall idx, in_range idx sh0 -> at_ b (insert_at (tracer_index p) i idx) = at_ r idx) ->
      get_slice b (tracer_index p) i = Ok r.
    Proof.
      intros b r i n sh0 Hb Hr Hsb Hsr Hk Hi Hv. unfold get_slice. rewrite Hsb, nth_error_insert by auto.
      rewrite (proj2 (Nat.ltb_lt i n) Hi), remove_insert by auto. f_equal. apply nd_ext; auto. apply wf_build. rewrite shape_build; auto.
      intros idx Hx. rewrite at_build by auto. apply Hv; auto.
    Qed.

    Lemma pack_raw_err : forall e, get_numpy_arrays_with_properties st tp = Err e -> pack g p st = Err e.
    Proof.
      intros e H. unfold pack. destruct (main_tracer_quantities g p qd Hg Hd) as (_ & E). rewrite E. fold tp. rewrite H. reflexivity.
    Qed.

    Lemma pack_raw : forall raw, get_numpy_arrays_with_properties st tp = Ok raw ->
      exists arr L, pack g p st = Ok arr /\ wf_nd arr /\ common_lengths st tp L /\ keys raw = keys tp /\
        shape arr = tracer_shape g p W L /\
        (forall m, In m (tracer_order g p) -> exists u r, tracer_units g p m = Some u /\ dget m raw = Some r /\ extracted st tp L m (qprops qd u) r) /\
        forall i m r, nth_error (tracer_order g p) i = Some m -> dget m raw = Some r ->
          get_slice arr (tracer_index p) i = Ok r /\
          forall idx, in_range idx (map (axis_len W L) qd) -> at_ arr (insert_at (tracer_index p) i idx) = at_ r idx.
    Proof.
      intros raw H. destruct (extraction_spec st tp raw Hwf tp_wf) as (L & HL & Hk & Hx); auto. { rewrite tp_raw. apply tp_nodup. }
      rewrite tp_raw in Hk.
      destruct (main_tracer_quantities g p qd Hg Hd) as (_ & E). destruct (has_dims_facts p qd Hd) as (_ & Hti & _).
      assert (Hr : forall m, In m (tracer_order g p) -> exists u r, tracer_units g p m = Some u /\ dget m raw = Some r /\ extracted st tp L m (qprops qd u) r).
      { intros m Hm. apply tp_order in Hm as (u & Hu & Hin). destruct (Hx _ _ Hin) as (r & Hr & He). exists u, r. auto. }
      assert (Hsh : forall m r u, extracted st tp L m (qprops qd u) r -> wf_nd r /\ shape r = map (axis_len W L) qd).
      { intros m r u (ds & u' & a & q & E1 & _ & _ & _ & E5 & E6 & _). cbn in E1. injection E1 as <-. auto. }
      unfold tracer_shape.
      unfold pack. rewrite E. fold tp. rewrite H. cbn [bind]. rewrite tracer_names_order.
      destruct (tracer_order g p) as [|n0 names] eqn:Eo.
      - exists (full (map (fun _ => 0) (pk_dims p)) azero), L. cbn [bind enumerate length seq combine foldM].
        split; auto. split. apply wf_build. split; auto. split; auto. split; auto. split; auto. intros [|i] m r Hm; discriminate Hm.
      - rewrite <- Eo in *. destruct (Hr n0) as (u0 & r0 & _ & Hr0 & He0). { rewrite Eo; left; auto. }
        apply Hsh in He0 as (_ & Hs0). unfold dgetE at 1. rewrite Hr0. cbn [bind]. rewrite Hs0.
        assert (Hti' : tracer_index p <= length (map (axis_len W L) qd)) by (rewrite map_length; auto).
        destruct (pack_fold (tracer_index p) (length (tracer_order g p)) (map (axis_len W L) qd) raw (tracer_order g p) 0
                    (full (insert_at (tracer_index p) (length (tracer_order g p)) (map (axis_len W L) qd)) azero)) as (b & Hb & Hwb & Hsb & Hv); auto.
        { apply wf_build. } { intros m Hm. destruct (Hr m Hm) as (u & r & _ & Hr' & He). exists r. split; auto. apply (Hsh m r u He). }
        exists b, L. split; [exact Hb|]. split; auto. split; auto. split; auto. split.
        { rewrite Hsb, Eo. rewrite axes_insert. reflexivity. } split; auto.
        intros i m r Hi Hm. destruct (nth_error_In' _ _ _ Hi) as (Hlt & Hin).
        assert (Hat : forall idx, in_range idx (map (axis_len W L) qd) -> at_ b (insert_at (tracer_index p) i idx) = at_ r idx).
        { intros idx Hx'. destruct (Hv i idx Hlt Hx') as (Hv1 & _). apply (Hv1 i m r); auto. }
        split; auto. destruct (Hr m Hin) as (u & r' & _ & Hr' & He). rewrite Hm in Hr'. injection Hr' as <-. apply Hsh in He as (Hw & Hs).
        apply (slice_of b r i (length (tracer_order g p)) (map (axis_len W L) qd)); auto.
    Qed.
  End One.

  Lemma grid_range : forall W L c ds, grid_point W L c ds -> in_range (map (axis_pos W L c) ds) (map (axis_len W L) ds).
  Proof.
    induction ds as [|d ds IH]; intros H; cbn [map]; constructor.
    - specialize (H d (or_introl eq_refl)). unfold axis_pos, axis_len. destruct (String.eqb d "*"); auto.
      apply ravel_lt. clear - H. induction W as [|w W IH]; cbn [map]; constructor. apply H; left; auto. apply IH. intros x Hx; apply H; right; auto.
    - apply IH. intros x Hx. apply H. right; auto.
  Qed.

  (** C45, first part: what a packed array holds. *)
  Theorem main_pack : forall g p qd (st : state T) arr, consistent g -> has_dims p qd -> one_star qd -> wf_state st ->
    pack g p st = Ok arr ->
    let tp := get_tracer_input_properties g (pk_prepend p) (pk_dims p) in
    let W := wildcard_dims st tp in
    tracer_quantities g p qd tp /\ wf_nd arr /\
    exists L, common_lengths st tp L /\ shape arr = tracer_shape g p W L /\
      forall i name, nth_error (tracer_order g p) i = Some name ->
        exists u a q, tracer_units g p name = Some u /\ dget name st = Some (VDA a) /\ to_units a u = Ok q /\
          forall c, grid_point W L c qd -> at_ arr (map (tracer_pos i W L c) (pk_dims p)) = da_at q c.
  Proof.
    intros g p qd st arr Hg Hd Hos Hwf H tp W. destruct (main_tracer_quantities g p qd Hg Hd) as (Hq & _). split; auto.
    destruct (get_numpy_arrays_with_properties st tp) as [raw|e] eqn:Er.
    2: { rewrite (pack_raw_err g p qd st Hg Hd e) in H by auto. discriminate H. }
    destruct (pack_raw g p qd st Hg Hd Hos Hwf raw Er) as (arr' & L & Hp & Hw & HL & Hk & Hs & Hr & Hv). rewrite Hp in H. injection H as ->.
    split; auto. exists L. split; auto. split; auto. intros i name Hi. destruct (nth_error_In' _ _ _ Hi) as (_ & Hin).
    destruct (Hr name Hin) as (u & r & Hu & Hn & ds & u' & a & q & E1 & E2 & E3 & E4 & E5 & E6 & E7). cbn in E1, E2. injection E1 as <-. injection E2 as <-.
    exists u, a, q. split; auto. split; auto. split; auto. intros c Hc. destruct (Hv i name r Hi Hn) as (_ & Ha).
    unfold W, tp. rewrite (pos_insert g p qd st Hd). rewrite Ha. apply E7; auto. apply grid_range; auto.
  Qed.

  Theorem main_pack_iff : forall g p qd (st : state T), consistent g -> has_dims p qd -> one_star qd -> wf_state st ->
    match get_numpy_arrays_with_properties st (get_tracer_input_properties g (pk_prepend p) (pk_dims p)) with
    | Ok _ => exists arr, pack g p st = Ok arr
    | Err e => pack g p st = Err e
    end.
  Proof.
    intros g p qd st Hg Hd Hos Hwf. destruct (get_numpy_arrays_with_properties st _) as [raw|e] eqn:Er.
    - destruct (pack_raw g p qd st Hg Hd Hos Hwf raw Er) as (arr & L & Hp & _). eauto.
    - apply (pack_raw_err g p qd st Hg Hd); auto.
  Qed.

  (** ** Unpacking *)

  Definition unpack_step (a : nd T) (k : nat) (raw : dict (nd T)) (iname : nat * string) : res (dict (nd T)) :=
    let* sub := get_slice a k (fst iname) in Ok (dset (snd iname) sub raw).

  Lemma unpack_fold : forall (a : nd T) k names s acc,
    (forall i m, nth_error names i = Some m -> exists r, get_slice a k (s + i) = Ok r) ->
    exists raw, foldM (unpack_step a k) (combine (seq s (length names)) names) acc = Ok raw /\
      (forall m, In m names -> exists i r, nth_error names i = Some m /\ get_slice a k (s + i) = Ok r /\ dget m raw = Some r) /\
      (forall m, ~ In m names -> dget m raw = dget m acc).
  Proof.
    intros a k. induction names as [|n names IH]; intros s acc H.
    - exists acc. split; auto. split; auto. intros m [].
    - cbn [length seq combine foldM]. destruct (H 0 n eq_refl) as (r & Hr). rewrite Nat.add_0_r in Hr.
      change (unpack_step a k acc (s, n)) with (let* sub := get_slice a k s in Ok (dset n sub acc)). rewrite Hr. cbn [bind].
      destruct (IH (S s) (dset n r acc)) as (raw & Hraw & H1 & H2).
      { intros i m Hi. specialize (H (S i) m Hi). rewrite Nat.add_succ_r in H. exact H. }
      exists raw. split; auto. split.
      + intros m Hm. destruct (In_dec_str m names) as [K|K].
        * destruct (H1 m K) as (i & r' & Hi & Hs & Hg). exists (S i), r'. rewrite Nat.add_succ_r. auto.
        * destruct Hm as [->|Hm]; [|contradiction]. exists 0, r. rewrite Nat.add_0_r. split; auto. split; auto. rewrite (H2 m K), dget_dset_eq. auto.
      + intros m Hm. rewrite H2 by (intros K; apply Hm; right; auto). apply dget_dset_neq. intros ->. apply Hm. left; auto.
  Qed.

  Lemma multiply_qprops : forall qd u mult, multiply_units mult (qprops qd u) = qprops qd (times_unit u mult).
  Proof. intros qd u mult. unfold multiply_units, times_unit. destruct (String.eqb mult ""); auto. Qed.

  (** Restoring any raw arrays of the right shape, with the units multiplied. *)
  Lemma unpack_restores : forall g p qd (st : state T) raw mult L, consistent g -> has_dims p qd -> one_star qd -> wf_state st ->
    let tp := get_tracer_input_properties g (pk_prepend p) (pk_dims p) in
    let W := wildcard_dims st tp in
    complete st tp -> ~ length_conflict st tp -> ~ unexpected_dim st tp ->
    (forall nm pr ds a d n, listed st tp nm pr ds a -> has_dim a d n -> L d = n) ->
    (forall m, In m (tracer_order g p) -> exists r, dget m raw = Some r /\ shape r = map (axis_len W L) qd) ->
    exists out, restore_data_arrays_with_properties raw (map (fun np => (fst np, multiply_units mult (snd np))) tp) st tp [] false = Ok out /\
      (forall m, In m (keys out) <-> In m (tracer_order g p)) /\
      forall m u r, tracer_units g p m = Some u -> In m (tracer_order g p) -> dget m raw = Some r ->
        exists q, dget m out = Some q /\ attrs q = [("units", times_unit u mult)] /\ dims q = expand_dims W qd /\
          shape (DataArrayM.arr q) = map L (dims q) /\ forall c, da_at q c = at_ r (map (axis_pos W L c) qd).
  Proof.
    intros g p qd st raw mult L Hg Hd Hos Hwf tp W Hc Hnc Hnu HL Hraw. set (op := map _ tp).
    destruct (main_tracer_quantities g p qd Hg Hd) as ((Nt & Hk & Hu) & _). fold tp in Nt, Hk, Hu.
    assert (Ek : keys op = keys tp) by (unfold op, keys; rewrite map_map; auto).
    assert (Hop : forall m, dget m op = match tracer_units g p m with Some u => Some (qprops qd (times_unit u mult)) | None => None end).
    { intros m. assert (E : dget m op = option_map (multiply_units mult) (dget m tp)).
      { unfold op. clear. induction tp as [|[x pr] l IH]; auto. cbn [map fst snd dget]. destruct (String.eqb m x); auto. }
      rewrite E, Hu. destruct (tracer_units g p m); auto. cbn [option_map]. rewrite multiply_qprops. auto. }
    assert (Hnig : forall name, ~ ignored raw op [] false name) by (intros name [[]|(Hf & _)]; discriminate).
    assert (Hres : forall m u r, tracer_units g p m = Some u -> In m (tracer_order g p) -> dget m raw = Some r -> shape r = map (axis_len W L) qd ->
              restorable raw st op tp L m (qprops qd (times_unit u mult)) qd (times_unit u mult) r).
    { intros m u r Em Hm Hr Hs. assert (Eo : dget m op = Some (qprops qd (times_unit u mult))) by (rewrite Hop, Em; auto).
      assert (Et : dget m tp = Some (qprops qd u)) by (rewrite Hu, Em; auto).
      split. { eexists. split; [exact Eo|]. left; auto. } split; auto. split; auto. split.
      { unfold out_key. rewrite Eo. cbn [p_alias qprops]. rewrite Et. exact Hr. } split; auto.
      intros Hs'. exists m, (qprops qd u), qd. split. apply dget_In; auto. auto. }
    destruct (main_restore_ok st raw op tp [] false L Hwf) as (out & Ho & Hko & Hv); auto. { rewrite Ek; auto. }
    { intros m pr Hm _. assert (Hin : In m (tracer_order g p)) by (apply Hk; rewrite <- Ek; eapply dget_In_keys; eauto).
      destruct (Hraw m Hin) as (r & Hr & Hs). rewrite Hop in Hm. destruct (tracer_units g p m) as [u|] eqn:Em; [|discriminate Hm]. injection Hm as <-.
      exists qd, (times_unit u mult), r. apply Hres; auto. }
    exists out. split; auto. split. { intros m. rewrite Hko, Ek, Hk. split; [tauto|]. intros K; split; auto. }
    intros m u r Em Hm Hr. destruct (Hraw m Hm) as (r' & Hr' & Hs). rewrite Hr in Hr'. injection Hr' as <-.
    apply (Hv m (qprops qd (times_unit u mult)) qd (times_unit u mult) r); auto. rewrite Hop, Em; auto.
  Qed.

  (** The slices of an array of the right shape. *)
  Lemma slice_facts : forall g p qd (st : state T) L (a : nd T), has_dims p qd ->
    let W := wildcard_dims st (get_tracer_input_properties g (pk_prepend p) (pk_dims p)) in
    tracer_order g p <> [] -> shape a = tracer_shape g p W L ->
    shape a = insert_at (tracer_index p) (length (tracer_order g p)) (map (axis_len W L) qd) /\
    tracer_index p <= length (map (axis_len W L) qd) /\
    forall i, i < length (tracer_order g p) -> exists r, get_slice a (tracer_index p) i = Ok r /\ wf_nd r /\ shape r = map (axis_len W L) qd /\
      forall idx, in_range idx (map (axis_len W L) qd) -> at_ r idx = at_ a (insert_at (tracer_index p) i idx).
  Proof.
    intros g p qd st L a Hd W Hne Hs.
    assert (E : shape a = insert_at (tracer_index p) (length (tracer_order g p)) (map (axis_len W L) qd)).
    { rewrite Hs. unfold tracer_shape. rewrite <- (axes_insert g p qd st Hd). fold W. destruct (tracer_order g p); auto. contradiction. }
    destruct (has_dims_facts p qd Hd) as (_ & Hti & _). assert (Hti' : tracer_index p <= length (map (axis_len W L) qd)) by (rewrite map_length; auto).
    split; auto. split; auto. intros i Hi. unfold get_slice. rewrite E, nth_error_insert, (proj2 (Nat.ltb_lt i _) Hi), remove_insert by auto.
    eexists. split; [reflexivity|]. split. apply wf_build. split. apply shape_build. intros idx Hx. rewrite at_build; auto.
  Qed.

  Lemma NoDup_nth : forall {B} (l : list B) i j x, NoDup l -> nth_error l i = Some x -> nth_error l j = Some x -> i = j.
  Proof.
    intros B l i j x N Hi Hj. rewrite NoDup_nth_error in N. apply N. apply nth_error_Some; congruence. congruence.
  Qed.

  (** C45, second part: unpacking any array of the right shape. *)
  Theorem main_unpack : forall g p qd (st : state T) (a : nd T) mult L, consistent g -> has_dims p qd -> one_star qd -> wf_state st ->
    NoDup (map fst (pk_prepend p)) ->
    let tp := get_tracer_input_properties g (pk_prepend p) (pk_dims p) in
    let W := wildcard_dims st tp in
    complete st tp -> ~ length_conflict st tp -> ~ unexpected_dim st tp ->
    (forall nm pr ds b d n, listed st tp nm pr ds b -> has_dim b d n -> L d = n) ->
    shape a = tracer_shape g p W L ->
    exists out, unpack g p a st mult = Ok out /\
      (forall m, In m (keys out) <-> In m (tracer_order g p)) /\
      unpacked g p qd W L mult a out.
  Proof.
    intros g p qd st a mult L Hg Hd Hos Hwf Np tp W Hc Hnc Hnu HL Hs. pose proof (main_tracer_order_once g p Np) as No.
    destruct (main_tracer_quantities g p qd Hg Hd) as (_ & E).
    destruct (unpack_fold a (tracer_index p) (tracer_order g p) 0 []) as (raw & Hraw & H1 & _).
    { intros i m Hi. destruct (slice_facts g p qd st L a Hd) as (_ & _ & Hsl); auto. { intros K. rewrite K in Hi. destruct i; discriminate Hi. }
      destruct (Hsl i) as (r & Hr & _). apply (nth_error_In' _ _ _ Hi). eauto. }
    destruct (unpack_restores g p qd st raw mult L Hg Hd Hos Hwf) as (out & Ho & Hko & Hv); auto.
    { intros m Hm. destruct (H1 m Hm) as (i & r & Hi & Hr & Hg'). exists r. split; auto.
      destruct (slice_facts g p qd st L a Hd) as (_ & _ & Hsl); auto. { intros K. rewrite K in Hi. destruct i; discriminate Hi. }
      destruct (Hsl i) as (r' & Hr' & _ & Hs' & _). apply (nth_error_In' _ _ _ Hi). cbn [Nat.add] in Hr. rewrite Hr in Hr'. injection Hr' as <-. auto. }
    exists out. split. { unfold unpack. rewrite E, tracer_names_order. unfold enumerate. fold (unpack_step a (tracer_index p)).
      change (foldM (fun raw0 iname => unpack_step a (tracer_index p) raw0 iname)) with (foldM (unpack_step a (tracer_index p))).
      rewrite Hraw. cbn [bind]. exact Ho. }
    split; auto. intros i m Hi. destruct (nth_error_In' _ _ _ Hi) as (Hlt & Hin). destruct (tp_order g p qd Hg Hd m Hin) as (u & Hu & _).
    destruct (H1 m Hin) as (j & r & Hj & Hr & Hg'). assert (j = i) by (eapply NoDup_nth; eauto). subst j. cbn [Nat.add] in Hr.
    destruct (Hv m u r Hu Hin Hg') as (q & Hq & Q1 & Q2 & Q3 & Q4). exists u, q. repeat (split; auto).
    intros c Hc'. rewrite Q4. unfold W, tp. rewrite (pos_insert g p qd st Hd).
    destruct (slice_facts g p qd st L a Hd) as (_ & _ & Hsl); auto. { intros K. rewrite K in Hi. destruct i; discriminate Hi. }
    destruct (Hsl i Hlt) as (r' & Hr' & _ & _ & Ha). rewrite Hr in Hr'. injection Hr' as <-. apply Ha. apply grid_range; auto.
  Qed.
End Pack.
