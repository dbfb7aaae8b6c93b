(** Extracting what was restored gives the raw arrays back (the converse of C05). *)
From Coq Require Import String List Bool Arith ZArith Lia.
From Verif Require Import Prelude PreludeFacts ArithM NdArray NdFacts Units DataArrayM Wildcard WildcardFacts GetNp GetNpFacts Restore
  RestoreFacts SpecArrays ExtractFacts RoundTripFacts ArraysMain UnitsFacts SpecDa DaFacts.
Import ListNotations.
Open Scope string_scope.
Open Scope nat_scope.
Open Scope list_scope.

(** ** Every index is that of a grid point *)

Lemma assign : forall (l : list string) (v : list nat), NoDup l -> length l = length v -> exists c : string -> nat, map c l = v.
Proof.
  induction l as [|x l IH]; intros [|n v] N E; try discriminate E. exists (fun _ => 0); auto.
  inversion N as [|? ? Hx N']; subst. destruct (IH v N') as (c & Hc); [injection E; auto|].
  exists (fun d => if String.eqb d x then n else c d). cbn [map]. rewrite String.eqb_refl. f_equal.
  rewrite <- Hc. apply map_ext_in. intros d Hd. destruct (String.eqb_spec d x) as [->|]; auto. contradiction.
Qed.

Lemma in_range_mid : forall idx s1 n s2, in_range idx (s1 ++ n :: s2) -> exists i1 k i2, idx = i1 ++ k :: i2 /\ in_range i1 s1 /\ k < n /\ in_range i2 s2.
Proof.
  intros idx s1 n s2 H. apply Forall2_app_inv_r in H as (i1 & i2 & H1 & H2 & ->). inversion H2 as [|k ? i2' ? Hk H2']; subst.
  exists i1, k, i2'. auto.
Qed.

Lemma map_in_range : forall (c L : string -> nat) l, in_range (map c l) (map L l) -> forall d, In d l -> c d < L d.
Proof.
  induction l as [|x l IH]; intros H d Hd; [destruct Hd|]. inversion H; subst. destruct Hd as [->|Hd]; auto.
Qed.

Lemma app_inj_len : forall {B} (a b c d : list B), a ++ b = c ++ d -> length a = length c -> a = c /\ b = d.
Proof.
  induction a as [|x a IH]; intros b [|y c] d H E; try discriminate E; auto.
  injection H as <- H. apply IH in H as (-> & ->); auto.
Qed.

Lemma grid_surj : forall W L ds idx, one_star ds -> NoDup (expand_dims W ds) -> in_range idx (map (axis_len W L) ds) ->
  exists c, grid_point W L c ds /\ map (axis_pos W L c) ds = idx.
Proof.
  intros W L ds idx [Hno|(pre & post & -> & Hno)] Hnd Hr.
  - rewrite (expand_dims_none W ds Hno) in Hnd. rewrite map_axis_id in Hr by auto.
    destruct (assign ds idx Hnd) as (c & Hc). { apply Forall2_len in Hr. rewrite map_length in Hr. auto. }
    exists c. split; [|rewrite map_pos_id; auto].
    intros d Hd. destruct (String.eqb_spec d "*") as [->|_]; [contradiction|]. apply (map_in_range c L ds); auto. rewrite Hc. auto.
  - assert (Hpre : ~ In "*" pre) by (intros K; apply Hno, in_or_app; auto).
    assert (Hpost : ~ In "*" post) by (intros K; apply Hno, in_or_app; auto).
    rewrite (expand_dims_one W pre post Hpre Hpost) in Hnd. rewrite map_app in Hr. cbn [map] in Hr.
    apply in_range_mid in Hr as (i1 & k & i2 & -> & H1 & Hk & H2). rewrite map_axis_id in H1, H2 by auto.
    unfold axis_len in Hk. cbn [String.eqb Ascii.eqb Bool.eqb] in Hk.
    pose proof (unravel_range _ _ Hk) as Hu. pose proof (ravel_unravel _ _ Hk) as Hru.
    set (iw := unravel (map L W) k) in *. clearbody iw.
    assert (E1 : length pre = length i1) by (apply Forall2_len in H1; rewrite map_length in H1; auto).
    assert (E2 : length post = length i2) by (apply Forall2_len in H2; rewrite map_length in H2; auto).
    assert (E3 : length W = length iw) by (apply Forall2_len in Hu; rewrite map_length in Hu; auto).
    destruct (assign (pre ++ W ++ post) (i1 ++ iw ++ i2) Hnd) as (c & Hc). { rewrite !app_length. lia. }
    rewrite !map_app in Hc. apply app_inj_len in Hc as (Hc1 & Hc); [|rewrite map_length; auto].
    apply app_inj_len in Hc as (Hc2 & Hc3); [|rewrite map_length; auto].
    exists c. split.
    + intros d Hd. destruct (String.eqb_spec d "*") as [->|Hne].
      * apply map_in_range. rewrite Hc2. auto.
      * apply in_app_or in Hd as [Hd|[Hd|Hd]]; [|subst; contradiction|].
        apply (map_in_range c L pre); auto. rewrite Hc1; auto. apply (map_in_range c L post); auto. rewrite Hc3; auto.
    + rewrite map_app. cbn [map]. rewrite !map_pos_id by auto. unfold axis_pos at 1. cbn [String.eqb Ascii.eqb Bool.eqb].
      rewrite Hc1, Hc2, Hc3, Hru. reflexivity.
Qed.

Lemma NoDup_remove_in_l : forall {B} (a b : list B), NoDup (a ++ b) -> forall x, In x a -> ~ In x b.
Proof.
  induction a as [|y a IH]; intros b N x Hx; [destruct Hx|]. inversion N as [|? ? Hy N']; subst.
  destruct Hx as [->|Hx]; [intros K; apply Hy, in_or_app; auto|exact (IH b N' x Hx)].
Qed.

Section RestoreExtract.
  Context {T : Type} {A : Arith T} {R : Registry}.

  Lemma to_units_own : forall (a : da T) u x, dget "units" (attrs a) = Some u -> parse u = Some x -> to_units a u = Ok a.
  Proof.
    intros a u x H Hx. unfold to_units. rewrite H. unfold parseE. rewrite Hx. cbn [bind].
    assert (E : one_eqb x x = true) by (apply one_eqb_eq; auto). rewrite E. reflexivity.
  Qed.

  (** Dims of a restored quantity that are not declared. *)
  Lemma undeclared_restored : forall W ds, one_star ds -> NoDup (expand_dims W ds) ->
    filter (fun d => negb (mem d ds)) (expand_dims W ds) = if mem "*" ds then filter (fun d => negb (String.eqb d "*")) W else [].
  Proof.
    intros W ds Hos Hnd.
    assert (G : forall l, (forall d, In d l -> In d ds) -> filter (fun d => negb (mem d ds)) l = []).
    { induction l as [|x l IH]; intros H; auto. cbn [filter].
      assert (E : mem x ds = true) by (apply mem_In, H; left; auto). rewrite E. cbn [negb]. apply IH. intros d Hd; apply H; right; auto. }
    destruct Hos as [Hno|(pre & post & -> & Hno)].
    - rewrite (expand_dims_none W ds Hno). assert (E : mem "*" ds = false) by (apply mem_false; auto). rewrite E. apply G. auto.
    - assert (Hpre : ~ In "*" pre) by (intros K; apply Hno, in_or_app; auto).
      assert (Hpost : ~ In "*" post) by (intros K; apply Hno, in_or_app; auto).
      rewrite (expand_dims_one W pre post Hpre Hpost) in *.
      assert (E : mem "*" (pre ++ "*" :: post) = true) by (apply mem_In, in_or_app; right; left; auto). rewrite E.
      rewrite !filter_app. rewrite (G pre), (G post). 2,3: intros d Hd; apply in_or_app; cbn; tauto.
      rewrite app_nil_r. cbn [app]. apply filter_ext_in. intros d Hd. f_equal.
      destruct (String.eqb_spec d "*") as [->|Hne]; auto. apply mem_false. intros K. apply in_app_or in K as [K|[K|K]]; [|congruence|].
      + apply (NoDup_remove_in_l _ _ Hnd d K). apply in_or_app; auto.
      + rewrite app_assoc in Hnd. apply (NoDup_remove_in_l _ _ Hnd d); auto. apply in_or_app; auto.
  Qed.

  Lemma dedup_acc_seen : forall l s, (forall x, In x l -> In x s) -> dedup_acc s l = [].
  Proof.
    induction l as [|x l IH]; intros s H; auto. cbn [dedup_acc].
    assert (E : mem x s = true) by (apply mem_In, H; left; auto). rewrite E. apply IH. intros y Hy; apply H; right; auto.
  Qed.

  Lemma dedup_acc_id : forall l s, NoDup l -> (forall x, In x l -> ~ In x s) -> dedup_acc s l = l.
  Proof.
    intros l s N H. rewrite <- dedup_acc_filter by auto.
    induction l as [|x l IH]; auto. cbn [filter].
    assert (E : mem x s = false) by (apply mem_false, H; left; auto). rewrite E. cbn [negb]. f_equal.
    inversion N; subst. apply IH; auto. intros y Hy; apply H; right; auto.
  Qed.

  (** Repeating the same block does not matter. *)
  Lemma dedup_blocks : forall {B} (f : B -> list string) W l, NoDup W -> (forall x, In x l -> f x = W \/ f x = []) ->
    (exists x, In x l /\ f x = W) -> dedup (flat_map f l) = W.
  Proof.
    intros B f W l N. unfold dedup. induction l as [|x l IH]; intros H (y & Hy & Ey); [destruct Hy|].
    cbn [flat_map]. rewrite dedup_acc_app. cbn [app]. destruct (H x (or_introl eq_refl)) as [E|E]; rewrite E.
    - rewrite (dedup_acc_id W []) by auto. rewrite dedup_acc_seen. apply app_nil_r.
      intros z Hz. apply in_flat_map in Hz as (w & Hw & Hz). destruct (H w (or_intror Hw)) as [K|K]; rewrite K in Hz; auto. destruct Hz.
    - cbn [dedup_acc app]. destruct W as [|w W].
      + rewrite dedup_acc_seen; auto. intros z Hz. apply in_flat_map in Hz as (v & Hv & Hz).
        destruct (H v (or_intror Hv)) as [K|K]; rewrite K in Hz; auto.
      + apply IH. { intros z Hz; apply H; right; auto. } exists y. split; auto. destruct Hy as [<-|Hy]; auto. congruence.
  Qed.

  Lemma wildcard_undeclared : forall (st : state T) pd d, wf_state st -> In d (wildcard_dims st pd) -> d <> "*".
  Proof. intros st pd d Hwf H ->. exact (wildcard_dims_no_star st pd Hwf H). Qed.

  (** The state [st'] holds what was restored. *)
  Lemma wildcard_restored : forall (st st' : state T) pd, wf_state st -> wf_pdict pd -> no_repeated_dims st pd ->
    (forall name p ds, In (name, p) pd -> p_dims p = Some ds -> exists q, dget name st' = Some (VDA q) /\ dims q = expand_dims (wildcard_dims st pd) ds) ->
    (exists name p ds, In (name, p) pd /\ p_dims p = Some ds /\ In "*" ds) ->
    wildcard_dims st' pd = wildcard_dims st pd.
  Proof.
    intros st st' pd Hwf Hwp Hnr Hq (n0 & p0 & ds0 & Hin0 & Hds0 & Hs0). set (W := wildcard_dims st pd) in *.
    assert (EW : filter (fun d => negb (String.eqb d "*")) W = W).
    { assert (G : forall d, In d W -> d <> "*") by (intros d Hd; eapply wildcard_undeclared; eauto).
      revert G. clear. induction W as [|x l IH]; intros G; auto. cbn [filter].
      destruct (String.eqb_spec x "*") as [->|_]; [exfalso; apply (G "*"); cbn; auto|]. cbn [negb]. f_equal. apply IH. intros d Hd; apply G; right; auto. }
    assert (Hu : forall name p ds, In (name, p) pd -> p_dims p = Some ds ->
              undeclared st' (name, p) = if mem "*" ds then W else []).
    { intros name p ds Hin Hds. destruct (Hq name p ds Hin Hds) as (q & Hg & Hd). unfold undeclared. cbn [fst snd]. rewrite Hds, Hg, Hd.
      rewrite undeclared_restored; [|eapply Hwp; eauto|eapply Hnr; eauto]. fold W. rewrite EW. auto. }
    unfold wildcard_dims at 1. apply dedup_blocks.
    - unfold W, wildcard_dims. apply dedup_NoDup.
    - intros [name p] Hin. destruct (p_dims p) as [ds|] eqn:Hds.
      + rewrite (Hu name p ds Hin Hds). destruct (mem "*" ds); auto.
      + right. unfold undeclared. cbn [snd]. rewrite Hds. auto.
    - exists (n0, p0). split; auto. rewrite (Hu n0 p0 ds0 Hin0 Hds0). apply mem_In in Hs0. rewrite Hs0. auto.
  Qed.

  Lemma axis_len_nostar : forall W W' L ds, ~ In "*" ds -> map (axis_len W L) ds = map (axis_len W' L) ds.
  Proof. intros. rewrite !map_axis_id; auto. Qed.

  Lemma axis_pos_nostar : forall W W' L c ds, ~ In "*" ds -> map (axis_pos W L c) ds = map (axis_pos W' L c) ds.
  Proof. intros. rewrite !map_pos_id; auto. Qed.

  Lemma has_dim_shape : forall (q : da T) L d n, shape (arr q) = map L (dims q) -> has_dim q d n -> n = L d /\ In d (dims q).
  Proof.
    intros q L d n Hs H. unfold has_dim in H. rewrite Hs in H. split. apply in_combine_map in H; auto. apply in_combine_l in H; auto.
  Qed.

  Lemma has_dim_In : forall (q : da T) (L : string -> nat) d, shape (arr q) = map L (dims q) -> In d (dims q) -> has_dim q d (L d).
  Proof.
    intros q L d Hs H. unfold has_dim. rewrite Hs. clear Hs. induction (dims q) as [|x l IH]; [destruct H|].
    destruct H as [->|H]; cbn; auto.
  Qed.

  Lemma expand_In : forall W ds d, In d ds -> d <> "*" -> In d (expand_dims W ds).
  Proof. intros W ds d H Hne. apply in_flat_map. exists d. split; auto. destruct (String.eqb_spec d "*"); [contradiction|left; auto]. Qed.

  Lemma expand_In_W : forall W ds d, In "*" ds -> In d W -> In d (expand_dims W ds).
  Proof. intros W ds d H Hd. apply in_flat_map. exists "*". split; auto. Qed.

  Theorem main_restore_extract : forall (st st' : state T) raw pd L,
    wf_state st -> wf_state st' -> wf_pdict pd -> NoDup (keys pd) ->
    NoDup (map (fun np => raw_name (fst np) (snd np)) pd) ->
    complete st pd -> ~ length_conflict st pd -> ~ unexpected_dim st pd -> no_repeated_dims st pd ->
    (forall name p u, In (name, p) pd -> p_units p = Some u -> exists x, parse u = Some x) ->
    (forall nm p ds a d n, listed st pd nm p ds a -> has_dim a d n -> L d = n) ->
    (forall name p ds, In (name, p) pd -> p_dims p = Some ds ->
       exists ra, dget (raw_name name p) raw = Some ra /\ wf_nd ra /\ shape ra = map (axis_len (wildcard_dims st pd) L) ds) ->
    exists out, restore_data_arrays_with_properties raw pd st pd [] false = Ok out /\
      ((forall name, In name (keys pd) -> exists q, dget name out = Some q /\ dget name st' = Some (VDA q)) ->
       exists raw', get_numpy_arrays_with_properties st' pd = Ok raw' /\
         keys raw' = map (fun np => raw_name (fst np) (snd np)) pd /\
         forall name p, In (name, p) pd -> dget (raw_name name p) raw' = dget (raw_name name p) raw).
  Proof.
    intros st st' raw pd L Hwf Hwf' Hwp Hnd Hndr Hc Hnc Hnu Hnr Hpu HL Hraw. set (W := wildcard_dims st pd) in *.
    assert (Hnig : forall name, ~ ignored raw pd [] false name) by (intros name [[]|(Hf & _)]; discriminate).
    assert (Hres : forall name p ds u ra, In (name, p) pd -> p_dims p = Some ds -> p_units p = Some u ->
              dget (raw_name name p) raw = Some ra -> shape ra = map (axis_len W L) ds -> restorable raw st pd pd L name p ds u ra).
    { intros name p ds u ra Hin Hds Hu Hra Hs. assert (Hg : dget name pd = Some p) by (apply dget_NoDup_In; auto).
      split; [exists p; split; auto|]. split; [eapply Hwp; eauto|]. split; auto.
      split; [rewrite (out_key_self name p) by auto; auto|]. split; auto. intros Hstar. exists name, p, ds. auto. }
    destruct (main_restore_ok st raw pd pd [] false L Hwf Hnd Hc Hnc Hnu HL) as (out & Ho & Hk & Hv).
    { intros name p Hp _. apply dget_In in Hp. destruct (Hc name p Hp) as ((ds & Hds) & (u & Hu) & _).
      destruct (Hraw name p ds Hp Hds) as (ra & Hra & _ & Hs). exists ds, u, ra. eapply Hres; eauto. }
    exists out. split; auto. intros Hst'.
    assert (Hq : forall name p ds u, In (name, p) pd -> p_dims p = Some ds -> p_units p = Some u -> exists q ra,
              dget name st' = Some (VDA q) /\ dget (raw_name name p) raw = Some ra /\ wf_nd ra /\ shape ra = map (axis_len W L) ds /\
              attrs q = [("units", u)] /\ dims q = expand_dims W ds /\ shape (arr q) = map L (dims q) /\
              forall c, da_at q c = at_ ra (map (axis_pos W L c) ds)).
    { intros name p ds u Hin Hds Hu. destruct (Hraw name p ds Hin Hds) as (ra & Hra & Hw & Hs).
      destruct (Hv name p ds u ra) as (q & Hq & Q1 & Q2 & Q3 & Q4); eauto. { apply dget_NoDup_In; auto. }
      destruct (Hst' name) as (q' & Hq' & Hs'). { apply (in_map fst) in Hin. exact Hin. }
      rewrite Hq in Hq'. injection Hq' as <-. exists q, ra. repeat (split; auto). }
    assert (HW : forall name p ds, In (name, p) pd -> p_dims p = Some ds -> In "*" ds -> wildcard_dims st' pd = W).
    { intros name p ds Hin Hds Hs. apply wildcard_restored; auto.
      - intros name' p' ds' Hin' Hds'. destruct (Hc name' p' Hin') as (_ & (u' & Hu') & _).
        destruct (Hq name' p' ds' u' Hin' Hds' Hu') as (q & ra & Hg & _ & _ & _ & _ & Hd & _). eauto.
      - exists name, p, ds. auto. }
    assert (Hlist : forall name p ds a, listed st' pd name p ds a -> dims a = expand_dims W ds /\ shape (arr a) = map L (dims a)).
    { intros name p ds a (Hin & Hds & Ha). destruct (Hc name p Hin) as (_ & (u & Hu) & _).
      destruct (Hq name p ds u Hin Hds Hu) as (q & ra & Hg & _ & _ & _ & _ & Hd & Hs & _). rewrite Hg in Ha. injection Ha as <-. auto. }
    assert (Hexp : forall name p ds, In (name, p) pd -> p_dims p = Some ds -> expand_dims (wildcard_dims st' pd) ds = expand_dims W ds).
    { intros name p ds Hin Hds. destruct (In_dec_str "*" ds) as [Hs|Hs]. rewrite (HW name p ds); auto.
      rewrite !expand_dims_none; auto. }
    destruct (extraction_succeeds st' pd) as (raw' & Hr'); auto.
    { intros name p Hin. destruct (Hc name p Hin) as ((ds & Hds) & (u & Hu) & _). split; eauto. split; eauto.
      destruct (Hq name p ds u Hin Hds Hu) as (q & _ & Hg & _). eauto. }
    { intros (n1 & p1 & ds1 & a1 & n2 & p2 & ds2 & a2 & d & l1 & l2 & H1 & H2 & D1 & D2 & Hne). apply Hne.
      apply Hlist in H1 as (_ & H1). apply Hlist in H2 as (_ & H2).
      apply (has_dim_shape _ L) in D1 as (-> & _); auto. apply (has_dim_shape _ L) in D2 as (-> & _); auto. }
    { intros (name & p & ds & a & d & H1 & Hd & Hnd' & Hs). apply Hlist in H1 as (H1 & _). rewrite H1, expand_dims_none in Hd; auto. }
    { intros name p ds u a Hin Hds Hu Ha. destruct (Hq name p ds u Hin Hds Hu) as (q & ra & Hg & _ & _ & _ & Hat & _).
      rewrite Hg in Ha. injection Ha as <-. split.
      - destruct (Hpu name p u Hin Hu) as (x & Hx). exists q. apply (to_units_own q u x); auto. rewrite Hat. reflexivity.
      - rewrite (Hexp name p ds Hin Hds). eapply Hnr; eauto. }
    exists raw'. split; auto. destruct (extraction_spec st' pd raw') as (L' & (HL' & _) & Hk' & Hx'); auto. split; auto.
    intros name p Hin. destruct (Hc name p Hin) as ((ds & Hds) & (u & Hu) & _).
    destruct (Hq name p ds u Hin Hds Hu) as (q & ra & Hg & Hra & Hw & Hs & Hat & Hd & Hsq & Hv').
    destruct (Hx' name p Hin) as (r & Hr & ds2 & u2 & a2 & q2 & E1 & E2 & E3 & E4 & E5 & E6 & E7).
    rewrite Hds in E1. injection E1 as <-. rewrite Hu in E2. injection E2 as <-. rewrite Hg in E3. injection E3 as <-.
    destruct (Hpu name p u Hin Hu) as (x & Hx). rewrite (to_units_own q u x) in E4; auto. 2: { rewrite Hat. reflexivity. }
    injection E4 as <-. rewrite Hr, Hra. f_equal.
    assert (HLL : forall d, In d (dims q) -> L' d = L d).
    { intros d Hin'. apply (HL' name p ds q d (L d)). { split; auto. } apply has_dim_In; auto. }
    assert (Hax : map (axis_len (wildcard_dims st' pd) L') ds = map (axis_len W L) ds).
    { apply map_ext_in. intros d Hin'. unfold axis_len. destruct (String.eqb_spec d "*") as [->|Hne].
      - rewrite (HW name p ds Hin Hds Hin'). f_equal. apply map_ext_in. intros w Hw'. apply HLL. rewrite Hd. apply expand_In_W; auto.
      - apply HLL. rewrite Hd. apply expand_In; auto. }
    assert (Hps : forall c, map (axis_pos (wildcard_dims st' pd) L' c) ds = map (axis_pos W L c) ds).
    { intros c. apply map_ext_in. intros d Hin'. unfold axis_pos. destruct (String.eqb_spec d "*") as [->|Hne]; auto.
      rewrite (HW name p ds Hin Hds Hin'). f_equal. apply map_ext_in. intros w Hw'. apply HLL. rewrite Hd. apply expand_In_W; auto. }
    apply nd_ext; auto. { rewrite E6, Hs. auto. }
    intros idx Hi. rewrite E6 in Hi.
    destruct (grid_surj (wildcard_dims st' pd) L' ds idx) as (c & Hgp & Hc'); auto. { eapply Hwp; eauto. }
    { rewrite (Hexp name p ds Hin Hds). eapply Hnr; eauto. }
    rewrite <- Hc' at 1. rewrite E7 by auto. rewrite Hv'. rewrite <- Hc', Hps. auto.
  Qed.
End RestoreExtract.
