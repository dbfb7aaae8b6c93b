(** Final forms for C18-C20. *)
From Coq Require Import String List Bool Arith ZArith QArith Qcanon Lia Permutation.
From Verif Require Import Prelude PreludeFacts ArithM NdArray NdFacts Units DataArrayM GetNp SpecUnits UnitsFacts SpecDa DaFacts
  Tracers Components CheckerFacts Composite SpecComposite KeyedFold CompositeFacts CombineFacts.
Import ListNotations.
Open Scope string_scope.
Open Scope nat_scope.
Open Scope list_scope.

(** ** Physical sums *)

Section Physical.
  Context {R : Registry}.
  Hypothesis Hsane : sane_registry R.

  Lemma converted_base : forall s1 s2 u1 u2 (x y : Qc), converted s1 s2 x y -> parse s1 = Some u1 -> parse s2 = Some u2 ->
    base_value u2 y = base_value u1 x.
  Proof.
    intros s1 s2 u1 u2 x y (v1 & v2 & P1 & P2 & Hd & Hc) H1 H2.
    assert (v1 = u1) by congruence. assert (v2 = u2) by congruence. subst v1 v2.
    destruct Hsane as [Hz Hone]. destruct Hc as [[E ->]|[E ->]].
    - apply one_eqb_eq in E as [_ E].
      assert (Hu : u1 = u2).
      { apply (Hone s1 s2); auto. }
      rewrite Hu. reflexivity.
    - apply uconv_base. eapply Hz; eauto.
  Qed.

  Lemma fold_base : forall u ys (x : Qc), u_off u = 0%Qc ->
    base_value u (fold_left aadd ys x) = (base_value u x + fold_right (fun y s => base_value u y + s) 0 ys)%Qc.
  Proof.
    intros u ys. induction ys as [|y ys IH]; intros x Hu; cbn [fold_left fold_right]; [ring|].
    rewrite IH by auto. unfold base_value. rewrite Hu. cbn [aadd ArithQc]. ring.
  Qed.

  Lemma sum_of_amounts : forall (a : da Qc) rest r, sum_of a rest r -> Forall plain_units (a :: rest) ->
    forall c, in_grid r c -> amount r c = sum_amounts (a :: rest) c.
  Proof.
    intros a rest r (Hw & Hat & _ & _ & Hv) Hp c Hc. destruct (Hv c Hc) as (ys & Hys & Er).
    inversion Hp as [|? ? (s & u & Hs & Pu & Hoff) Hrest]; subst.
    assert (Ea : forall x : da Qc, attrs x = attrs a -> amount x c = Some (base_value u (da_at x c))).
    { intros x Hx. unfold amount. rewrite Hx, Hs, Pu. reflexivity. }
    cbn [sum_amounts]. rewrite (Ea a eq_refl), (Ea r Hat), Er, fold_base by auto.
    assert (E : sum_amounts rest c = Some (fold_right (fun y s => base_value u y + s)%Qc 0%Qc ys)).
    { clear - Hys Hrest Hs Pu Hsane. induction Hys as [|b y rest ys (ub & ua & Hub & Hua & Hcv) Hys IH]; [reflexivity|].
      inversion Hrest as [|? ? (sb & vb & Hsb & Pb & _) Hr]; subst. cbn [sum_amounts fold_right]. rewrite IH by auto.
      unfold units_of in *. assert (ub = sb) by congruence. assert (ua = s) by congruence. subst.
      unfold amount. rewrite Hsb, Pb. rewrite (converted_base _ _ _ _ _ _ Hcv Pb Pu). reflexivity. }
    rewrite E. reflexivity.
  Qed.

  Lemma sum_amounts_perm : forall (l l' : list (da Qc)) c, Permutation l l' -> sum_amounts l c = sum_amounts l' c.
  Proof.
    intros l l' c H. induction H as [|x l l' H IH|x y l|l l' l'' H1 IH1 H2 IH2]; cbn [sum_amounts]; auto.
    - rewrite IH; auto.
    - destruct (amount x c), (amount y c), (sum_amounts l c); auto. f_equal. ring.
    - congruence.
  Qed.

  (** C18, physical form. *)
  Lemma composite_physical : forall {U} (cs : list (caller U)) u u' (st : state Qc) tout dout,
    tendency_composite_call cs u st = (u', Ok (tout, dout)) ->
    exists outs, runs st cs u u' outs /\
      (Forall proper (map fst outs) -> forall X r c, dget X tout = Some r ->
       Forall plain_units (contributions X (map fst outs)) -> in_grid r c ->
       amount r c = sum_amounts (contributions X (map fst outs)) c).
  Proof.
    intros U cs u u' st tout dout H. destruct (composite_sum cs u u' st tout dout H) as (outs & Hr & Hs).
    exists outs. split; auto. intros Hp X r c Hx Hpl Hc. specialize (Hs Hp X).
    destruct (contributions X (map fst outs)) as [|a rest]; [congruence|].
    destruct Hs as (r' & Hr' & Hsum). assert (r' = r) by congruence. subst. apply sum_of_amounts; auto.
  Qed.
End Physical.

(** ** C19 *)

Lemma runs_stateless : forall {T O} (st : state T) (fs : list (state T -> res O)) u u' outs,
  runs st (map stateless fs) u u' outs <-> Forall2 (fun f o => f st = Ok o) fs outs.
Proof.
  intros T O st fs. induction fs as [|f fs IH]; intros [] [] outs; cbn [map]; split; intros H.
  - inversion H; constructor.
  - inversion H; subst. constructor.
  - inversion H as [|? ? ? u1 ? td outs' Hc Hr]; subst. unfold stateless in Hc. injection Hc as <- Hc.
    constructor; auto. apply IH in Hr. auto.
  - inversion H as [|? td ? outs' Hc Hr]; subst. econstructor; [unfold stateless; rewrite Hc; reflexivity|]. apply IH; auto.
Qed.

Lemma Forall2_perm : forall {B C} (P : B -> C -> Prop) l l' o, Permutation l l' -> Forall2 P l o ->
  exists o', Permutation o o' /\ Forall2 P l' o'.
Proof.
  intros B C P l l' o H. revert o. induction H as [|x l l' H IH|x y l|l l' l'' H1 IH1 H2 IH2]; intros o Ho.
  - inversion Ho; subst. exists []. split; constructor.
  - inversion Ho as [|? b ? o1 Hb Ho1]; subst. destruct (IH _ Ho1) as (o' & Hp & Hf). exists (b :: o'). split; constructor; auto.
  - inversion Ho as [|? b ? o1 Hb Ho1]; subst. inversion Ho1 as [|? b2 ? o2 Hb2 Ho2]; subst.
    exists (b2 :: b :: o2). split; [apply perm_swap|repeat constructor; auto].
  - destruct (IH1 _ Ho) as (o1 & Hp1 & Hf1). destruct (IH2 _ Hf1) as (o2 & Hp2 & Hf2).
    exists o2. split; auto. eapply perm_trans; eauto.
Qed.

Lemma contributions_perm : forall {T} X (l l' : list (dict (da T))), Permutation l l' ->
  Permutation (contributions X l) (contributions X l').
Proof. intros T X l l' H. unfold contributions. apply Permutation_flat_map; auto. Qed.

Section Addable.
  Context {T : Type} {A : Arith T} {R : Registry}.

  Lemma addable_perm : forall l l' : list (da T), Permutation l l' -> addable l -> addable l'.
  Proof.
    intros l l' H [Hle|[(dim & Hd) Hm]].
    - left. rewrite <- (Permutation_length H). auto.
    - right. assert (Hi : forall a, In a l' -> In a l) by (intros a; apply Permutation_in, Permutation_sym; auto).
      split; [exists dim|]; auto.
  Qed.

  Lemma first_len_spec : forall (l : list (da T)) d,
    match first_len d l with
    | Some n => exists a, In a l /\ dim_len a d = Some n
    | None => forall a, In a l -> dim_len a d = None
    end.
  Proof.
    induction l as [|a l IH]; intros d; cbn [first_len]; [intros ? []|].
    destruct (dim_len a d) eqn:E; [exists a; simpl; auto|]. specialize (IH d).
    destruct (first_len d l); [destruct IH as (b & Hb & Eb); exists b; simpl; auto|].
    intros b [<-|Hb]; auto.
  Qed.

  Lemma first_len_perm : forall (l l' : list (da T)) d, Permutation l l' -> addable l -> first_len d l = first_len d l'.
  Proof.
    intros l l' d H Ha. pose proof (first_len_spec l d) as S1. pose proof (first_len_spec l' d) as S2.
    assert (Hm : forall a b, In a l -> In b l -> sizes_match a b).
    { destruct Ha as [Hle|[_ Hm]]; auto. intros a b H1 H2. destruct l as [|x [|y l]]; [destruct H1| |simpl in Hle; lia].
      destruct H1 as [<-|[]], H2 as [<-|[]]. intros e n m; congruence. }
    assert (Hi : forall a, In a l' <-> In a l).
    { intros a; split; apply Permutation_in; auto. apply Permutation_sym; auto. }
    destruct (first_len d l) as [n|], (first_len d l') as [m|]; auto.
    - destruct S1 as (a & H1 & E1). destruct S2 as (b & H2 & E2). apply Hi in H2. f_equal. apply (Hm a b H1 H2 d); auto.
    - destruct S1 as (a & H1 & E1). rewrite (S2 a (proj2 (Hi a) H1)) in E1. discriminate.
    - destruct S2 as (a & H1 & E1). apply Hi in H1. rewrite (S1 a H1) in E1. discriminate.
  Qed.
End Addable.

Lemma composite_order : forall {R : Registry} (fs fs' : list (state Qc -> res outcome)) (st : state Qc) tout dout,
  sane_registry R -> Permutation fs fs' ->
  (forall f t d, In f fs -> f st = Ok (t, d) -> proper t /\ forall X a, dget X t = Some a -> plain_units a) ->
  tendency_composite_call (map stateless fs) tt st = (tt, Ok (tout, dout)) ->
  exists tout' dout', tendency_composite_call (map stateless fs') tt st = (tt, Ok (tout', dout')) /\
    agree same_amounts tout tout'.
Proof.
  intros R fs fs' st tout dout Hsane Hperm Hgood H.
  destruct (composite_sum _ _ _ _ _ _ H) as (outs & Hr & Hs).
  pose proof Hr as Hr0. apply runs_stateless in Hr.
  destruct (Forall2_perm _ _ _ _ Hperm Hr) as (outs' & Hp & Hr'). 
  apply (runs_stateless st fs' tt tt) in Hr'.
  assert (Hpr : Forall proper (map fst outs) /\ forall X, Forall plain_units (contributions X (map fst outs))).
  { assert (G : forall o, In o outs -> proper (fst o) /\ forall X a, dget X (fst o) = Some a -> plain_units a).
    { clear - Hr Hgood. induction Hr as [|f [t d] fs outs Hf Hr IH]; intros o []; subst.
      - cbn [fst]. apply (Hgood f t d); simpl; auto.
      - apply IH; auto. intros; eapply Hgood; simpl; eauto. }
    split.
    - apply Forall_forall. intros x Hx. apply in_map_iff in Hx as (o & <- & Ho). apply G; auto.
    - intros X. apply Forall_forall. intros a Ha. unfold contributions in Ha. apply in_flat_map in Ha as (t & Ht & Ha).
      apply in_map_iff in Ht as (o & <- & Ho). destruct (dget X (fst o)) eqn:E; [|destruct Ha].
      destruct Ha as [<-|[]]. eapply G; eauto. }
  destruct Hpr as [Hpr Hpl].
  assert (Hpr' : Forall proper (map fst outs')).
  { eapply Permutation_Forall; [|apply Hpr]. apply Permutation_map; auto. }
  assert (Hpc : forall X, Permutation (contributions X (map fst outs)) (contributions X (map fst outs'))).
  { intros X. apply contributions_perm, Permutation_map; auto. }
  assert (Had : forall X, addable (contributions X (map fst outs))).
  { apply (composite_returns _ _ _ _ _ Hr0 Hpr). eauto. }
  assert (Hret : exists td, tendency_composite_call (map stateless fs') tt st = (tt, Ok td)).
  { apply (composite_returns _ _ _ _ _ Hr' Hpr'). intros X. eapply addable_perm; eauto. }
  destruct Hret as ([tout' dout'] & H'). exists tout', dout'. split; auto.
  destruct (composite_sum _ _ _ _ _ _ H') as (outs2 & Hr2 & Hs2).
  assert (outs2 = outs').
  { apply runs_stateless in Hr2, Hr'. clear - Hr2 Hr'. revert outs2 Hr2.
    induction Hr' as [|f o fs outs Hf Hr IH]; intros outs2 H2; inversion H2; subst; auto. f_equal; [congruence|auto]. }
  subst outs2. intros X. specialize (Hs Hpr X). specialize (Hs2 Hpr' X). specialize (Hpc X).
  specialize (Hpl X). specialize (Had X).
  assert (Hpl' : Forall plain_units (contributions X (map fst outs'))) by (eapply Permutation_Forall; eauto).
  destruct (contributions X (map fst outs)) as [|a rest] eqn:E1.
  - apply Permutation_nil in Hpc. rewrite Hpc in Hs2. rewrite Hs, Hs2. exact I.
  - destruct (contributions X (map fst outs')) as [|a' rest'] eqn:E2.
    { apply Permutation_sym, Permutation_nil in Hpc. discriminate. }
    destruct Hs as (r & Hr1 & Hsum). destruct Hs2 as (r' & Hr1' & Hsum'). rewrite Hr1, Hr1'.
    assert (Hl : forall d, dim_len r d = dim_len r' d).
    { intros d. destruct Hsum as (_ & _ & _ & L1 & _). destruct Hsum' as (_ & _ & _ & L2 & _).
      rewrite L1, L2. apply first_len_perm; auto. }
    split; auto. intros c Hc. assert (Hc' : in_grid r' c) by (intros d n Hd; apply Hc; rewrite Hl; auto).
    rewrite (sum_of_amounts Hsane a rest r Hsum Hpl c Hc), (sum_of_amounts Hsane a' rest' r' Hsum' Hpl' c Hc').
    apply sum_amounts_perm; auto.
Qed.

(** ** C20 *)

Section Shared.
  Context {V : Type}.

  Lemma shared_key_cons : forall (d : dict V) l k,
    shared_key (d :: l) k <-> (In k (keys d) /\ exists e, In e l /\ In k (keys e)) \/ shared_key l k.
  Proof.
    intros d l k. split.
    - intros (l1 & d1 & l2 & d2 & l3 & E & H1 & H2). destruct l1 as [|x l1]; cbn [app] in E; injection E as -> E.
      + left. split; auto. exists d2. split; auto. rewrite E. apply in_app_iff; simpl; auto.
      + right. exists l1, d1, l2, d2, l3. auto.
    - intros [(H1 & e & He & H2)|(l1 & d1 & l2 & d2 & l3 & -> & H1 & H2)].
      + apply in_split in He as (l2 & l3 & ->). exists [], d, l2, e, l3. auto.
      + exists (d :: l1), d1, l2, d2, l3. auto.
  Qed.

  Lemma shared_key_app : forall (l l' : list (dict V)) k,
    shared_key (l ++ l') k <-> shared_key l k \/ shared_key l' k \/
      ((exists d, In d l /\ In k (keys d)) /\ (exists e, In e l' /\ In k (keys e))).
  Proof.
    induction l as [|d l IH]; intros l' k; cbn [app].
    - split; [auto|]. intros [H|[H|((d & [] & _) & _)]]; auto.
      destruct H as (l1 & d1 & l2 & d2 & l3 & E & _). destruct l1; discriminate.
    - rewrite !shared_key_cons, IH. split.
      + intros [(H1 & e & He & H2)|[H|[H|((x & Hx & H1) & H2)]]]; auto.
        * apply in_app_iff in He as [He|He]; [left; left; eauto|]. right; right. split; [exists d; simpl; auto|eauto].
        * right; right. split; auto. exists x. simpl; auto.
      + intros [[(H1 & e & He & H2)|H]|[H|((x & [<-|Hx] & H1) & (e & He & H2))]]; auto.
        * left. split; auto. exists e. rewrite in_app_iff; auto.
        * left. split; auto. exists e. rewrite in_app_iff; auto.
        * right; right; right. split; eauto.
  Qed.

  Lemma ensure_iff : forall {W} (d1 : dict V) (d2 : dict W),
    (ensure_no_shared_keys d1 d2 = Ok tt /\ forall k, In k (keys d1) -> ~ In k (keys d2)) \/
    (ensure_no_shared_keys d1 d2 = Err ESharedKey /\ exists k, In k (keys d1) /\ In k (keys d2)).
  Proof.
    intros W d1 d2. unfold ensure_no_shared_keys. destruct (existsb _ (keys d1)) eqn:E; cbn [raise_if].
    - right. split; auto. apply existsb_exists in E as (k & H1 & H2). apply dmem_In in H2. eauto.
    - left. split; auto. intros k H1 H2. assert (existsb (fun k => dmem k d2) (keys d1) = true); [|congruence].
      apply existsb_exists. exists k. split; auto. apply dmem_In; auto.
  Qed.
End Shared.

(** Merging dictionaries that share no name. *)
Lemma union_step : forall {V} (acc d : dict V) seen, union_of seen acc -> NoDup (keys d) ->
  (forall k, In k (keys acc) -> ~ In k (keys d)) -> union_of (seen ++ [d]) (dupdate acc d).
Proof.
  intros V acc d seen Hu Hn Hd X v. rewrite dget_dupdate by auto. split.
  - destruct (dget X d) eqn:E; intros H.
    + injection H as <-. exists d. rewrite in_app_iff; simpl; auto.
    + apply Hu in H as (e & He & H). exists e. rewrite in_app_iff; auto.
  - intros (e & He & H). apply in_app_iff in He as [He|[<-|[]]].
    + assert (Hx : dget X acc = Some v) by (apply Hu; eauto).
      replace (dget X d) with (@None V); auto. symmetry. apply dget_none. apply Hd. eapply dget_In_keys; eauto.
    + rewrite H. reflexivity.
Qed.

Lemma union_keys : forall {V} (seen : list (dict V)) acc k, union_of seen acc ->
  (In k (keys acc) <-> exists d, In d seen /\ In k (keys d)).
Proof.
  intros V seen acc k Hu. split.
  - intros H. apply In_keys_dget in H as (v & H). apply Hu in H as (e & He & H). exists e. split; auto. eapply dget_In_keys; eauto.
  - intros (d & Hd & H). apply In_keys_dget in H as (v & H). eapply dget_In_keys. apply Hu. eauto.
Qed.

Section Declared.
  Context {R : Registry}.
  Variable ord : list string -> list string.

  Lemma merge_spec : forall cs seen acc, union_of seen acc -> (forall k, ~ shared_key seen k) ->
    (forall c, In c cs -> NoDup (keys (cp_diag c))) ->
    match foldM merge_step cs acc with
    | Ok d => union_of (seen ++ map cp_diag cs) d /\ forall k, ~ shared_key (seen ++ map cp_diag cs) k
    | Err e => e = ESharedKey /\ exists k, shared_key (seen ++ map cp_diag cs) k
    end.
  Proof.
    induction cs as [|c cs IH]; intros seen acc Hu Hn Hd; cbn [foldM map].
    - rewrite app_nil_r. auto.
    - unfold merge_step at 1. destruct (ensure_iff (cp_diag c) acc) as [[-> Hk]|[-> Hk]]; cbn [bind].
      + assert (Hu' := union_step acc (cp_diag c) seen Hu (Hd c (or_introl eq_refl)) (fun k H1 H2 => Hk k H2 H1)).
        assert (Hn' : forall k, ~ shared_key (seen ++ [cp_diag c]) k).
        { intros k Hs. apply shared_key_app in Hs as [Hs|[Hs|((d & Hd1 & H1) & (e & [<-|[]] & H2))]].
          - eapply Hn; eauto.
          - apply shared_key_cons in Hs as [(_ & e & [] & _)|Hs].
            destruct Hs as (l1 & d1 & l2 & d2 & l3 & E & _). destruct l1; discriminate.
          - apply (Hk k); auto. apply (union_keys seen acc k Hu). eauto. }
        specialize (IH _ _ Hu' Hn' (fun x Hx => Hd x (or_intror Hx))). rewrite <- app_assoc in IH. exact IH.
      + split; auto. destruct Hk as (k & H1 & H2). exists k. apply shared_key_app. right; right.
        split; [|exists (cp_diag c); simpl; auto]. apply (union_keys seen acc k Hu). auto.
  Qed.

  (** What is not a SharedKeyError. *)
  Definition unshared {B} (r : res B) : Prop := r <> Err ESharedKey.

  Lemma unshared_bind : forall {B C} (r : res B) (f : B -> res C), unshared r -> (forall x, unshared (f x)) -> unshared (bind r f).
  Proof. intros B C [x|e] f H1 H2; cbn; [apply H2|]. unfold unshared in *. congruence. Qed.

  Lemma unshared_fold : forall {B C} (f : C -> B -> res C) l s, (forall s x, unshared (f s x)) -> unshared (foldM f l s).
  Proof.
    intros B C f l. induction l as [|x l IH]; intros s H; cbn [foldM]; [discriminate|].
    apply unshared_bind; auto.
  Qed.

  Lemma unshared_mapM : forall {B C} (f : B -> res C) l, (forall x, unshared (f x)) -> unshared (mapM f l).
  Proof.
    intros B C f l H. induction l as [|x l IH]; cbn [mapM]; [discriminate|].
    apply unshared_bind; auto. intros y. apply unshared_bind; auto. discriminate.
  Qed.

  Ltac unsh := repeat first
    [ progress (intros)
    | apply unshared_bind
    | apply unshared_fold
    | apply unshared_mapM
    | match goal with
      | |- unshared (Ok _) => discriminate
      | |- unshared (Err _) => discriminate
      | |- unshared (raise_if ?b _) => destruct b; discriminate
      | |- unshared (if ?b then _ else _) => destruct b
      | |- unshared (match ?x with _ => _ end) => destruct x
      | |- unshared (let (_, _) := ?x in _) => destruct x
      end ].

  Lemma unshared_combine_dims : forall d1 d2, unshared (combine_dims ord d1 d2).
  Proof. intros. unfold combine_dims. unsh. Qed.

  Lemma unshared_compatible : forall u1 u2, unshared (units_are_compatible u1 u2).
  Proof. intros. unfold units_are_compatible, parseE. unsh. Qed.

  Lemma unshared_combine : forall l inp, unshared (combine_properties ord l inp).
  Proof.
    intros. unfold combine_properties. apply unshared_fold. intros s x. unfold combine_step.
    destruct x as [name p].
    destruct (dget name s); [|unfold resolve_dims; unsh].
    destruct (p_units p); [|discriminate]. destruct (p_units p0); [|discriminate].
    apply unshared_bind; [apply unshared_compatible|]. intros b. destruct (negb b); [discriminate|].
    apply unshared_bind; [unfold resolve_dims; unsh|]. intros new.
    apply unshared_bind; [unsh|]. intros old. apply unshared_bind; [apply unshared_combine_dims|]. discriminate.
  Qed.

  Lemma unshared_inputs : forall g cs, unshared (composite_inputs ord g cs).
  Proof.
    intros. unfold composite_inputs, input_dicts. apply unshared_bind; [unsh|]. intros l. apply unshared_combine.
  Qed.

  Lemma unshared_tendencies : forall g cs, unshared (composite_tendencies ord g cs).
  Proof. intros. unfold composite_tendencies. apply unshared_bind; [apply unshared_inputs|]. intros; apply unshared_combine. Qed.

  Lemma unshared_overlap : forall pd, unshared (check_overlapping_aliases pd).
  Proof. intros. unfold check_overlapping_aliases. unsh. Qed.

  Lemma unshared_check_input : forall inp, unshared (check_input_properties inp).
  Proof. intros. unfold check_input_properties. apply unshared_bind; [unsh|]. intros; apply unshared_overlap. Qed.

  Lemma unshared_output_entries : forall o i, unshared (check_output_entries o i).
  Proof. intros. unfold check_output_entries. unsh. Qed.

  Lemma unshared_check_compatible : forall f i o, unshared (check_compatible f i o).
  Proof.
    intros. unfold check_compatible. apply unshared_fold. intros s x. destruct (dget (fst x) o); [|discriminate].
    destruct (p_units (snd x)); [|discriminate]. destruct (p_units p); [|discriminate].
    apply unshared_bind; [apply unshared_compatible|]. unsh.
  Qed.

  Lemma unshared_check_tendency : forall t i, unshared (check_tendency_properties t i).
  Proof.
    intros. unfold check_tendency_properties. apply unshared_bind; [apply unshared_output_entries|]. intros.
    apply unshared_bind; [apply unshared_overlap|]. intros. apply unshared_check_compatible.
  Qed.

  Lemma unshared_check_diagnostic : forall t i, unshared (check_diagnostic_properties t i).
  Proof.
    intros. unfold check_diagnostic_properties. apply unshared_bind; [apply unshared_output_entries|]. intros.
    apply unshared_bind; [apply unshared_check_compatible|]. intros. apply unshared_overlap.
  Qed.

  Lemma composite_diagnostics_spec : forall g cs, (forall c, In c cs -> NoDup (keys (cp_diag c))) ->
    (composite_diagnostics ord g cs = Err ESharedKey <-> exists k, shared_key (map cp_diag cs) k) /\
    forall d, composite_diagnostics ord g cs = Ok d -> union_of (map cp_diag cs) d.
  Proof.
    intros g cs Hn. unfold composite_diagnostics.
    assert (H := merge_spec cs [] []). cbn [app] in H.
    assert (Hu : union_of [] (@nil (string * props))) by (intros X v; split; [discriminate|intros (e & [] & _)]).
    assert (Hs : forall k, ~ @shared_key props [] k).
    { intros k (l1 & d1 & l2 & d2 & l3 & E & _). destruct l1; discriminate. }
    specialize (H Hu Hs Hn). fold (merged_diagnostics cs) in H. destruct (merged_diagnostics cs) as [d|e]; cbn [bind].
    - destruct H as [H1 H2]. split.
      + split; [|intros (k & Hk); exfalso; eapply H2; eauto]. intros E. exfalso. revert E.
        apply unshared_bind; [|intros; unfold unshared; discriminate]. apply unshared_fold. intros s np. destruct (p_dims (snd np)); [unfold unshared; discriminate|].
        apply unshared_bind; [apply unshared_inputs|]. intros i. destruct (negb _); unfold unshared; discriminate.
      + intros d' E. apply bind_ok in E as (x & _ & E). injection E as <-. exact H1.
    - destruct H as [-> H]. split; [tauto|discriminate].
  Qed.

  Lemma accepted_classes : forall (cs : list (bool * cprops)), (forall c, In c cs -> fst c = true) ->
    existsb (fun c => negb (fst c)) cs = false.
  Proof.
    intros cs H. destruct (existsb _ cs) eqn:E; auto. apply existsb_exists in E as (c & Hc & E). rewrite H in E by auto. discriminate.
  Qed.

  Lemma tendency_construction_shared : forall implicit g cs inp,
    (forall c, In c cs -> NoDup (keys (cp_diag (snd c)))) -> (forall c, In c cs -> fst c = true) ->
    composite_inputs ord g (map snd cs) = Ok inp ->
    (make_tendency_composite ord implicit g cs = Err ESharedKey <-> exists k, shared_key (map cp_diag (map snd cs)) k).
  Proof.
    intros implicit g cs inp Hn Hc Hi. unfold make_tendency_composite. rewrite accepted_classes by auto. cbn [raise_if bind].
    rewrite Hi. cbn [bind].
    destruct (composite_diagnostics_spec g (map snd cs)) as [H1 H2].
    { intros c Hin. apply in_map_iff in Hin as (x & <- & Hx). auto. }
    destruct (composite_diagnostics ord g (map snd cs)) as [d|e]; cbn [bind].
    - split; [|rewrite <- H1; discriminate]. intros E. exfalso. revert E.
      apply unshared_bind; [apply unshared_check_input|]. intros _.
      destruct implicit; (apply unshared_bind; [|intros; unfold unshared; discriminate]).
      + apply unshared_bind; [apply unshared_check_diagnostic|]. intros _.
        apply unshared_bind; [apply unshared_tendencies|]. intros t.
        apply unshared_bind; [apply unshared_check_tendency|]. intros; unfold unshared; discriminate.
      + apply unshared_bind; [apply unshared_tendencies|]. intros t.
        apply unshared_bind; [apply unshared_check_tendency|]. intros _.
        apply unshared_bind; [apply unshared_check_diagnostic|]. intros; unfold unshared; discriminate.
    - rewrite <- H1. split; intros E; injection E as ->; reflexivity.
  Qed.

  Lemma diagnostic_construction_shared : forall g cs inp,
    (forall c, In c cs -> NoDup (keys (cp_diag (snd c)))) -> (forall c, In c cs -> fst c = true) ->
    composite_inputs ord g (map snd cs) = Ok inp ->
    (make_diagnostic_composite ord g cs = Err ESharedKey <-> exists k, shared_key (map cp_diag (map snd cs)) k).
  Proof.
    intros g cs inp Hn Hc Hi. unfold make_diagnostic_composite. rewrite accepted_classes by auto. cbn [raise_if bind].
    rewrite Hi. cbn [bind].
    destruct (composite_diagnostics_spec g (map snd cs)) as [H1 H2].
    { intros c Hin. apply in_map_iff in Hin as (x & <- & Hx). auto. }
    destruct (composite_diagnostics ord g (map snd cs)) as [d|e]; cbn [bind].
    - split; [|rewrite <- H1; discriminate]. intros E. exfalso. revert E.
      apply unshared_bind; [apply unshared_check_input|]. intros _.
      apply unshared_bind; [apply unshared_check_diagnostic|]. intros; unfold unshared; discriminate.
    - rewrite <- H1. split; intros E; injection E as ->; reflexivity.
  Qed.

  (** A constructed composite has exactly the diagnostics its components declare. *)
  Lemma tendency_construction_union : forall implicit g cs c,
    (forall c, In c cs -> NoDup (keys (cp_diag (snd c)))) -> make_tendency_composite ord implicit g cs = Ok c ->
    (forall k, ~ shared_key (map cp_diag (map snd cs)) k) /\ union_of (map cp_diag (map snd cs)) (t_diag c).
  Proof.
    intros implicit g cs c Hn H. unfold make_tendency_composite in H.
    apply bind_ok in H as (_ & _ & H). apply bind_ok in H as (inp & Hi & H).
    apply bind_ok in H as (diag & Hd & H). apply bind_ok in H as (_ & _ & H). apply bind_ok in H as (tend & _ & H).
    injection H as <-. cbn [t_diag].
    destruct (composite_diagnostics_spec g (map snd cs)) as [H1 H2].
    { intros c Hin. apply in_map_iff in Hin as (x & <- & Hx). auto. }
    split; auto. intros k Hk. assert (E : composite_diagnostics ord g (map snd cs) = Err ESharedKey) by (apply H1; eauto). congruence.
  Qed.

  Lemma diagnostic_construction_union : forall g cs c,
    (forall c, In c cs -> NoDup (keys (cp_diag (snd c)))) -> make_diagnostic_composite ord g cs = Ok c ->
    (forall k, ~ shared_key (map cp_diag (map snd cs)) k) /\ union_of (map cp_diag (map snd cs)) (d_diag c).
  Proof.
    intros g cs c Hn H. unfold make_diagnostic_composite in H.
    apply bind_ok in H as (_ & _ & H). apply bind_ok in H as (inp & Hi & H).
    apply bind_ok in H as (diag & Hd & H). apply bind_ok in H as (_ & _ & H). apply bind_ok in H as (_ & _ & H).
    injection H as <-. cbn [d_diag].
    destruct (composite_diagnostics_spec g (map snd cs)) as [H1 H2].
    { intros c Hin. apply in_map_iff in Hin as (x & <- & Hx). auto. }
    split; auto. intros k Hk. assert (E : composite_diagnostics ord g (map snd cs) = Err ESharedKey) by (apply H1; eauto). congruence.
  Qed.
End Declared.

(** Results that stay within what was declared share no name. *)
Lemma within_unshared : forall {V W} (decl : list (dict V)) (got : list (dict W)),
  Forall2 (fun d g => forall k, In k (keys g) -> In k (keys d)) decl got ->
  forall k, shared_key got k -> shared_key decl k.
Proof.
  intros V W decl got H k. induction H as [|d g decl got Hd H IH].
  - intros (l1 & d1 & l2 & d2 & l3 & E & _). destruct l1; discriminate.
  - rewrite !shared_key_cons. intros [(H1 & e & He & H2)|Hs]; auto. left. split; auto.
    clear - H He H2. induction H as [|d' g' decl got Hd' H IH]; [destruct He|].
    destruct He as [<-|He]; [exists d'; simpl; auto|]. destruct (IH He) as (x & Hx & Hk). exists x. simpl; auto.
Qed.

Lemma fold_dupdate_union : forall {V} (l seen : list (dict V)) acc, union_of seen acc ->
  (forall d, In d l -> NoDup (keys d)) -> (forall k, ~ shared_key (seen ++ l) k) ->
  union_of (seen ++ l) (fold_left dupdate l acc).
Proof.
  intros V l. induction l as [|d l IH]; intros seen acc Hu Hn Hs; cbn [fold_left].
  - rewrite app_nil_r. auto.
  - replace (seen ++ d :: l) with ((seen ++ [d]) ++ l) in * by (rewrite <- app_assoc; reflexivity).
    apply IH; auto; [|intros x Hx; apply Hn; right; auto].
    apply union_step; auto; [apply Hn; left; auto|]. intros k H1 H2.
    apply (Hs k). apply shared_key_app. left. apply shared_key_app. right; right.
    split; [apply (union_keys seen acc k Hu); auto|exists d; simpl; auto].
Qed.

Section Kept.
  Context {T : Type} {A : Arith T} {R : Registry}.

  (** Diagnostics of a tendency composite. *)
  Lemma tendency_diagnostics_kept : forall {U} (cs : list (caller U)) (decl : list pdict) u u' (st : state T) tout dout,
    tendency_composite_call cs u st = (u', Ok (tout, dout)) -> (forall k, ~ shared_key decl k) ->
    exists outs, runs st cs u u' outs /\
      (Forall2 (fun d o => NoDup (keys (snd o)) /\ forall k, In k (keys (snd o)) -> In k (keys d)) decl outs ->
       union_of (map snd outs) dout).
  Proof.
    intros U cs decl u u' st tout dout H Hs. unfold tendency_composite_call in H.
    destruct (loop_get st cs u u' [] [] tout dout H) as (outs & Hr & Hd & _). exists outs. split; auto.
    intros Hw. subst dout. apply (fold_dupdate_union (map snd outs) [] []).
    - intros X v; split; [discriminate|intros (e & [] & _)].
    - intros d Hd. apply in_map_iff in Hd as (o & <- & Ho). clear - Hw Ho.
      induction Hw as [|d x decl outs [Hn _] Hw IH]; [destruct Ho|]. destruct Ho as [<-|Ho]; auto.
    - cbn [app]. intros k Hk. apply (Hs k). revert Hk. apply within_unshared.
      clear - Hw. induction Hw as [|d x decl outs [_ Hn] Hw IH]; cbn [map]; constructor; auto.
  Qed.

  (** Calls of a diagnostic composite. *)
  Lemma diagnostic_loop_spec : forall {U} (cs : list (dcaller U)) (st : state T) u u' outs, runs st cs u u' outs ->
    (forall d, In d outs -> NoDup (keys d)) -> forall seen acc, union_of seen acc -> (forall k, ~ shared_key seen k) ->
    ((forall k, ~ shared_key (seen ++ outs) k) /\
       (exists d, diagnostic_loop cs u st acc = (u', Ok d) /\ union_of (seen ++ outs) d)) \/
    ((exists k, shared_key (seen ++ outs) k) /\ snd (diagnostic_loop cs u st acc) = Err ESharedKey).
  Proof.
    intros U cs st u u' outs Hr. induction Hr as [u|c cs u u1 u2 d outs Hc Hr IH]; intros Hn seen acc Hu Hs.
    - rewrite app_nil_r. cbn [diagnostic_loop]. left. eauto.
    - cbn [diagnostic_loop]. rewrite Hc. cbn [bind].
      replace (seen ++ d :: outs) with ((seen ++ [d]) ++ outs) by (rewrite <- app_assoc; reflexivity).
      destruct (ensure_iff acc d) as [[-> Hk]|[-> Hk]]; cbn [bind].
      + apply IH.
        * intros x Hx. apply Hn; right; auto.
        * apply union_step; auto. apply Hn; left; auto.
        * intros k Hk2. apply shared_key_app in Hk2 as [Hk2|[Hk2|((x & Hx & H1) & (e & [<-|[]] & H2))]].
          -- eapply Hs; eauto.
          -- apply shared_key_cons in Hk2 as [(_ & e & [] & _)|Hk2].
             destruct Hk2 as (l1 & d1 & l2 & d2 & l3 & E & _). destruct l1; discriminate.
          -- apply (Hk k); auto. apply (union_keys seen acc k Hu). eauto.
      + right. split; auto. destruct Hk as (k & H1 & H2). exists k. apply shared_key_app. left. apply shared_key_app.
        right; right. split; [apply (union_keys seen acc k Hu); auto|exists d; simpl; auto].
  Qed.

  Lemma diagnostic_call_spec : forall {U} (cs : list (dcaller U)) (st : state T) u u' outs, runs st cs u u' outs ->
    (forall d, In d outs -> NoDup (keys d)) ->
    ((forall k, ~ shared_key outs k) /\
       (exists d, diagnostic_composite_call cs u st = (u', Ok d) /\ union_of outs d)) \/
    ((exists k, shared_key outs k) /\ snd (diagnostic_composite_call cs u st) = Err ESharedKey).
  Proof.
    intros U cs st u u' outs Hr Hn. apply (diagnostic_loop_spec cs st u u' outs Hr Hn [] []).
    - intros X v; split; [discriminate|intros (e & [] & _)].
    - intros k (l1 & d1 & l2 & d2 & l3 & E & _). destruct l1; discriminate.
  Qed.
End Kept.
