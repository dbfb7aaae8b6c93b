(** The contents of the files written by NetCDFMonitor (C53). *)
From Coq Require Import String List Bool Arith ZArith Sorting Permutation Lia.
From Verif Require Import Prelude PreludeFacts ArithM NdArray NdFacts DataArrayM GetNpFacts StrFun NetCDF SpecNetCDF NetCDFKeeps.
Import ListNotations.
Open Scope string_scope.
Open Scope nat_scope.
Open Scope list_scope.

Section Cache.
  Context {T : Type} {A : Arith T} {N : NcLib T}.

  (** ** The cache *)

  Lemma tget_In : forall t s (c : cache_t T), NoDup (map fst c) -> (In (t, s) c <-> tget t c = Some s).
  Proof.
    intros t s c. induction c as [|[t' s'] c IH]; cbn [map fst tget In]; intros Nd. split; [tauto|discriminate]. inversion Nd as [|? ? Ha Nd']; subst.
    destruct (Z.eqb t t') eqn:E.
    - apply Z.eqb_eq in E. subst. split. intros [H|H]. injection H as <-; auto. exfalso. apply Ha. change t' with (fst (t', s)). apply in_map. auto.
      intros H. injection H as <-. auto.
    - apply Z.eqb_neq in E. rewrite IH by auto. split; auto. intros [H|H]; auto. injection H as <- _. contradiction E; auto.
  Qed.

  Lemma tget_None : forall t (c : cache_t T), tget t c = None <-> ~ In t (map fst c).
  Proof.
    intros t c. induction c as [|[t' s'] c IH]; cbn [map fst tget In]. tauto. destruct (Z.eqb t t') eqn:E.
    - apply Z.eqb_eq in E. subst. split. discriminate. tauto.
    - apply Z.eqb_neq in E. rewrite IH. intuition congruence.
  Qed.

  Lemma tget_tset : forall t t' s (c : cache_t T), tget t (tset t' s c) = if Z.eqb t t' then Some s else tget t c.
  Proof.
    intros t t' s c. induction c as [|[t0 s0] c IH]; cbn [tset tget]. destruct (Z.eqb t t'); auto.
    destruct (Z.eqb t' t0) eqn:E; cbn [tget].
    - apply Z.eqb_eq in E. subst. destruct (Z.eqb t t0); auto.
    - rewrite IH. destruct (Z.eqb t t0) eqn:E2; auto. apply Z.eqb_eq in E2. subst. rewrite Z.eqb_sym, E. auto.
  Qed.

  Lemma times_tset : forall t s (c : cache_t T), map fst (tset t s c) = if existsb (Z.eqb t) (map fst c) then map fst c else map fst c ++ [t].
  Proof.
    intros t s c. induction c as [|[t0 s0] c IH]; cbn [tset map fst existsb app]; auto. destruct (Z.eqb t t0) eqn:E; cbn [map fst orb]; auto.
    rewrite IH. destruct (existsb (Z.eqb t) (map fst c)); auto.
  Qed.

  Lemma existsb_Z : forall t l, existsb (Z.eqb t) l = true <-> In t l.
  Proof. intros t l. rewrite existsb_exists. split. intros (x & Hx & E). apply Z.eqb_eq in E. subst. auto. intros H. exists t. split; auto. apply Z.eqb_refl. Qed.

  Lemma In_times_tset : forall x t s (c : cache_t T), In x (map fst (tset t s c)) <-> x = t \/ In x (map fst c).
  Proof.
    intros x t s c. rewrite times_tset. destruct (existsb (Z.eqb t) (map fst c)) eqn:E.
    - apply existsb_Z in E. split; auto. intros [->|H]; auto.
    - rewrite in_app_iff. cbn [In]. intuition congruence.
  Qed.

  Lemma NoDup_times_tset : forall t s (c : cache_t T), NoDup (map fst c) -> NoDup (map fst (tset t s c)).
  Proof.
    intros t s c H. rewrite times_tset. destruct (existsb (Z.eqb t) (map fst c)) eqn:E; auto.
    apply NoDup_rev in H. rewrite <- (rev_involutive (_ ++ _)). apply NoDup_rev. rewrite rev_app_distr. cbn [rev app]. constructor; auto.
    rewrite <- in_rev. intros Hin. apply existsb_Z in Hin. congruence.
  Qed.

  (** The states cached since the last write. *)
  Definition cached (stored : list (Z * dict (pval T))) : cache_t T := fold_left (fun c s => cache_add (fst s) (snd s) c) stored [].

  Lemma cache_is_add : forall (stored c : list (Z * dict (pval T))) t s, cache_is stored c -> NoDup (keys s) -> cache_is (stored ++ [(t, s)]) (cache_add t s c).
  Proof.
    intros stored c t s (Nd & Ht & Hc) Ns.
    assert (Lt : forall t' n, latest (stored ++ [(t, s)]) t' n = if Z.eqb t' t then match dget n s with Some v => Some v | None => latest stored t' n end else latest stored t' n).
    { intros t' n. unfold latest. rewrite fold_left_app. reflexivity. }
    assert (L0 : forall n, ~ In t (map fst stored) -> latest stored t n = None).
    { clear. intros n. unfold latest. generalize (@None (pval T)). induction stored as [|[t' s'] st IH]; intros o H; cbn [fold_left map fst snd In] in *; auto.
      destruct (Z.eqb t t') eqn:E. apply Z.eqb_eq in E. subst. tauto. apply IH. tauto. }
    assert (G : forall s1, (forall n, dget n s1 = latest (stored ++ [(t, s)]) t n) -> NoDup (keys s1) -> cache_is (stored ++ [(t, s)]) (tset t s1 c)).
    { intros s1 H1 N1. split; [|split].
      - apply NoDup_times_tset. auto.
      - intros t'. rewrite In_times_tset, map_app, in_app_iff, Ht. cbn [map fst In]. intuition congruence.
      - intros t' s' H. apply tget_In in H. 2: apply NoDup_times_tset; auto. rewrite tget_tset in H. destruct (Z.eqb t' t) eqn:E.
        + apply Z.eqb_eq in E. subst t'. injection H as <-. auto.
        + apply tget_In in H; auto. apply Hc in H as (H & H'). split; auto. intros n. rewrite Lt, E. auto. }
    unfold cache_add. destruct (tget t c) as [old|] eqn:E.
    - apply tget_In in E; auto. apply Hc in E as (No & Ho). apply G. 2: apply NoDup_dupdate; auto. intros n. rewrite dget_dupdate, Lt, Z.eqb_refl, Ho by auto. auto.
    - apply tget_None in E. rewrite Ht in E. apply G; auto. intros n. rewrite Lt, Z.eqb_refl, L0 by auto. destruct (dget n s); auto.
  Qed.

  (** ** Sorting *)

  Lemma insert_perm : forall x (l : cache_t T), Permutation (insert_time x l) (x :: l).
  Proof.
    intros x l. induction l as [|y l IH]; cbn [insert_time]; auto. destruct (Z.leb _ _); auto. rewrite IH. apply perm_swap.
  Qed.

  Lemma by_time_perm : forall l : cache_t T, Permutation (by_time l) l.
  Proof. induction l as [|x l IH]; cbn [by_time]; auto. rewrite insert_perm, IH. auto. Qed.

  Lemma insert_sorted : forall x (l : cache_t T), StronglySorted Z.lt (map fst l) -> ~ In (fst x) (map fst l) -> StronglySorted Z.lt (map fst (insert_time x l)).
  Proof.
    intros x l. induction l as [|y l IH]; cbn [insert_time map]; intros S H. { constructor; constructor. }
    inversion S as [|? ? S1 F]; subst. destruct (Z.leb (fst x) (fst y)) eqn:E; cbn [map].
    - apply Z.leb_le in E. assert (L : (fst x < fst y)%Z). { cbn [In] in H. assert (fst y <> fst x) by tauto. lia. }
      constructor; auto. constructor; auto. eapply Forall_impl; [|exact F]. intros z Hz. cbn beta in Hz. lia.
    - apply Z.leb_gt in E. constructor. { apply IH; auto. cbn [In] in H. tauto. }
      apply Forall_forall. intros z Hz. apply (Permutation_in _ (Permutation_map fst (insert_perm x l))) in Hz. cbn [map In] in Hz. destruct Hz as [<-|Hz]; [lia|].
      rewrite Forall_forall in F. auto.
  Qed.

  Lemma by_time_sorted : forall l : cache_t T, NoDup (map fst l) -> StronglySorted Z.lt (map fst (by_time l)).
  Proof.
    induction l as [|x l IH]; cbn [by_time map]; intros H. constructor. inversion H as [|? ? Hx H']; subst. apply insert_sorted; auto.
    intros Hin. apply Hx. apply (Permutation_in _ (Permutation_map fst (by_time_perm l))). auto.
  Qed.

  Lemma batch_by_time : forall (stored c : list (Z * dict (pval T))), cache_is stored c -> batch_of stored (by_time c).
  Proof.
    intros stored c (Nd & Ht & Hc). split; [|split].
    - apply by_time_sorted. auto.
    - intros t. rewrite <- Ht. split; intros H. eapply Permutation_in; [apply Permutation_map, by_time_perm|auto].
      eapply Permutation_in; [apply Permutation_sym, Permutation_map, by_time_perm|auto].
    - intros t s H. apply Hc. eapply Permutation_in; [apply by_time_perm|auto].
  Qed.

  (** ** Combining states *)

  Lemma start_spec : forall (first : dict (pval T)) (acc rd : dict (comb T)), NoDup (keys first) ->
    foldM (fun rd nv => let* a := as_da (snd nv) in Ok (dset (fst nv) (mkcomb (dims a) (shape (arr a)) (attrs a) []) rd)) first acc = Ok rd ->
    forall n, match dget n first with
              | Some v => exists a, v = VDA a /\ dget n rd = Some (mkcomb (dims a) (shape (arr a)) (attrs a) [])
              | None => dget n rd = dget n acc
              end.
  Proof.
    induction first as [|[k v] first IH]; intros acc rd Nd H n; cbn [foldM bind fst snd dget] in *.
    - injection H as <-. auto.
    - cbn [keys map fst] in Nd. inversion Nd as [|? ? Hk Nd']; subst. destruct v as [a|t]; [|discriminate H]. cbn [as_da bind] in H.
      specialize (IH _ _ Nd' H n). destruct (String.eqb n k) eqn:E.
      + apply String.eqb_eq in E. subst. apply dget_none in Hk. rewrite Hk, dget_dset_eq in IH. exists a. auto.
      + destruct (dget n first) as [v'|]; auto. rewrite IH. apply dget_dset_neq. intros ->. rewrite String.eqb_refl in E. discriminate.
  Qed.

  Definition add_row (rd : dict (comb T)) (nv : string * pval T) : res (dict (comb T)) :=
    let* cb := dgetE (fst nv) rd in
    let* a := as_da (snd nv) in
    let* row := row_of (cb_dims cb) (cb_shape cb) a in
    Ok (dset (fst nv) (mkcomb (cb_dims cb) (cb_shape cb) (cb_attrs cb) (cb_rows cb ++ [row])) rd).

  Lemma rows_one : forall (st : dict (pval T)) rd rd', NoDup (keys st) -> foldM add_row st rd = Ok rd' ->
    forall n, match dget n st with
              | Some v => exists a cb row, v = VDA a /\ dget n rd = Some cb /\ row_of (cb_dims cb) (cb_shape cb) a = Ok row /\
                            dget n rd' = Some (mkcomb (cb_dims cb) (cb_shape cb) (cb_attrs cb) (cb_rows cb ++ [row]))
              | None => dget n rd' = dget n rd
              end.
  Proof.
    induction st as [|[k v] st IH]; intros rd rd' Nd H n; cbn [foldM fst snd dget] in *.
    - injection H as <-. auto.
    - cbn [keys map fst] in Nd. inversion Nd as [|? ? Hk Nd']; subst. apply bind_ok in H as (rd1 & H1 & H). unfold add_row in H1. cbn [fst snd] in H1.
      apply bind_ok in H1 as (cb & Hcb & H1). apply bind_ok in H1 as (a & Ha & H1). apply bind_ok in H1 as (row & Hrow & H1). injection H1 as <-.
      apply dgetE_ok in Hcb. specialize (IH _ _ Nd' H n). destruct (String.eqb n k) eqn:E.
      + apply String.eqb_eq in E. subst. apply dget_none in Hk. rewrite Hk, dget_dset_eq in IH. exists a, cb, row. split; auto. destruct v; [injection Ha as <-; auto|discriminate Ha].
      + rewrite dget_dset_neq in IH; auto. intros ->. rewrite String.eqb_refl in E. discriminate.
  Qed.

  Lemma rows_all : forall (states : list (dict (pval T))) rd rd' n cb, (forall st, In st states -> NoDup (keys st) /\ In n (keys st)) ->
    foldM (fun rd st => foldM add_row st rd) states rd = Ok rd' -> dget n rd = Some cb ->
    exists rows, Forall2 (fun st row => exists a, dget n st = Some (VDA a) /\ row_of (cb_dims cb) (cb_shape cb) a = Ok row) states rows /\
      dget n rd' = Some (mkcomb (cb_dims cb) (cb_shape cb) (cb_attrs cb) (cb_rows cb ++ rows)).
  Proof.
    induction states as [|st states IH]; intros rd rd' n cb Hs H Hcb; cbn [foldM] in H.
    - injection H as <-. exists []. split. constructor. rewrite app_nil_r, Hcb. destruct cb; auto.
    - apply bind_ok in H as (rd1 & H1 & H). destruct (Hs st) as (Nd & Hin). { cbn. auto. }
      pose proof (rows_one st rd rd1 Nd H1 n) as R. apply In_keys_dget in Hin as (v & Hv). rewrite Hv in R. destruct R as (a & cb0 & row & -> & E & Hrow & E1).
      rewrite Hcb in E. injection E as <-. destruct (IH _ _ n _ (fun s H => Hs s (or_intror H)) H E1) as (rows & F & Eq). cbn [cb_dims cb_shape cb_attrs cb_rows] in *.
      exists (row :: rows). split. constructor; eauto. rewrite Eq, <- app_assoc. auto.
  Qed.

  Lemma keys_add_row : forall st rd rd', foldM add_row st rd = Ok rd' -> keys rd' = keys rd.
  Proof.
    induction st as [|[k v] st IH]; intros rd rd' H; cbn [foldM] in H. injection H as <-; auto.
    apply bind_ok in H as (rd1 & H1 & H). rewrite (IH _ _ H). unfold add_row in H1. cbn [fst snd] in H1.
    apply bind_ok in H1 as (cb & Hcb & H1). apply bind_ok in H1 as (a & Ha & H1). apply bind_ok in H1 as (row & Hrow & H1). injection H1 as <-.
    apply dgetE_ok in Hcb. rewrite keys_dset. assert (M : dmem k rd = true) by (apply dmem_In; eapply dget_In_keys; eauto). rewrite ?M. auto.
  Qed.

  Lemma combine_spec : forall s0 (states : list (dict (pval T))) all, (forall st, In st (s0 :: states) -> NoDup (keys st) /\ forall n, In n (keys st) <-> In n (keys s0)) ->
    combine_states (s0 :: states) = Ok all ->
    NoDup (keys all) /\ (forall n, In n (keys all) <-> In n (keys s0)) /\
    forall n cb, dget n all = Some cb -> exists a0, dget n s0 = Some (VDA a0) /\ cb_dims cb = dims a0 /\ cb_shape cb = shape (arr a0) /\ cb_attrs cb = attrs a0 /\
      Forall2 (fun st row => exists a, dget n st = Some (VDA a) /\ row_of (cb_dims cb) (cb_shape cb) a = Ok row) (s0 :: states) (cb_rows cb).
  Proof.
    intros s0 states all Hs H. unfold combine_states in H. apply bind_ok in H as (start & H1 & H).
    change (foldM (fun rd st => foldM add_row st rd) (s0 :: states) start = Ok all) in H.
    destruct (Hs s0 (or_introl eq_refl)) as (N0 & _). pose proof (start_spec s0 [] start N0 H1) as S.
    assert (Nst : NoDup (keys start) /\ forall n, In n (keys start) <-> In n (keys s0)).
    { split.
      - clear - H1. assert (Nn : NoDup (keys (@nil (string * comb T)))) by constructor. revert Nn H1. generalize (@nil (string * comb T)).
        induction s0 as [|[k v] s0 IH]; intros acc Nn H; cbn [foldM] in H. injection H as <-; auto. apply bind_ok in H as (rd1 & H1 & H). cbn [fst snd] in H1.
        apply bind_ok in H1 as (a & Ha & H1). injection H1 as <-. eapply IH; [|exact H]. apply NoDup_dset. auto.
      - intros n. specialize (S n). split; intros Hin.
        + apply In_keys_dget in Hin as (cb & Hcb). destruct (dget n s0) as [v|] eqn:E. eapply dget_In_keys; eauto. rewrite Hcb in S. discriminate S.
        + apply In_keys_dget in Hin as (v & Hv). rewrite Hv in S. destruct S as (a & _ & E). eapply dget_In_keys; eauto. }
    assert (K : keys all = keys start).
    { clear - H. revert start H. generalize (s0 :: states). induction l as [|st l IH]; intros rd H; cbn [foldM] in H. injection H as <-; auto.
      apply bind_ok in H as (rd1 & H1 & H). rewrite (IH _ H). eapply keys_add_row; eauto. }
    rewrite K. split. tauto. split. tauto. intros n cb Hcb.
    assert (Hin : In n (keys s0)) by (apply (proj2 Nst); rewrite <- K; eapply dget_In_keys; eauto). specialize (S n). pose proof (In_keys_dget _ _ Hin) as (v & Hv). rewrite Hv in S.
    destruct S as (a0 & -> & S). destruct (rows_all (s0 :: states) start all n _ (fun st H0 => conj (proj1 (Hs st H0)) (proj2 (proj2 (Hs st H0) n) Hin)) H S) as (rows & F & E).
    rewrite Hcb in E. injection E as ->. exists a0. cbn [cb_dims cb_shape cb_attrs cb_rows app] in *. auto.
  Qed.

  (** ** Rows *)

  Lemma row_holds : forall L ds (a0 a : da T) r, wf_da a0 -> shape (arr a0) = map L (dims a0) -> ds = dims a0 -> wf_da a -> shape (arr a) = map L (dims a) ->
    row_of ds (shape (arr a0)) a = Ok r -> holds_row L ds a (Some r).
  Proof.
    intros L ds a0 a r (_ & Nd & _) Hs0 -> (_ & Nda & Wa) Hs H. unfold row_of in H. rewrite Hs0 in H.
    assert (H' : (if forallb (fun d => mem d (dims a0)) (dims a) then
          if forallb (fun dn : string * nat => Nat.eqb (snd dn) 1 || match dget (fst dn) (combine (dims a0) (map L (dims a0))) with Some n => Nat.eqb (snd dn) n | None => false end) (combine (dims a) (shape (arr a))) then
            Ok (build (map L (dims a0)) (fun idx => at_ (arr a) (map (fun dn : string * nat => if Nat.eqb (snd dn) 1 then 0 else coord (dims a0) idx (fst dn)) (combine (dims a) (shape (arr a))))))
          else Err EValue else Err EValue) = Ok r).
    { destruct (dims a0); [discriminate H|]. destruct (dims a); [discriminate H|]. exact H. }
    clear H. destruct (forallb (fun d => mem d (dims a0)) (dims a)) eqn:E1; [|discriminate H']. destruct (forallb _ (combine _ _)) eqn:E2; [|discriminate H'].
    injection H' as <-. eexists. split; [reflexivity|]. split. apply wf_build. split. apply shape_build.
    assert (Inc : incl (dims a) (dims a0)). { intros d Hd. rewrite forallb_forall in E1. apply mem_In. auto. }
    split; auto. intros c Hc. rewrite at_build.
    2: { unfold in_range. clear - Hc. induction (dims a0) as [|d l IH]; cbn [map]; constructor. apply Hc; cbn; auto. apply IH. intros d' Hd'. apply Hc. cbn. auto. }
    unfold da_at. f_equal. rewrite Hs. clear - Inc Hc. assert (G : forall l, incl l (dims a0) ->
      map (fun dn : string * nat => if Nat.eqb (snd dn) 1 then 0 else coord (dims a0) (map c (dims a0)) (fst dn)) (combine l (map L l)) = map c l).
    { induction l as [|d l IH]; intros I; cbn [map combine]; auto. rewrite IH by (intros x Hx; apply I; cbn; auto). f_equal. cbn [fst snd].
      assert (Hd : In d (dims a0)) by (apply I; cbn; auto). rewrite coord_map by auto. destruct (Nat.eqb (L d) 1) eqn:E; auto. apply Nat.eqb_eq in E. specialize (Hc d Hd). lia. }
    apply G. auto.
  Qed.
End Cache.
