(** Lemmas about combine_dims and combine_properties (Composite.v). *)
From Coq Require Import String List Bool Arith ZArith Lia Permutation.
From Verif Require Import Prelude PreludeFacts ArithM NdArray Units DataArrayM GetNp SpecUnits UnitsFacts
  Tracers Components Composite SpecComposite KeyedFold.
Import ListNotations.
Open Scope string_scope.
Open Scope nat_scope.
Open Scope list_scope.

(** ** Sets *)

Lemma In_named_dims : forall l d, In d (named_dims l) <-> d <> "*" /\ In d l.
Proof.
  intros l d. unfold named_dims. rewrite filter_In, dedup_In, negb_true_iff, String.eqb_neq. tauto.
Qed.

Lemma set_eqb_iff : forall l1 l2, set_eqb l1 l2 = true <-> same_set l1 l2.
Proof.
  intros l1 l2. unfold set_eqb, same_set. rewrite andb_true_iff, !forallb_forall. split.
  - intros [H1 H2] d. split; intros H; [apply mem_In, H1|apply mem_In, H2]; auto.
  - intros H. split; intros x Hx; apply mem_In, H; auto.
Qed.

Lemma set_eqb_false : forall l1 l2, set_eqb l1 l2 = false <-> ~ same_set l1 l2.
Proof. intros l1 l2. rewrite <- set_eqb_iff. destruct (set_eqb l1 l2); split; congruence. Qed.

Lemma mem_iff : forall x l, mem x l = true <-> In x l.
Proof. intros; apply mem_In. Qed.

(** ** combine_dims *)

Section Dims.
  Variable ord : list string -> list string.
  Hypothesis Hord : forall l, NoDup l -> Permutation (ord l) l.

  Lemma In_ord : forall l d, NoDup l -> (In d (ord l) <-> In d l).
  Proof.
    intros l d H. split; intros Hd.
    - eapply Permutation_in; [apply Hord; auto|auto].
    - eapply Permutation_in; [apply Permutation_sym, Hord; auto|auto].
  Qed.

  Lemma In_unmatched : forall l1 l2 d, In d (ord (dedup (named_dims l1 ++ named_dims l2))) <-> d <> "*" /\ (In d l1 \/ In d l2).
  Proof. intros. rewrite In_ord by apply dedup_NoDup. rewrite dedup_In, in_app_iff, !In_named_dims. tauto. Qed.

  Lemma dims_eq_iff : forall d1 d2, dims_eq d1 d2 = true -> d1 = d2.
  Proof.
    intros [l1 b1] [l2 b2] H. unfold dims_eq in H. cbn [fst snd] in H. apply andb_true_iff in H as [H1 H2].
    apply list_eqb_eq in H1. apply eqb_prop in H2. congruence.
  Qed.

  (** Success and failure of combine_dims, and its result as a set. *)
  Lemma combine_dims_cases : forall d1 d2,
    (exists r, combine_dims ord d1 d2 = Ok r /\
       (In "*" (fst d1) \/ same_set (named_dims (fst d1)) (named_dims (fst d2))) /\
       (In "*" (fst r) <-> In "*" (fst d1) /\ In "*" (fst d2)) /\
       forall d, d <> "*" -> (In d (fst r) <-> In d (fst d1) \/ In d (fst d2))) \/
    (combine_dims ord d1 d2 = Err EInvalidProps /\
       ~ In "*" (fst d1) /\ ~ same_set (named_dims (fst d1)) (named_dims (fst d2))).
  Proof.
    intros d1 d2. unfold combine_dims. destruct (dims_eq d1 d2) eqn:E.
    { apply dims_eq_iff in E; subst d2. left. exists d1. split; auto. split; [right; intros d; tauto|].
      split; [tauto|]. intros; tauto. }
    clear E. set (shared := filter _ (named_dims (fst d2))).
    assert (Hsh : same_set shared (named_dims (fst d2))).
    { intros d. unfold shared. rewrite filter_In, mem_In. tauto. }
    assert (Hstar : ~ In "*" (ord (dedup (named_dims (fst d1) ++ named_dims (fst d2))))).
    { rewrite In_unmatched. tauto. }
    assert (Hun := In_unmatched (fst d1) (fst d2)).
    assert (Hs2 : set_eqb shared (named_dims (fst d2)) = true) by (apply set_eqb_iff; auto).
    rewrite Hs2. cbn [negb].
    destruct (mem "*" (fst d1)) eqn:E1, (mem "*" (fst d2)) eqn:E2; cbn [andb negb].
    - apply mem_In in E1, E2. left. eexists. split; [reflexivity|]. cbn [fst]. split; auto.
      split; [simpl; tauto|]. intros d Hd. simpl. rewrite Hun. intuition congruence.
    - apply mem_In in E1. apply mem_false in E2. left. eexists. split; [reflexivity|]. cbn [fst]. split; auto.
      split; [tauto|]. intros d Hd. rewrite Hun. tauto.
    - apply mem_In in E2. apply mem_false in E1. destruct (set_eqb shared (named_dims (fst d1))) eqn:E; cbn [negb].
      + left. eexists. split; [reflexivity|]. cbn [fst]. apply set_eqb_iff in E.
        split. { right. intros d. rewrite <- (E d). apply Hsh. } split; [tauto|]. intros d Hd. rewrite Hun. tauto.
      + right. split; auto. split; auto. apply set_eqb_false in E. intros Hc. apply E. intros d. rewrite (Hc d). apply Hsh.
    - apply mem_false in E1, E2. destruct (set_eqb shared (named_dims (fst d1))) eqn:E; cbn [negb orb].
      + left. eexists. split; [reflexivity|]. cbn [fst]. apply set_eqb_iff in E.
        split. { right. intros d. rewrite <- (E d). apply Hsh. } split; [tauto|]. intros d Hd. rewrite Hun. tauto.
      + right. split; auto. split; auto. apply set_eqb_false in E. intros Hc. apply E. intros d. rewrite (Hc d). apply Hsh.
  Qed.

  Lemma combine_dims_sound : forall d1 d2 r, combine_dims ord d1 d2 = Ok r ->
    (In "*" (fst d1) <-> In "*" (fst d2)) ->
    forall q, fits q (fst r) <-> fits q (fst d1) /\ fits q (fst d2).
  Proof.
    intros d1 d2 r H Hw q. destruct (combine_dims_cases d1 d2) as [(r' & Hr & Hc & Hs & Hn)|(Hr & _)]; [|congruence].
    assert (r' = r) by congruence. subst r'. unfold fits. split.
    - intros [F1 F2]. assert (G : forall d, d <> "*" -> In d (fst d1) \/ In d (fst d2) -> In d q).
      { intros d Hd Hi. apply F1; auto. apply Hn; auto. }
      split; (split; [intros d Hd Hne; apply G; auto|]).
      + destruct F2 as [F2|F2]; [left; tauto|].
        destruct (In_dec_str "*" (fst d1)) as [Hi|Hi]; auto. right. intros d Hd.
        destruct (string_dec d "*") as [->|Hne]; [apply F2, Hs in Hd; tauto|].
        specialize (F2 d Hd). apply Hn in F2; auto. destruct F2 as [|F2]; auto.
        destruct Hc as [Hc|Hc]; [tauto|]. specialize (Hc d). rewrite !In_named_dims in Hc. tauto.
      + destruct F2 as [F2|F2]; [left; tauto|].
        destruct (In_dec_str "*" (fst d2)) as [Hi|Hi]; auto. right. intros d Hd.
        destruct (string_dec d "*") as [->|Hne]; [apply F2, Hs in Hd; tauto|].
        specialize (F2 d Hd). apply Hn in F2; auto. destruct F2 as [F2|]; auto.
        destruct Hc as [Hc|Hc]; [tauto|]. specialize (Hc d). rewrite !In_named_dims in Hc. tauto.
    - intros [[F1 F2] [G1 G2]]. split.
      + intros d Hd Hne. apply Hn in Hd; auto. destruct Hd; auto.
      + destruct (In_dec_str "*" (fst d1)) as [Hi|Hi]; [left; tauto|]. right.
        destruct F2 as [|F2]; [tauto|]. intros d Hd.
        destruct (string_dec d "*") as [->|Hne]; [apply F2 in Hd; tauto|]. apply Hn; auto.
  Qed.

  Lemma combine_dims_refuses : forall d1 d2 e, combine_dims ord d1 d2 = Err e ->
    (In "*" (fst d1) <-> In "*" (fst d2)) ->
    e = EInvalidProps /\ ~ exists q, fits q (fst d1) /\ fits q (fst d2).
  Proof.
    intros d1 d2 e H Hw. destruct (combine_dims_cases d1 d2) as [(r & Hr & _)|(Hr & H1 & H2)]; [congruence|].
    split; [congruence|]. intros (q & [F1 F2] & [G1 G2]). apply H2. intros d. rewrite !In_named_dims.
    destruct F2 as [|F2]; [tauto|]. destruct G2 as [|G2]; [tauto|]. split; intros [Hne Hd]; split; auto.
  Qed.

  Lemma combine_dims_symmetric : forall d1 d2 r, combine_dims ord d1 d2 = Ok r ->
    (In "*" (fst d1) <-> In "*" (fst d2)) ->
    exists r', combine_dims ord d2 d1 = Ok r' /\ same_set (fst r) (fst r').
  Proof.
    intros d1 d2 r H Hw. destruct (combine_dims_cases d1 d2) as [(r1 & Hr & Hc & Hs & Hn)|(Hr & _)]; [|congruence].
    assert (r1 = r) by congruence. subst r1.
    destruct (combine_dims_cases d2 d1) as [(r' & Hr' & Hc' & Hs' & Hn')|(_ & K1 & K2)].
    - exists r'. split; auto. intros d. destruct (string_dec d "*") as [->|Hne].
      + rewrite Hs, Hs'. tauto.
      + rewrite Hn, Hn' by auto. tauto.
    - exfalso. destruct Hc as [Hc|Hc]; [tauto|]. apply K2. intros d. symmetry. apply Hc.
  Qed.

  (** A quantity accepted by the result has all the dims each declaration names. *)
  Lemma combine_dims_named : forall d1 d2 r, combine_dims ord d1 d2 = Ok r ->
    (In "*" (fst r) <-> In "*" (fst d1) /\ In "*" (fst d2)) /\
    forall d, d <> "*" -> (In d (fst r) <-> In d (fst d1) \/ In d (fst d2)).
  Proof.
    intros d1 d2 r H. destruct (combine_dims_cases d1 d2) as [(r1 & Hr & Hc & Hs & Hn)|(Hr & _)]; [|congruence].
    assert (r1 = r) by congruence. subst r1. auto.
  Qed.
End Dims.

(** ** combine_properties *)

Section Properties.
  Context {R : Registry}.
  Variable ord : list string -> list string.
  Hypothesis Hord : forall l, NoDup l -> Permutation (ord l) l.
  Variable inp : pdict.

  Definition combine_one (name : string) (o : option props) (p : props) : res props :=
    match o with
    | None => let* ds := resolve_dims inp name p in Ok (with_dims p ds)
    | Some r =>
        match p_units p, p_units r with
        | Some u1, Some u2 =>
            let* b := units_are_compatible u1 u2 in
            if negb b then Err EInvalidProps
            else
              let* new := resolve_dims inp name p in
              let* old := match p_dims r with Some ds => Ok (ds, p_tuple r) | None => Err EKey end in
              let* ds := combine_dims ord old new in
              Ok (with_dims r ds)
        | _, _ => Err EKey
        end
    end.

  Lemma combine_step_keyed : forall acc np, combine_step ord inp acc np = kstep combine_one acc np.
  Proof.
    intros acc [name p]. unfold combine_step, kstep, combine_one. cbn [fst snd].
    destruct (dget name acc) as [r|]; [|destruct (resolve_dims inp name p); reflexivity].
    destruct (p_units p); [|reflexivity]. destruct (p_units r); [|reflexivity].
    destruct (units_are_compatible s s0) as [[]|]; cbn [bind negb]; try reflexivity.
    destruct (resolve_dims inp name p); cbn [bind]; try reflexivity.
    destruct (p_dims r); cbn [bind]; try reflexivity.
    destruct (combine_dims ord (l, p_tuple r) a); reflexivity.
  Qed.

  Lemma combine_keyed : forall l acc, foldM (combine_step ord inp) l acc = foldM (kstep combine_one) l acc.
  Proof.
    induction l as [|np l IH]; intros acc; cbn [foldM]; auto. rewrite combine_step_keyed.
    destruct (kstep combine_one acc np); cbn [bind]; auto.
  Qed.

  Lemma resolve_dims_for : forall name p, 
    match resolve_dims inp name p with
    | Ok ds => dims_for inp name p = Some (fst ds)
    | Err e => dims_for inp name p = None /\ e = EInvalidProps
    end.
  Proof.
    intros name p. unfold resolve_dims, dims_for. destruct (p_dims p); auto. destruct (dget name inp) as [q|]; auto.
    destruct (p_dims q); auto.
  Qed.

  Lemma one_first : forall X p0,
    match combine_one X None p0 with
    | Ok r => combined_entry inp X p0 [] r
    | Err e => e = EInvalidProps /\ dims_for inp X p0 = None
    end.
  Proof.
    intros X p0. unfold combine_one. pose proof (resolve_dims_for X p0) as H.
    destruct (resolve_dims inp X p0) as [ds|e]; cbn [bind]; [|tauto].
    unfold combined_entry, with_dims. cbn [p_units p_alias p_dims p_tracer]. split; auto. split; auto. split; auto.
    exists (fst ds), [fst ds]. split; auto. split; [repeat constructor; auto|]. split.
    - split; [intros Hs s [<-|[]]; auto|]. intros Hs. apply Hs; left; auto.
    - intros d Hd. unfold named_in. split; [intros Hi; split; auto; exists (fst ds); simpl; auto|].
      intros (_ & s & [<-|[]] & Hi); auto.
  Qed.

  Lemma Forall2_fun_unique : forall {B C} (P : B -> C -> Prop) l l1 l2, (forall b c1 c2, P b c1 -> P b c2 -> c1 = c2) ->
    Forall2 P l l1 -> Forall2 P l l2 -> l1 = l2.
  Proof.
    intros B C P l l1 l2 Hu H. revert l2. induction H as [|b c l l1 Hb Hl IH]; intros l2 H2; inversion H2; subst; auto.
    f_equal; eauto.
  Qed.

  Lemma one_next : forall X p0 mid r p, combined_entry inp X p0 mid r -> units_known R p -> units_known R p0 ->
    match combine_one X (Some r) p with
    | Ok r' => combined_entry inp X p0 (mid ++ [p]) r' /\ units_compatible p p0 /\
               exists seen ds, Forall2 (fun q d => dims_for inp X q = Some d) (p0 :: mid) seen /\
                  dims_for inp X p = Some ds /\ dims_joinable seen ds
    | Err e => e = EInvalidProps /\
               (~ units_compatible p p0 \/ dims_for inp X p = None \/
                exists seen ds, Forall2 (fun q d => dims_for inp X q = Some d) (p0 :: mid) seen /\
                  dims_for inp X p = Some ds /\ ~ dims_joinable seen ds)
    end.
  Proof.
    intros X p0 mid r p (Hu & Hal & Htr & rd & seen & Hrd & Hseen & Hstar & Hnamed) (s & u & Hs & Pu) (s0 & u0 & Hs0 & Pu0).
    unfold combine_one. rewrite Hs, Hu, Hs0. unfold units_are_compatible, parseE. rewrite Pu, Pu0. cbn [bind].
    destruct (udim_eqb u u0) eqn:Ed; cbn [negb].
    2: { split; auto. left. intros (s' & s0' & u' & u0' & H1 & H2 & H3 & H4 & H5).
         assert (u' = u) by congruence. assert (u0' = u0) by congruence. subst. apply udim_eqb_eq in H5. congruence. }
    apply udim_eqb_eq in Ed.
    assert (Hcomp : units_compatible p p0) by (exists s, s0, u, u0; auto).
    pose proof (resolve_dims_for X p) as Hp. destruct (resolve_dims inp X p) as [new|e]; cbn [bind]; [|tauto].
    rewrite Hrd. cbn [bind].
    assert (Hjoin : (In "*" rd \/ same_set (named_dims rd) (named_dims (fst new))) <-> dims_joinable seen (fst new)).
    { unfold dims_joinable. rewrite Hstar. unfold same_set.
      assert (E : (forall d, In d (named_dims rd) <-> In d (named_dims (fst new))) <->
                  (forall d, named_in seen d <-> named_in [fst new] d)).
      { assert (E1 : forall d, In d (named_dims rd) <-> named_in seen d).
        { intros d. rewrite In_named_dims. split.
          - intros [Hne Hi]. apply Hnamed; auto.
          - intros Hn. assert (Hne : d <> "*") by apply Hn. split; auto. apply Hnamed; auto. }
        assert (E2 : forall d, In d (named_dims (fst new)) <-> named_in [fst new] d).
        { intros d. rewrite In_named_dims. unfold named_in. split.
          - intros [Hne Hi]. split; auto. exists (fst new). simpl; auto.
          - intros (Hne & x & [<-|[]] & Hi); auto. }
        split; intros Hd d; specialize (Hd d); specialize (E1 d); specialize (E2 d); tauto. }
      tauto. }
    destruct (combine_dims_cases ord Hord (rd, p_tuple r) new) as [(ds & Hds & Hc & Hw & Hn)|(Hds & K1 & K2)];
      rewrite Hds; cbn [bind].
    - cbn [fst] in *. split.
      + unfold combined_entry, with_dims. cbn [p_units p_alias p_dims p_tracer]. split; auto. split; auto. split; auto.
        exists (fst ds), (seen ++ [fst new]). split; auto. split.
        { rewrite app_comm_cons. apply Forall2_app; auto. }
        split.
        * rewrite Hw, Hstar. split.
          { intros [G1 G2] x Hx. apply in_app_iff in Hx as [Hx|[<-|[]]]; auto. }
          { intros G. split; [intros x Hx|]; apply G, in_app_iff; simpl; auto. }
        * intros d Hd. rewrite Hn by auto. rewrite Hnamed by auto. unfold named_in. split.
          { intros [(_ & x & Hx & Hi)|Hi]; split; auto; [exists x|exists (fst new)]; rewrite in_app_iff; simpl; auto. }
          { intros (_ & x & Hx & Hi). apply in_app_iff in Hx as [Hx|[<-|[]]]; auto. left. eauto. }
      + split; auto. exists seen, (fst new). split; auto. split; auto. apply Hjoin. auto.
    - split; auto. right; right. exists seen, (fst new). split; auto. split; auto. rewrite <- Hjoin. cbn [fst] in *. tauto.
  Qed.

  Lemma rest_spec : forall X p0 rest mid r, combined_entry inp X p0 mid r -> units_known R p0 ->
    (forall p, In p rest -> units_known R p) ->
    (forall p, In p (p0 :: mid) -> dims_for inp X p <> None) ->
    let good := (forall p, In p rest -> dims_for inp X p <> None) /\
                forall m1 p m2, rest = m1 ++ p :: m2 -> units_compatible p p0 /\
                  forall seen ds, Forall2 (fun q d => dims_for inp X q = Some d) (p0 :: mid ++ m1) seen ->
                    dims_for inp X p = Some ds -> dims_joinable seen ds in
    match foldM (kone combine_one X) rest (Some r) with
    | Ok o => good /\ exists r', o = Some r' /\ combined_entry inp X p0 (mid ++ rest) r'
    | Err e => e = EInvalidProps /\ ~ good
    end.
  Proof.
    intros X p0 rest. induction rest as [|p rest IH]; intros mid r Hr H0 Hk Hd good.
    - cbn [foldM]. split.
      + split; [intros ? []|]. intros m1 p m2 H. destruct m1; discriminate.
      + exists r. rewrite app_nil_r. auto.
    - cbn [foldM]. pose proof (one_next X p0 mid r p Hr (Hk p (or_introl eq_refl)) H0) as Hp.
      unfold kone at 1. destruct (combine_one X (Some r) p) as [r1|e]; cbn [bind].
      + destruct Hp as (Hr1 & Hcomp & seen & ds & Hseen & Hds & Hj).
        specialize (IH (mid ++ [p]) r1 Hr1 H0 (fun q Hq => Hk q (or_intror Hq))). cbv zeta in IH.
        assert (Hd' : forall q, In q (p0 :: mid ++ [p]) -> dims_for inp X q <> None).
        { intros q Hq. destruct Hq as [<-|Hq]; [apply Hd; left; auto|]. apply in_app_iff in Hq as [Hq|[<-|[]]].
          - apply Hd; right; auto. - rewrite Hds; discriminate. }
        specialize (IH Hd').
        assert (Hg : good <-> (forall p, In p rest -> dims_for inp X p <> None) /\
                forall m1 p1 m2, rest = m1 ++ p1 :: m2 -> units_compatible p1 p0 /\
                  forall seen ds, Forall2 (fun q d => dims_for inp X q = Some d) (p0 :: (mid ++ [p]) ++ m1) seen ->
                    dims_for inp X p1 = Some ds -> dims_joinable seen ds).
        { unfold good. split.
          - intros [G1 G2]. split; [intros q Hq; apply G1; right; auto|]. intros m1 p1 m2 E.
            specialize (G2 (p :: m1) p1 m2). rewrite <- app_assoc. apply G2. simpl. congruence.
          - intros [G1 G2]. split; [intros q [<-|Hq]; auto; rewrite Hds; discriminate|].
            intros m1 p1 m2 E. destruct m1 as [|m m1]; cbn [app] in E; injection E as <- E.
            + split; auto. intros seen' ds' Hs' Hds'. rewrite app_nil_r in Hs'.
              assert (seen' = seen) by (eapply Forall2_fun_unique; [|apply Hs'|apply Hseen]; simpl; congruence).
              assert (ds' = ds) by congruence. subst. auto.
            + specialize (G2 m1 p1 m2 E). rewrite <- app_assoc in G2. auto. }
        destruct (foldM (kone combine_one X) rest (Some r1)) as [o|e].
        * rewrite Hg. rewrite <- app_assoc in IH. exact IH.
        * rewrite Hg. exact IH.
      + destruct Hp as [-> Hp]. split; auto. unfold good. intros [G1 G2].
        destruct Hp as [Hp|[Hp|(seen & ds & Hseen & Hds & Hj)]].
        * apply Hp. apply (G2 [] p rest); auto.
        * apply (G1 p); auto. left; auto.
        * apply Hj. destruct (G2 [] p rest eq_refl) as [_ G]. apply G; auto. rewrite app_nil_r. auto.
  Qed.

  Lemma key_spec : forall X ps, (2 <= length ps -> forall p, In p ps -> units_known R p) ->
    match foldM (kone combine_one X) ps None with
    | Ok o => combinable inp X ps /\
              match ps with
              | [] => o = None
              | p0 :: rest => exists r, o = Some r /\ combined_entry inp X p0 rest r
              end
    | Err e => e = EInvalidProps /\ ~ combinable inp X ps
    end.
  Proof.
    intros X [|p0 rest] Hk.
    { cbn [foldM]. split; auto. split; [intros ? []|]. intros; discriminate. }
    cbn [foldM]. unfold kone at 1. pose proof (one_first X p0) as H0.
    destruct (combine_one X None p0) as [r|e]; cbn [bind].
    2: { destruct H0 as [-> H0]. split; auto. intros [G _]. apply (G p0); auto. left; auto. }
    assert (Hd0 : dims_for inp X p0 <> None).
    { destruct H0 as (_ & _ & _ & rd & seen & _ & Hs & _). inversion Hs; subst. congruence. }
    destruct rest as [|p1 rest].
    { cbn [foldM]. split; [|eauto]. split; [intros p [<-|[]]; auto|].
      intros q0 mid p rest E. injection E as _ E. destruct mid; discriminate. }
    assert (Hk' : forall p, In p (p0 :: p1 :: rest) -> units_known R p) by (apply Hk; simpl; lia).
    pose proof (rest_spec X p0 (p1 :: rest) [] r H0 (Hk' p0 (or_introl eq_refl)) (fun p Hp => Hk' p (or_intror Hp))) as G.
    cbv zeta in G. assert (Hd : forall p, In p [p0] -> dims_for inp X p <> None) by (intros p [<-|[]]; auto).
    specialize (G Hd).
    assert (Hc : combinable inp X (p0 :: p1 :: rest) <->
      ((forall p, In p (p1 :: rest) -> dims_for inp X p <> None) /\
       forall m1 p m2, p1 :: rest = m1 ++ p :: m2 -> units_compatible p p0 /\
         forall seen ds, Forall2 (fun q d => dims_for inp X q = Some d) (p0 :: [] ++ m1) seen ->
           dims_for inp X p = Some ds -> dims_joinable seen ds)).
    { unfold combinable. split.
      - intros [G1 G2]. split; [intros p Hp; apply G1; right; auto|]. intros m1 p m2 E. apply (G2 p0 m1 p m2). congruence.
      - intros [G1 G2]. split; [intros p [<-|Hp]; auto|]. intros q0 mid p m2 E. injection E as <- E.
        apply (G2 mid p m2). exact E. }
    destruct (foldM (kone combine_one X) (p1 :: rest) (Some r)); rewrite Hc; exact G.
  Qed.

  (** C21 *)
  Lemma combine_properties_spec : forall pds,
    (forall X, 2 <= length (entries X (concat pds)) -> forall p, In p (entries X (concat pds)) -> units_known R p) ->
    match combine_properties ord pds inp with
    | Ok res =>
        (forall X, combinable inp X (entries X (concat pds))) /\
        keys res = dedup (keys (concat pds)) /\
        forall X, match entries X (concat pds) with
                  | [] => dget X res = None
                  | p0 :: rest => exists r, dget X res = Some r /\ combined_entry inp X p0 rest r
                  end
    | Err e => e = EInvalidProps /\ exists X, ~ combinable inp X (entries X (concat pds))
    end.
  Proof.
    intros pds Hk. unfold combine_properties. rewrite combine_keyed.
    destruct (foldM (kstep combine_one) (concat pds) []) as [res|e] eqn:E.
    - pose proof (keyed_ok combine_one _ _ _ E) as Hok. pose proof (keyed_keys combine_one _ _ _ E) as Hkeys.
      split; [|split].
      + intros X. pose proof (key_spec X _ (Hk X)) as HX. cbn [dget] in Hok. rewrite (Hok X) in HX. apply HX.
      + exact Hkeys.
      + intros X. pose proof (key_spec X _ (Hk X)) as HX. cbn [dget] in Hok. rewrite (Hok X) in HX.
        destruct HX as [_ HX]. destruct (entries X (concat pds)); auto.
    - destruct (keyed_err combine_one _ _ _ E) as (X & HX). pose proof (key_spec X _ (Hk X)) as HS.
      cbn [dget] in HX. rewrite HX in HS. destruct HS as [-> HS]. split; eauto.
  Qed.
End Properties.
