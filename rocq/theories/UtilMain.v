(** Main theorems about get_numpy_array and restore_dimensions (C59). *)
From Coq Require Import String List Bool Arith ZArith Lia Permutation.
From Verif Require Import Prelude PreludeFacts ArithM NdArray NdFacts DataArrayM SpecArrays GetNpFacts NetCDF NetCDFMain NetCDFSucceeds UtilM SpecUtil UtilFacts.
Import ListNotations.
Open Scope string_scope.
Open Scope nat_scope.
Open Scope list_scope.

Section UtilMain.
  Context {T : Type} {A : Arith T}.

  (** The dims that one of [out] stands for, with '*' in the order [rest]. *)
  Definition names_with (a : da T) (rest : list string) (d : string) : list string :=
    if String.eqb d "*" then rest else if mem d (dims a) then [d] else [].

  Lemma perm_dec : forall a b : list string, NoDup a -> {Permutation a b} + {~ Permutation a b}.
  Proof.
    intros a b Na. destruct (same_list b a) eqn:E. left. apply Permutation_sym. apply same_list_perm; auto.
    right. intros P. apply Permutation_sym, perm_same_list in P. congruence.
  Qed.

  Lemma unlisted_NoDup : forall (a : da T) out, NoDup (dims a) -> NoDup (unlisted a out).
  Proof. intros. apply NoDup_filter; auto. Qed.

  Lemma unlisted_In : forall (a : da T) out x, In x (unlisted a out) <-> In x (dims a) /\ ~ In x out.
  Proof. intros. unfold unlisted. rewrite filter_In. rewrite negb_true_iff, mem_false. tauto. Qed.

  Lemma flattened_perm : forall (a : da T) out req rest, flattened a out req rest -> Permutation (unlisted a out) rest.
  Proof.
    intros a out req rest H. unfold flattened in H. destruct req as [w|]; [|subst; auto]. destruct (dget "*" w) as [ws|]; [|subst; auto]. destruct H as [(P & ->)|(_ & ->)]; auto.
  Qed.

  Lemma require_ok : forall (a : da T) out w m, NoDup (dims a) -> (forall d, In d out -> dget d m = Some (names a out d)) ->
    exists m' rest, require_matches w out m = Ok m' /\ flattened a out (Some w) rest /\ (forall d, dget d m' = if mem d out then Some (names_with a rest d) else dget d m) /\ (NoDup (keys m) -> NoDup (keys m')).
  Proof.
    intros a out w m Nd Hm.
    assert (Hr : exists rest, flattened a out (Some w) rest /\ match dget "*" w with Some ws => rest = if same_list (unlisted a out) ws then ws else unlisted a out | None => rest = unlisted a out end).
    { unfold flattened. destruct (dget "*" w) as [ws|]; [|eauto]. exists (if same_list (unlisted a out) ws then ws else unlisted a out). split; auto.
      destruct (same_list (unlisted a out) ws) eqn:E.
      - left. split; auto. apply Permutation_sym. apply same_list_perm. apply unlisted_NoDup; auto. unfold same_list in *. apply andb_true_iff in E as (E1 & E2). apply andb_true_iff in E2 as (E2 & E3).
        apply Nat.eqb_eq in E1. rewrite <- E1, Nat.eqb_refl, E2, E3. auto.
      - right. split; auto. intros P. apply perm_same_list in P. congruence. }
    destruct Hr as (rest & Hf & Hr).
    assert (G : forall l m1, incl l out -> (forall d, In d out -> dget d m1 = Some (names a out d) \/ dget d m1 = Some (names_with a rest d)) ->
              exists m', foldM (fun m d => match dget d w with
                      | Some ws => let* ns := dgetE d m in Ok (if same_list ns ws then dset d ws m else m)
                      | None => Ok m
                      end) l m1 = Ok m' /\ (forall d, dget d m' = if mem d l then Some (names_with a rest d) else dget d m1) /\ (NoDup (keys m1) -> NoDup (keys m'))).
    { induction l as [|d l IH]; intros m1 Hi H1; cbn [foldM]. { exists m1. split; auto. }
      assert (Hd : In d out) by (apply Hi; cbn; auto).
      assert (S : exists m2, match dget d w with Some ws => let* ns := dgetE d m1 in Ok (if same_list ns ws then dset d ws m1 else m1) | None => Ok m1 end = Ok m2 /\
                (forall d', dget d' m2 = if String.eqb d' d then Some (names_with a rest d) else dget d' m1) /\ (NoDup (keys m1) -> NoDup (keys m2))).
      { assert (Same : forall ns, dget d m1 = Some ns -> ns = names_with a rest d -> forall d', dget d' m1 = if String.eqb d' d then Some (names_with a rest d) else dget d' m1).
        { intros ns E1 E2 d'. destruct (String.eqb d' d) eqn:E; auto. apply String.eqb_eq in E. subst. auto. }
        assert (Ns : d <> "*" -> names a out d = names_with a rest d). { intros H. unfold names, names_with. apply String.eqb_neq in H. rewrite H. auto. }
        destruct (dget d w) as [ws|] eqn:Ew.
        - unfold dgetE. destruct (H1 d Hd) as [E|E]; rewrite E; cbn [bind].
          + destruct (same_list (names a out d) ws) eqn:Es.
            * exists (dset d ws m1). split; auto. split; [|apply NoDup_dset]. intros d'. rewrite dget_dset. destruct (String.eqb d' d); auto. f_equal.
              destruct (String.eqb d "*") eqn:Ed.
              -- apply String.eqb_eq in Ed. subst d. rewrite Ew in Hr. unfold names in Es. cbn [String.eqb Ascii.eqb Bool.eqb] in Es. rewrite Es in Hr. unfold names_with. cbn [String.eqb Ascii.eqb Bool.eqb]. auto.
              -- apply String.eqb_neq in Ed. rewrite <- Ns by auto. unfold names in Es |- *. apply String.eqb_neq in Ed. rewrite Ed in Es |- *. pose proof (same_list_len _ _ Es) as L. pose proof (same_list_iff _ _ Es) as I. destruct (mem d (dims a)).
                 ++ destruct ws as [|x [|y ws]]; try discriminate L. f_equal. destruct (proj1 (I d) (or_introl eq_refl)) as [->|[]]; auto.
                 ++ destruct ws; [auto|discriminate L].
            * exists m1. split; auto. split; auto. apply (Same (names a out d)); auto. destruct (String.eqb d "*") eqn:Ed; [|apply Ns; apply String.eqb_neq; auto].
              apply String.eqb_eq in Ed. subst d. rewrite Ew in Hr. unfold names in Es |- *. unfold names_with. cbn [String.eqb Ascii.eqb Bool.eqb] in Es |- *. rewrite Es in Hr. auto.
          + destruct (same_list (names_with a rest d) ws) eqn:Es; [|exists m1; split; auto; split; auto; apply (Same (names_with a rest d)); auto].
            exists (dset d ws m1). split; auto. split; [|apply NoDup_dset]. intros d'. rewrite dget_dset. destruct (String.eqb d' d); auto. f_equal.
            destruct (String.eqb d "*") eqn:Ed.
            * apply String.eqb_eq in Ed. subst d. rewrite Ew in Hr. unfold names_with in Es |- *. cbn [String.eqb Ascii.eqb Bool.eqb] in Es |- *. destruct (same_list (unlisted a out) ws) eqn:E3; auto. subst rest. congruence.
            * unfold names_with in Es |- *. rewrite Ed in Es |- *. pose proof (same_list_len _ _ Es) as L. pose proof (same_list_iff _ _ Es) as I. destruct (mem d (dims a)).
              -- destruct ws as [|x [|y ws]]; try discriminate L. f_equal. destruct (proj1 (I d) (or_introl eq_refl)) as [->|[]]; auto.
              -- destruct ws; [auto|discriminate L].
        - exists m1. split; auto. split; auto. destruct (H1 d Hd) as [E|E]; [|apply (Same (names_with a rest d)); auto]. apply (Same (names a out d)); auto.
          destruct (String.eqb d "*") eqn:Ed; [|apply Ns; apply String.eqb_neq; auto]. apply String.eqb_eq in Ed. subst d. rewrite Ew in Hr. subst rest. reflexivity. }
      destruct S as (m2 & E2 & V2 & N2). rewrite E2. cbn [bind]. destruct (IH m2) as (m' & E' & V' & N').
      - intros x Hx. apply Hi. cbn; auto.
      - intros x Hx. rewrite V2. destruct (String.eqb x d) eqn:E; auto. apply String.eqb_eq in E. subst; auto.
      - exists m'. split; auto. split; auto. intros x. rewrite V', V2. destruct (mem x l) eqn:E.
        + replace (mem x (d :: l)) with true; auto. symmetry. apply mem_In. right. apply mem_In; auto.
        + destruct (String.eqb x d) eqn:Ex. apply String.eqb_eq in Ex. subst. replace (mem d (d :: l)) with true; auto. symmetry. apply mem_In. cbn; auto.
          replace (mem x (d :: l)) with false; auto. symmetry. apply mem_false. intros [->|H]. rewrite String.eqb_refl in Ex. discriminate. apply mem_false in E. contradiction. }
    destruct (G out m (incl_refl _)) as (m' & E & V & N'). { intros d Hd. left. auto. } exists m', rest. split; auto.
  Qed.

  (** What get_numpy_array computes, in one piece. *)
  Lemma get_eq : forall (a : da T) out req, wf_da a -> ~ In "*" (dims a) -> exists rest, flattened a out req rest /\
    (get_numpy a out req =
     if forallb (known a) out then
       if forallb (fun d => mem d (flat_map (names_with a rest) out)) (dims a) then
         let* t := transpose_to a (flat_map (names_with a rest) out) in
         Ok (mknd (map (fun d => prod (map (len a) (names_with a rest d))) out) (data t), if mem "*" out then [("*", rest)] else [])
       else Err EDimNotInOut
     else Err ENoMatch).
  Proof.
    intros a out req W Hs.
    assert (K : exists rest, flattened a out req rest /\
      (let* m := dim_names a out in
       let* m := match req with Some w => require_matches w out m | None => Ok m end in
       let* target := target_order m out in
       if forallb (fun d => mem d target) (dims a) then
         let* _ := check_slices m out in
         let* sh := final_shape a m out in
         let* t := transpose_to a target in
         let* r := reshape t sh in
         Ok (r, filter (fun kv => String.eqb (fst kv) "*") m)
       else Err EDimNotInOut) =
      (if forallb (known a) out then
       if forallb (fun d => mem d (flat_map (names_with a rest) out)) (dims a) then
         let* t := transpose_to a (flat_map (names_with a rest) out) in
         Ok (mknd (map (fun d => prod (map (len a) (names_with a rest d))) out) (data t), if mem "*" out then [("*", rest)] else [])
       else Err EDimNotInOut
     else Err ENoMatch)).
    { pose proof (dim_names_spec a out (proj1 (proj2 W)) Hs) as D. destruct (forallb (known a) out).
      2: { rewrite D. cbn [bind]. assert (exists rest, flattened a out req rest) as (rest & Hf).
           { unfold flattened. destruct req as [w|]; [|eauto]. destruct (dget "*" w) as [ws|]; [|eauto]. destruct (perm_dec (unlisted a out) ws). apply unlisted_NoDup, W. eauto. eauto. }
           exists rest. auto. }
      destruct D as (m & Em & Vm & Nm). rewrite Em. cbn [bind].
      assert (R : exists m' rest, match req with Some w => require_matches w out m | None => Ok m end = Ok m' /\ flattened a out req rest /\ (forall d, dget d m' = if mem d out then Some (names_with a rest d) else None) /\ NoDup (keys m')).
      { destruct req as [w|].
        - destruct (require_ok a out w m (proj1 (proj2 W))) as (m' & rest & E & F & V & N'). { intros d Hd. rewrite Vm. apply mem_In in Hd. rewrite Hd. auto. }
          exists m', rest. split; auto. split; auto. split; auto. intros d. rewrite V, Vm. destruct (mem d out); auto.
        - exists m, (unlisted a out). split; auto. split. reflexivity. split; auto. }
      destruct R as (m' & rest & E & F & V & N'). rewrite E. cbn [bind]. exists rest. split; auto. rewrite (get_core a m' out (names_with a rest) W).
      - destruct (forallb (fun d => mem d (flat_map (names_with a rest) out)) (dims a)); auto. destruct (transpose_to a _); auto. cbn [bind]. f_equal. f_equal.
        pose proof (V "*") as Vs. clear - Vs N'. assert (G : filter (fun kv => String.eqb (fst kv) "*") m' = match dget "*" m' with Some v => [("*", v)] | None => [] end).
        { clear Vs. induction m' as [|[k v] m' IH]; auto. inversion N' as [|? ? Hk N2]; subst. cbn [filter fst dget]. rewrite (String.eqb_sym "*" k). destruct (String.eqb k "*") eqn:Ek.
          - apply String.eqb_eq in Ek. subst. f_equal. rewrite IH by auto. apply dget_none in Hk. rewrite Hk. auto.
          - auto. }
        rewrite G, Vs. destruct (mem "*" out); auto.
      - intros d Hd. rewrite V. apply mem_In in Hd. rewrite Hd. auto.
      - intros d Hd Hne. unfold names_with. apply String.eqb_neq in Hne. rewrite Hne. destruct (mem d (dims a)); cbn; auto. }
    destruct K as (rest & F & K). exists rest. split; auto. refine (eq_trans _ K). unfold get_numpy. destruct (shape (arr a)) as [|n sh] eqn:Sh; [|reflexivity]. destruct out as [|d out]; [|reflexivity].
    assert (D : dims a = []). { destruct W as (L & _). rewrite Sh in L. destruct (dims a); auto. discriminate L. }
    rewrite K. rewrite D. cbn [forallb flat_map map mem existsb]. unfold transpose_to. rewrite D. cbn [same_list length Nat.eqb forallb andb map bind]. f_equal. f_equal.
    apply nd_ext. apply W. red. cbn. auto. auto. intros idx Hi. rewrite Sh in Hi. inversion Hi; subst. unfold at_, build. cbn. rewrite Sh. auto.
  Qed.

  (** ** Which [out] are accepted *)

  Lemma count_flat : forall (a : da T) rest out x, ~ In "*" (dims a) -> NoDup rest ->
    count_occ string_dec (flat_map (names_with a rest) out) x = (if mem x rest then count_occ string_dec out "*" else 0) + (if mem x (dims a) then count_occ string_dec out x else 0).
  Proof.
    intros a rest out x Hs Nr. induction out as [|d out IH]. { cbn. destruct (mem x rest), (mem x (dims a)); auto. }
    cbn [flat_map]. rewrite count_occ_app, IH. unfold names_with at 1. destruct (String.eqb d "*") eqn:Ed.
    - apply String.eqb_eq in Ed. subst d. rewrite (count_occ_cons_eq _ _ (eq_refl "*")). destruct (mem x (dims a)) eqn:Ex.
      + assert (x <> "*"). { intros ->. apply mem_In in Ex. contradiction. } rewrite count_occ_cons_neq by auto.
        destruct (mem x rest) eqn:Er. apply mem_In in Er. rewrite (NoDup_count_occ' string_dec) in Nr. rewrite Nr by auto. lia. apply mem_false in Er. apply (count_occ_not_In string_dec) in Er. rewrite Er. lia.
      + destruct (mem x rest) eqn:Er. apply mem_In in Er. rewrite (NoDup_count_occ' string_dec) in Nr. rewrite Nr by auto. lia. apply mem_false in Er. apply (count_occ_not_In string_dec) in Er. rewrite Er. lia.
    - apply String.eqb_neq in Ed. rewrite count_occ_cons_neq by auto. destruct (string_dec d x) as [->|Hne].
      + rewrite (count_occ_cons_eq _ _ (eq_refl x)). destruct (mem x (dims a)); cbn [count_occ]; [destruct (string_dec x x); [lia|contradiction]|lia].
      + rewrite (count_occ_cons_neq _ _ Hne). destruct (mem d (dims a)); cbn [count_occ]; [destruct (string_dec d x); [contradiction|lia]|lia].
  Qed.

  Lemma accepted_iff : forall (a : da T) out rest, NoDup (dims a) -> ~ In "*" (dims a) -> Permutation (unlisted a out) rest ->
    (describes a out <-> forallb (known a) out = true /\ Permutation (flat_map (names_with a rest) out) (dims a)).
  Proof.
    intros a out rest Nd Hs P. assert (Nr : NoDup rest) by (eapply Permutation_NoDup; [exact P|apply unlisted_NoDup; auto]).
    assert (Rin : forall x, In x rest <-> In x (dims a) /\ ~ In x out). { intros x. rewrite <- unlisted_In. split; apply Permutation_in; auto. apply Permutation_sym; auto. }
    assert (K : forallb (known a) out = true <-> forall d, In d out -> In d (dims a) \/ In d ["x"; "y"; "z"; "*"]).
    { rewrite forallb_forall. unfold known. split; intros H d Hd; specialize (H d Hd); rewrite orb_true_iff, !mem_In in *; auto. }
    rewrite K. assert (C : Permutation (flat_map (names_with a rest) out) (dims a) <-> forall x, In x (dims a) -> if mem x out then count_occ string_dec out x = 1 else count_occ string_dec out "*" = 1).
    { rewrite (Permutation_count_occ string_dec). split.
      - intros H x Hx. specialize (H x). rewrite count_flat in H by auto. rewrite ((proj1 (NoDup_count_occ' string_dec _) Nd) x Hx) in H. assert (Ex : mem x (dims a) = true) by (apply mem_In; auto). rewrite Ex in H.
        destruct (mem x out) eqn:Eo.
        + replace (mem x rest) with false in H; [lia|]. symmetry. apply mem_false. rewrite Rin. apply mem_In in Eo. tauto.
        + apply mem_false in Eo. replace (mem x rest) with true in H. 2: { symmetry. apply mem_In. rewrite Rin. auto. } apply (count_occ_not_In string_dec) in Eo. lia.
      - intros H x. rewrite count_flat by auto. destruct (mem x (dims a)) eqn:Ex.
        + apply mem_In in Ex. rewrite ((proj1 (NoDup_count_occ' string_dec _) Nd) x Ex). specialize (H x Ex). destruct (mem x out) eqn:Eo.
          * replace (mem x rest) with false; [lia|]. symmetry. apply mem_false. rewrite Rin. apply mem_In in Eo. tauto.
          * apply mem_false in Eo. replace (mem x rest) with true. 2: { symmetry. apply mem_In. rewrite Rin. auto. } apply (count_occ_not_In string_dec) in Eo. lia.
        + apply mem_false in Ex. replace (mem x rest) with false. 2: { symmetry. apply mem_false. rewrite Rin. tauto. } apply (count_occ_not_In string_dec) in Ex. lia. }
    rewrite C. unfold describes. split.
    - intros (H1 & H2 & H3 & H4). split; auto. intros x Hx. destruct (mem x out) eqn:Eo.
      + apply mem_In in Eo. apply (count_occ_In string_dec) in Eo. specialize (H3 x Hx). lia.
      + apply mem_false in Eo. destruct (H2 x Hx) as [H|H]; [contradiction|]. apply (count_occ_In string_dec) in H.
        assert (unlisted a out <> []). { intros E. assert (In x (unlisted a out)) by (apply unlisted_In; auto). rewrite E in H0. destruct H0. } specialize (H4 H0). lia.
    - intros (H1 & H2). split; auto. split; [|split].
      + intros d Hd. specialize (H2 d Hd). destruct (mem d out) eqn:Eo; [left; apply mem_In; auto|]. right. apply (count_occ_In string_dec). lia.
      + intros d Hd. specialize (H2 d Hd). destruct (mem d out) eqn:Eo; [lia|]. apply mem_false in Eo. apply (count_occ_not_In string_dec) in Eo. lia.
      + intros Hu. destruct (unlisted a out) as [|x l] eqn:E; [contradiction|]. assert (Hx : In x (unlisted a out)) by (rewrite E; cbn; auto). apply unlisted_In in Hx as (Hx & Ho). specialize (H2 x Hx). apply mem_false in Ho. rewrite Ho in H2. lia.
  Qed.

  Lemma perm_covers : forall (F D : list string), Permutation F D -> forallb (fun d => mem d F) D = true.
  Proof. intros F D P. apply forallb_forall. intros x Hx. apply mem_In. eapply Permutation_in; [apply Permutation_sym|]; eauto. Qed.

  Lemma transpose_ok_iff : forall (a : da T) ds, NoDup (dims a) -> ((exists t, transpose_to a ds = Ok t) <-> Permutation ds (dims a)).
  Proof.
    intros a ds Nd. unfold transpose_to. split.
    - intros (t & H). destruct (same_list ds (dims a)) eqn:E; [|discriminate H]. apply same_list_perm in E as (_ & P); auto.
    - intros P. rewrite (perm_same_list _ _ P). eauto.
  Qed.

  (** C59: get_numpy_array returns exactly when the dims it is given describe the array. *)
  Theorem main_get_iff : forall (a : da T) out req, wf_da a -> ~ In "*" (dims a) -> ((exists r w, get_numpy a out req = Ok (r, w)) <-> describes a out).
  Proof.
    intros a out req W Hs. destruct (get_eq a out req W Hs) as (rest & F & E). rewrite E. rewrite (accepted_iff a out rest (proj1 (proj2 W)) Hs (flattened_perm _ _ _ _ F)). split.
    - intros (r & w & H). destruct (forallb (known a) out); [|discriminate H]. split; auto. destruct (forallb _ (dims a)); [|discriminate H]. apply bind_ok in H as (t & Ht & _). apply transpose_ok_iff. apply W. eauto.
    - intros (-> & P). rewrite (perm_covers _ _ P). apply transpose_ok_iff in P as (t & ->). cbn [bind]. eauto. apply W.
  Qed.

  (** C59: what it returns. *)
  Theorem main_get_values : forall (a : da T) out req r w, wf_da a -> ~ In "*" (dims a) -> get_numpy a out req = Ok (r, w) ->
    exists rest, flattened a out req rest /\ w = (if mem "*" out then [("*", rest)] else []) /\ wf_nd r /\ shape r = map (axis_len a rest) out /\
      forall c, inside a c -> at_ r (map (axis_at a rest c) out) = da_at a c.
  Proof.
    intros a out req r w W Hs H. destruct (get_eq a out req W Hs) as (rest & F & E). exists rest. split; auto. rewrite E in H. destruct (forallb (known a) out); [|discriminate H]. destruct (forallb _ (dims a)); [|discriminate H].
    apply bind_ok in H as (t & Ht & H). injection H as <- <-. split; auto. destruct (transpose_to_shape _ _ _ Ht) as (S & Wt & _). split; [|split].
    - red. cbn [shape data]. rewrite Wt, S, prod_flat. auto.
    - cbn [shape]. apply map_ext. intros d. unfold axis_len, names_with. destruct (String.eqb d "*"); auto. destruct (mem d (dims a)) eqn:Ed; cbn [map]. rewrite prod_cons, prod_nil. lia.
      rewrite prod_nil. unfold len. rewrite dim_len_none; auto. apply mem_false; auto.
    - intros c Hc. rewrite <- (core_at a (names_with a rest) out t c W Ht Hc). f_equal. apply map_ext. intros d. unfold axis_at, names_with. destruct (String.eqb d "*"); auto. destruct (mem d (dims a)); auto. cbn. unfold prod; cbn. lia.
  Qed.

  (** ** restore_dimensions *)

  Lemma restore_eq : forall (v : nd T) out like at', wf_da like -> ~ In "*" (dims like) ->
    restore_dims v out like at' =
    if forallb (known like) out then
      let F := flat_map (names_with like (unlisted like out)) out in
      if Nat.eqb (prod (shape v)) (prod (map (len like) F)) then
        let* t := transpose_to (mkda F (mknd (map (len like) F) (data v)) []) (dims like) in
        Ok (mkda (dims like) t at')
      else Err EShapeMismatch
    else Err ENoMatch.
  Proof.
    intros v out like at' W Hs. unfold restore_dims. pose proof (dim_names_spec like out (proj1 (proj2 W)) Hs) as D. destruct (forallb (known like) out); [|rewrite D; auto].
    destruct D as (m & Em & Vm & _). rewrite Em. cbn [bind]. rewrite (target_order_ok m out (names_with like (unlisted like out))). 2: { intros d Hd. rewrite Vm. apply mem_In in Hd. rewrite Hd. auto. }
    cbn [bind]. change (fun d => or1 (dim_len like d)) with (len like). cbv zeta. set (F := flat_map _ out). destruct (Nat.eqb (prod (shape v)) (prod (map (len like) F))) eqn:E; auto. cbn [negb].
    unfold reshape. rewrite Nat.eqb_sym, E. cbn [bind]. auto.
  Qed.

  Lemma prod_perm : forall l l', Permutation l l' -> prod l = prod l'.
  Proof. intros l l' P. induction P; auto; try (rewrite !prod_cons; lia). congruence. Qed.

  Lemma prod_size : forall (a : da T) F, wf_da a -> Permutation F (dims a) -> prod (map (len a) F) = prod (shape (arr a)).
  Proof. intros a F W P. rewrite <- map_dim_len by auto. apply prod_perm. apply (Permutation_map (len a)). auto. Qed.

  (** C59: restoring what was taken from an array gives its dims and values back. *)
  Theorem main_get_restore : forall (a : da T) out r w at', wf_da a -> ~ In "*" (dims a) -> get_numpy a out None = Ok (r, w) -> restore_dims r out a at' = Ok (mkda (dims a) (arr a) at').
  Proof.
    intros a out r w at' W Hs H. destruct (get_eq a out None W Hs) as (rest & F & E). cbn in F. subst rest. rewrite E in H. rewrite restore_eq by auto. destruct (forallb (known a) out); [|discriminate H].
    cbv zeta. set (F := flat_map (names_with a (unlisted a out)) out) in *. destruct (forallb _ (dims a)); [|discriminate H]. apply bind_ok in H as (t & Ht & H). injection H as <- _. cbn [shape data].
    rewrite <- prod_flat. fold F. rewrite Nat.eqb_refl. destruct (transpose_to_shape _ _ _ Ht) as (S & _ & _).
    replace (mknd (map (len a) F) (data t)) with t. 2: { rewrite <- S. destruct t; auto. } rewrite (transpose_back a F t W Ht). auto.
  Qed.

  (** C59: restore_dimensions returns exactly when the dims describe the reference and the
      numbers of elements agree. *)
  Theorem main_restore_iff : forall (v : nd T) out like at', wf_da like -> ~ In "*" (dims like) ->
    ((exists b, restore_dims v out like at' = Ok b) <-> describes like out /\ prod (shape v) = prod (shape (arr like))).
  Proof.
    intros v out like at' W Hs. rewrite restore_eq by auto. rewrite (accepted_iff like out (unlisted like out) (proj1 (proj2 W)) Hs (Permutation_refl _)). cbv zeta. set (F := flat_map _ out). split.
    - intros (b & H). destruct (forallb (known like) out); [|discriminate H]. destruct (Nat.eqb _ _) eqn:E; [|discriminate H]. apply Nat.eqb_eq in E. apply bind_ok in H as (t & Ht & _).
      destruct (transpose_to_shape _ _ _ Ht) as (_ & _ & S). cbn [dims] in S.
      assert (P : Permutation F (dims like)).
      { pose proof (same_list_len _ _ S) as L. pose proof (same_list_iff _ _ S) as I. apply Permutation_sym. apply NoDup_Permutation; auto. apply W. apply (@NoDup_incl_NoDup _ (dims like) F (proj1 (proj2 W))). lia. intros x Hx. apply I; auto. }
      split; auto. rewrite E. apply prod_size; auto.
    - intros ((-> & P) & E). rewrite E, (prod_size like F W P), Nat.eqb_refl. unfold transpose_to. cbn [dims]. rewrite perm_same_list. cbn [bind]. eauto. apply Permutation_sym; auto.
  Qed.

  Lemma restore_names : forall (v : nd T) out like at' b, restore_dims v out like at' = Ok b -> dims b = dims like /\ attrs b = at'.
  Proof.
    intros v out like at' b H. unfold restore_dims in H. apply bind_ok in H as (m & _ & H). apply bind_ok in H as (ds & _ & H). cbv zeta in H. destruct (negb _); [discriminate H|].
    apply bind_ok in H as (r & _ & H). apply bind_ok in H as (t & _ & H). injection H as <-. auto.
  Qed.

  (** C59: and taking the array again gives what was restored. *)
  Theorem main_restore_get : forall (v : nd T) out like at' b, wf_da like -> ~ In "*" (dims like) -> wf_nd v -> restore_dims v out like at' = Ok b ->
    wf_da b /\ dims b = dims like /\ shape (arr b) = shape (arr like) /\ attrs b = at' /\
    exists r w, get_numpy b out None = Ok (r, w) /\ shape r = map (axis_len like (unlisted like out)) out /\ data r = data v.
  Proof.
    intros v out like at' b W Hs Wv H. destruct (restore_names _ _ _ _ _ H) as (Db & Ab). assert (Hok : exists b, restore_dims v out like at' = Ok b) by eauto. apply main_restore_iff in Hok as (Hd & Hp); auto.
    pose proof (proj1 (accepted_iff like out (unlisted like out) (proj1 (proj2 W)) Hs (Permutation_refl _)) Hd) as (K & P).
    rewrite restore_eq in H by auto. rewrite K in H. cbv zeta in H. set (F := flat_map (names_with like (unlisted like out)) out) in *. destruct (Nat.eqb _ _) eqn:E; [|discriminate H]. apply Nat.eqb_eq in E.
    apply bind_ok in H as (t & Ht & H). injection H as <-. set (a0 := mkda F (mknd (map (len like) F) (data v)) []) in *.
    assert (NF : NoDup F) by (eapply Permutation_NoDup; [apply Permutation_sym; exact P|apply W]).
    assert (W0 : wf_da a0). { split. cbn. rewrite map_length; auto. split; auto. red. cbn [a0 arr shape data]. rewrite Wv, E. auto. }
    destruct (len_transposed a0 (dims like) t W0 Ht) as (Wb & Hlen). destruct (transpose_to_shape _ _ _ Ht) as (S & Wt & _).
    assert (L0 : forall d, In d F -> len a0 d = len like d).
    { intros d Hd0. pose proof (map_dim_len a0 W0) as M. cbn [a0 dims arr shape] in M. rewrite <- (coord_map (len like) F d Hd0), <- M. symmetry. apply (coord_map (fun d => or1 (dim_len a0 d))); auto. }
    assert (Sb : shape t = shape (arr like)). { rewrite S. rewrite <- map_dim_len by auto. apply map_ext_in. intros d Hd0. apply L0. eapply Permutation_in; [apply Permutation_sym|]; eauto. }
    set (b := mkda (dims like) t at') in *. assert (Wb' : wf_da b) by exact Wb. split; auto. split; auto. split; auto. split; auto.
    assert (Db2 : describes b out) by exact Hd. destruct (get_eq b out None Wb' Hs) as (rest & Fr & Eg). cbn in Fr. subst rest.
    assert (Hb : exists r w, get_numpy b out None = Ok (r, w)) by (apply main_get_iff; auto). destruct Hb as (r & w & Hg). exists r, w. split; auto.
    destruct (main_get_values b out None r w Wb' Hs Hg) as (rest & Fr & _ & _ & Sr & _). cbn in Fr. subst rest. split.
    - rewrite Sr. unfold axis_len. assert (Lb : forall d, len b d = len like d). { intros d. unfold len, dim_len. cbn [b dims arr]. rewrite Sb. auto. }
      apply map_ext. intros d. rewrite Lb. destruct (String.eqb d "*"); auto. f_equal. apply map_ext. auto.
    - rewrite Eg in Hg. destruct (forallb (known b) out); [|discriminate Hg]. destruct (forallb _ (dims b)); [|discriminate Hg]. apply bind_ok in Hg as (t' & Ht' & Hg). injection Hg as <- _. cbn [data].
      change (flat_map (names_with b (unlisted b out)) out) with F in Ht'. pose proof (transpose_back a0 (dims like) t W0 Ht) as TB. change (transpose_to b F = Ok (arr a0)) in TB. assert (Et : Ok t' = Ok (arr a0)) by (rewrite <- Ht'; exact TB). injection Et as ->. auto.
  Qed.
End UtilMain.
