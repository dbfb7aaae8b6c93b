(** Lemmas about get_numpy_array and restore_dimensions (C59). *)
From Coq Require Import String List Bool Arith ZArith Lia Permutation.
From Verif Require Import Prelude PreludeFacts ArithM NdArray NdFacts DataArrayM SpecArrays GetNpFacts NetCDF NetCDFMain NetCDFSucceeds UtilM SpecUtil.
Import ListNotations.
Open Scope string_scope.
Open Scope nat_scope.
Open Scope list_scope.

Lemma same_list_len : forall a b, same_list a b = true -> length a = length b.
Proof. intros a b H. apply andb_true_iff in H as (H & _). apply Nat.eqb_eq; auto. Qed.

Lemma same_list_perm : forall a b, NoDup b -> same_list a b = true -> NoDup a /\ Permutation a b.
Proof.
  intros a b Nb H. pose proof (same_list_len _ _ H) as L. pose proof (same_list_iff _ _ H) as I.
  assert (Na : NoDup a). { apply (@NoDup_incl_NoDup _ b a Nb). lia. intros x Hx. apply I; auto. }
  split; auto. apply NoDup_Permutation; auto.
Qed.

Lemma perm_same_list : forall a b, Permutation a b -> same_list a b = true.
Proof.
  intros a b P. unfold same_list. rewrite (Permutation_length P), Nat.eqb_refl. cbn [andb]. apply andb_true_iff. split; apply forallb_forall; intros x Hx; apply mem_In.
  eapply Permutation_in; eauto. eapply Permutation_in; [apply Permutation_sym|]; eauto.
Qed.

Section UtilFacts.
  Context {T : Type} {A : Arith T}.

  (** ** Transposing by names *)

  Lemma transpose_to_shape : forall (a : da T) ds t, transpose_to a ds = Ok t -> shape t = map (len a) ds /\ wf_nd t /\ same_list ds (dims a) = true.
  Proof. intros a ds t H. unfold transpose_to in H. destruct (same_list ds (dims a)); [|discriminate H]. injection H as <-. rewrite shape_build. split; auto. split; auto. apply wf_build. Qed.

  Lemma inside_range : forall (a : da T) c ds, inside a c -> incl ds (dims a) -> in_range (map c ds) (map (len a) ds).
  Proof. intros a c ds H I. apply Forall2_map_lt. intros x Hx. apply H, I; auto. Qed.

  Lemma transpose_to_at : forall (a : da T) ds t c, wf_da a -> transpose_to a ds = Ok t -> inside a c -> at_ t (map c ds) = da_at a c.
  Proof.
    intros a ds t c W H Hc. pose proof (transpose_to_shape _ _ _ H) as (_ & _ & S). unfold transpose_to in H. rewrite S in H. injection H as <-. destruct W as (_ & Nd & _).
    destruct (same_list_perm _ _ Nd S) as (Nds & P). change (fun d => or1 (dim_len a d)) with (len a). rewrite at_build. 2: { apply inside_range; auto. intros x Hx. eapply Permutation_in; eauto. }
    unfold da_at. f_equal. apply map_ext_in. intros d Hd. apply coord_map. eapply Permutation_in; [apply Permutation_sym|]; eauto.
  Qed.

  Lemma len_transposed : forall (a : da T) ds t, wf_da a -> transpose_to a ds = Ok t -> wf_da (mkda ds t []) /\ forall d, In d (dims a) -> len (mkda ds t []) d = len a d.
  Proof.
    intros a ds t W H. destruct (transpose_to_shape _ _ _ H) as (S & Wt & Sl). destruct (same_list_perm _ _ (proj1 (proj2 W)) Sl) as (Nds & P).
    assert (W' : wf_da (mkda ds t [])). { split. cbn. rewrite S, map_length; auto. split; auto. } split; auto.
    intros d Hd. assert (Hd' : In d ds) by (eapply Permutation_in; [apply Permutation_sym|]; eauto).
    pose proof (map_dim_len (mkda ds t []) W') as M. cbn [dims arr] in M. rewrite S in M. rewrite <- (coord_map (len a) ds d Hd'), <- M. symmetry. apply (coord_map (fun d => or1 (dim_len (mkda ds t []) d))); auto.
  Qed.

  (** Every index is that of a coordinate. *)
  Lemma idx_coord : forall (a : da T) idx, wf_da a -> in_range idx (shape (arr a)) -> idx = map (coord (dims a) idx) (dims a) /\ inside a (coord (dims a) idx).
  Proof.
    intros a idx W H. assert (L : length idx = length (dims a)). { rewrite (in_range_length _ _ H). symmetry. apply W. }
    split. symmetry. apply map_coord_self; auto. apply W. rewrite <- map_dim_len in H by auto. change (fun d => or1 (dim_len a d)) with (len a) in H. unfold inside. revert L H. generalize (len a) as f. generalize (dims a) as ds.
    induction idx as [|i idx IH]; intros [|x ds] f L H d Hd; cbn in *; try discriminate; try contradiction.
    inversion H as [|? ? ? ? Hi Hr]; subst. destruct (String.eqb d x) eqn:E. apply String.eqb_eq in E. subst; auto. destruct Hd as [->|Hd]. rewrite String.eqb_refl in E; discriminate. apply IH; auto.
  Qed.

  Lemma transpose_back : forall (a : da T) ds t, wf_da a -> transpose_to a ds = Ok t -> transpose_to (mkda ds t []) (dims a) = Ok (arr a).
  Proof.
    intros a ds t W H. destruct (transpose_to_shape _ _ _ H) as (S & Wt & Sl). destruct (len_transposed a ds t W H) as (W' & Hlen). destruct (same_list_perm _ _ (proj1 (proj2 W)) Sl) as (Nds & P).
    destruct (transpose_to (mkda ds t []) (dims a)) as [t'|e] eqn:E.
    2: { exfalso. unfold transpose_to in E. cbn [dims] in E. rewrite (perm_same_list (dims a) ds) in E. discriminate E. apply Permutation_sym; auto. }
    f_equal. destruct (transpose_to_shape _ _ _ E) as (S' & Wt' & _).
    assert (Hs : shape t' = shape (arr a)). { rewrite S', <- map_dim_len by auto. apply map_ext_in. intros d Hd. apply Hlen; auto. }
    apply nd_ext; auto. apply W. intros idx Hi. rewrite Hs in Hi. destruct (idx_coord a idx W Hi) as (Ei & Hc). rewrite Ei at 1. set (c := coord (dims a) idx) in *.
    assert (Hin : inside (mkda ds t []) c). { intros d Hd. cbn in Hd. assert (Hd' : In d (dims a)) by (eapply Permutation_in; eauto). rewrite Hlen by auto. apply Hc; auto. }
    rewrite (transpose_to_at (mkda ds t []) (dims a) t' c W' E Hin). unfold da_at at 1. cbn [arr dims]. rewrite (transpose_to_at a ds t c W H Hc). unfold da_at. rewrite <- Ei. auto.
  Qed.

  (** ** Names *)

  (** The dims of the array that one of [out] stands for. *)
  Definition names (a : da T) (out : list string) (d : string) : list string :=
    if String.eqb d "*" then unlisted a out else if mem d (dims a) then [d] else [].

  Lemma filter_one : forall d l, NoDup l -> filter (fun x => String.eqb x d) l = if mem d l then [d] else [].
  Proof.
    induction l as [|x l IH]; intros Nd; cbn [filter]; auto. inversion Nd as [|? ? Hx Nd']; subst. destruct (String.eqb x d) eqn:E.
    - apply String.eqb_eq in E. subst. replace (mem d (d :: l)) with true by (symmetry; apply mem_In; cbn; auto). f_equal. rewrite IH by auto. apply mem_false in Hx. rewrite Hx. auto.
    - rewrite IH by auto. assert (mem d (x :: l) = mem d l). { apply eq_true_iff_eq. rewrite !mem_In. cbn. split; auto. intros [->|H]; auto. rewrite String.eqb_refl in E. discriminate. } rewrite H. auto.
  Qed.

  Definition known (a : da T) (d : string) : bool := mem d (dims a) || mem d ["x"; "y"; "z"; "*"].

  Definition dir_step (a : da T) (m : dict (list string)) (d : string) : res (dict (list string)) :=
    if String.eqb d "*" then Ok m
    else let ns := filter (fun x => String.eqb x d) (dims a) in
         if negb (mem d ["x"; "y"; "z"; "*"]) && Nat.eqb (length ns) 0 then Err ENoMatch else Ok (dset d ns m).

  Lemma dim_names_eq : forall (a : da T) out, dim_names a out = let* m := foldM (dir_step a) out [] in
    if mem "*" out then Ok (dset "*" (filter (fun x => negb (existsb (fun ns => mem x (snd ns)) m)) (dims a)) m) else Ok m.
  Proof. reflexivity. Qed.

  Lemma dir_loop : forall (a : da T) out m, NoDup (dims a) -> 
    if forallb (known a) out then exists m', foldM (dir_step a) out m = Ok m' /\
      (forall d, dget d m' = if mem d out && negb (String.eqb d "*") then Some (if mem d (dims a) then [d] else []) else dget d m)
    else foldM (dir_step a) out m = Err ENoMatch.
  Proof.
    intros a out. induction out as [|d out IH]; intros m Nd; cbn [forallb foldM]. { exists m. split; auto. }
    unfold dir_step at 1 3. destruct (String.eqb d "*") eqn:E.
    - apply String.eqb_eq in E. subst d. replace (known a "*") with true by (unfold known; rewrite orb_true_r; auto). cbn [andb bind]. specialize (IH m Nd).
      destruct (forallb (known a) out); [|exact IH]. destruct IH as (m' & Hm & Hd). exists m'. split; auto. intros d. rewrite Hd.
      assert (mem d ("*" :: out) && negb (String.eqb d "*") = mem d out && negb (String.eqb d "*")) as ->; auto.
      destruct (String.eqb d "*") eqn:E. rewrite !andb_false_r; auto. rewrite !andb_true_r. apply eq_true_iff_eq. rewrite !mem_In. cbn. split; auto. intros [<-|H]; auto. discriminate E.
    - rewrite filter_one by auto. cbv zeta. change (known a d) with (mem d (dims a) || mem d ["x"; "y"; "z"; "*"]). destruct (mem d ["x"; "y"; "z"; "*"]) eqn:Ex.
      + cbn [negb andb bind]. rewrite orb_true_r. cbn [andb]. specialize (IH (dset d (if mem d (dims a) then [d] else []) m) Nd). destruct (forallb (known a) out); [|exact IH].
        destruct IH as (m' & Hm & Hd). exists m'. split; auto. intros d'. rewrite Hd. rewrite dget_dset. destruct (String.eqb d' d) eqn:E'.
        * apply String.eqb_eq in E'. subst d'. rewrite E. cbn [negb]. rewrite !andb_true_r. replace (mem d (d :: out)) with true by (symmetry; apply mem_In; cbn; auto). destruct (mem d out); auto.
        * replace (mem d' (d :: out)) with (mem d' out); auto. apply eq_true_iff_eq. rewrite !mem_In. cbn. split; auto. intros [->|H]; auto. rewrite String.eqb_refl in E'. discriminate.
      + cbn [negb andb]. rewrite orb_false_r. destruct (mem d (dims a)) eqn:Em; cbn [length Nat.eqb andb bind]; auto.
        specialize (IH (dset d [d] m) Nd). destruct (forallb (known a) out); [|exact IH].
        destruct IH as (m' & Hm & Hd). exists m'. split; auto. intros d'. rewrite Hd. rewrite dget_dset. destruct (String.eqb d' d) eqn:E'.
        * apply String.eqb_eq in E'. subst d'. rewrite E. cbn [negb]. rewrite !andb_true_r. replace (mem d (d :: out)) with true by (symmetry; apply mem_In; cbn; auto). rewrite Em. destruct (mem d out); auto.
        * replace (mem d' (d :: out)) with (mem d' out); auto. apply eq_true_iff_eq. rewrite !mem_In. cbn. split; auto. intros [->|H]; auto. rewrite String.eqb_refl in E'. discriminate.
  Qed.

  Lemma dim_names_spec : forall (a : da T) out, NoDup (dims a) -> ~ In "*" (dims a) ->
    if forallb (known a) out then exists m, dim_names a out = Ok m /\ (forall d, dget d m = if mem d out then Some (names a out d) else None) /\ NoDup (keys m)
    else dim_names a out = Err ENoMatch.
  Proof.
    intros a out Nd Hs. rewrite dim_names_eq. pose proof (dir_loop a out [] Nd) as D. destruct (forallb (known a) out); [|rewrite D; auto]. destruct D as (m & Hm & Hd).
    assert (Ndm : NoDup (keys m)).
    { revert Hm. apply (foldM_inv (fun m => NoDup (keys m))). 2: constructor. intros s x s' _ Hk Hst. unfold dir_step in Hst. destruct (String.eqb x "*"). injection Hst as <-; auto.
      cbv zeta in Hst. destruct (_ && _); [discriminate Hst|]. injection Hst as <-. apply NoDup_dset; auto. }
    rewrite Hm. cbn [bind]. destruct (mem "*" out) eqn:Es.
    - eexists. split; [reflexivity|]. split; [|apply NoDup_dset; auto]. intros d. rewrite dget_dset. destruct (String.eqb d "*") eqn:E.
      + apply String.eqb_eq in E. subst d. rewrite Es. unfold names. cbn [String.eqb Ascii.eqb Bool.eqb]. f_equal. unfold unlisted. apply filter_ext_in. intros x Hx. f_equal.
        apply eq_true_iff_eq. rewrite existsb_exists, mem_In. split.
        * intros ((k & ns) & Hin & Hx'). cbn [snd] in Hx'. apply (dget_NoDup_In k ns m Ndm) in Hin. rewrite Hd in Hin. destruct (mem k out && negb (String.eqb k "*")) eqn:Ek; [|discriminate Hin].
          injection Hin as <-. apply mem_In in Hx'. destruct (mem k (dims a)); [|destruct Hx']. destruct Hx' as [<-|[]]. apply andb_true_iff in Ek as (Ek & _). apply mem_In; auto.
        * intros Hx'. exists (x, [x]). split. 2: { apply mem_In. cbn; auto. } apply dget_In. rewrite Hd. replace (mem x out) with true by (symmetry; apply mem_In; auto). replace (mem x (dims a)) with true by (symmetry; apply mem_In; auto).
          replace (String.eqb x "*") with false; auto. symmetry. apply String.eqb_neq. intros ->. contradiction.
      + rewrite Hd. rewrite E. cbn [negb]. rewrite andb_true_r. unfold names. rewrite E. auto.
    - exists m. split; auto. split; auto. intros d. rewrite Hd. destruct (mem d out) eqn:Ed; auto. cbn [andb]. unfold names. destruct (String.eqb d "*") eqn:E; auto. apply String.eqb_eq in E. subst. congruence.
  Qed.

  (** The names in the order of [out], given what each stands for. *)
  Lemma target_order_ok : forall m out (nm : string -> list string), (forall d, In d out -> dget d m = Some (nm d)) -> target_order m out = Ok (flat_map nm out).
  Proof.
    intros m out nm H. unfold target_order. change (flat_map nm out) with ([] ++ flat_map nm out). generalize (@nil string). induction out as [|d out IH]; intros acc; cbn [foldM flat_map]. rewrite app_nil_r; auto.
    unfold dgetE. rewrite H by (cbn; auto). cbn [bind]. rewrite IH. rewrite app_assoc; auto. intros x Hx. apply H. cbn; auto.
  Qed.

  Lemma final_shape_ok : forall (a : da T) m out (nm : string -> list string), (forall d, In d out -> dget d m = Some (nm d)) ->
    final_shape a m out = Ok (map (fun d => prod (map (len a) (nm d))) out).
  Proof.
    intros a m out nm H. unfold final_shape. induction out as [|d out IH]; cbn [mapM map]; auto. unfold dgetE at 1. rewrite H by (cbn; auto). cbn [bind]. rewrite IH by (intros x Hx; apply H; cbn; auto). cbn [bind].
    f_equal. f_equal. destruct (nm d); auto.
  Qed.

  Lemma check_slices_ok : forall m out (nm : string -> list string), (forall d, In d out -> dget d m = Some (nm d)) -> (forall d, In d out -> d <> "*" -> length (nm d) <= 1) -> check_slices m out = Ok tt.
  Proof.
    intros m out nm H H1. unfold check_slices. induction out as [|d out IH]; cbn [foldM]; auto. unfold dgetE at 1. rewrite H by (cbn; auto). cbn [bind].
    assert (E : negb (String.eqb d "*") && Nat.ltb 1 (length (nm d)) = false).
    { destruct (String.eqb d "*") eqn:E; auto. cbn [negb andb]. apply Nat.ltb_ge. apply H1. cbn; auto. apply String.eqb_neq; auto. }
    rewrite E. cbn [raise_if bind]. apply IH. intros x Hx. apply H. cbn; auto. intros x Hx. apply H1. cbn; auto.
  Qed.

  Lemma prod_flat : forall (f : string -> nat) (nm : string -> list string) out, prod (map f (flat_map nm out)) = prod (map (fun d => prod (map f (nm d))) out).
  Proof. intros f nm out. induction out as [|d out IH]; auto. cbn [flat_map map]. rewrite map_app, prod_app, prod_cons, IH. auto. Qed.

  Lemma ravel_flat : forall (f c : string -> nat) (nm : string -> list string) out,
    ravel (map f (flat_map nm out)) (map c (flat_map nm out)) = ravel (map (fun d => prod (map f (nm d))) out) (map (fun d => ravel (map f (nm d)) (map c (nm d))) out).
  Proof.
    intros f c nm out. induction out as [|d out IH]; auto. cbn [flat_map map ravel]. rewrite !map_app. rewrite ravel_app by (rewrite !map_length; auto). rewrite IH. rewrite prod_flat. auto.
  Qed.

  (** ** get_numpy_array, given what each direction stands for *)

  Lemma get_core : forall (a : da T) m out (nm : string -> list string), wf_da a -> (forall d, In d out -> dget d m = Some (nm d)) -> (forall d, In d out -> d <> "*" -> length (nm d) <= 1) ->
    (let* target := target_order m out in
     if forallb (fun d => mem d target) (dims a) then
       let* _ := check_slices m out in
       let* sh := final_shape a m out in
       let* t := transpose_to a target in
       let* r := reshape t sh in
       Ok (r, filter (fun kv => String.eqb (fst kv) "*") m)
     else Err EDimNotInOut) =
    (if forallb (fun d => mem d (flat_map nm out)) (dims a) then
       let* t := transpose_to a (flat_map nm out) in
       Ok (mknd (map (fun d => prod (map (len a) (nm d))) out) (data t), filter (fun kv => String.eqb (fst kv) "*") m)
     else Err EDimNotInOut).
  Proof.
    intros a m out nm W H H1. rewrite (target_order_ok m out nm H). cbn [bind]. destruct (forallb _ (dims a)); auto. rewrite (check_slices_ok m out nm H H1). cbn [bind]. rewrite (final_shape_ok a m out nm H). cbn [bind].
    destruct (transpose_to a (flat_map nm out)) as [t|e] eqn:E; auto. cbn [bind]. destruct (transpose_to_shape _ _ _ E) as (S & Wt & _). unfold reshape. rewrite S, prod_flat, Nat.eqb_refl. auto.
  Qed.

  (** What a reshaped transposed array has where. *)
  Lemma core_at : forall (a : da T) (nm : string -> list string) out t c, wf_da a -> transpose_to a (flat_map nm out) = Ok t -> inside a c ->
    at_ (mknd (map (fun d => prod (map (len a) (nm d))) out) (data t)) (map (fun d => ravel (map (len a) (nm d)) (map c (nm d))) out) = da_at a c.
  Proof.
    intros a nm out t c W E Hc. rewrite <- (transpose_to_at a _ t c W E Hc). unfold at_. cbn [shape data]. destruct (transpose_to_shape _ _ _ E) as (S & _ & _). rewrite S. rewrite ravel_flat. auto.
  Qed.
End UtilFacts.
