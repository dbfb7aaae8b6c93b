(** Lemmas about Units.v and DataArray.to_units. *)
From Coq Require Import String List Bool Arith ZArith QArith Qcanon Lia.
From Verif Require Import Prelude PreludeFacts ArithM NdArray NdFacts Units DataArrayM SpecUnits.
Import ListNotations.
Open Scope string_scope.
Open Scope nat_scope.
Open Scope list_scope.

Lemma zs_eqb_eq : forall l1 l2, zs_eqb l1 l2 = true <-> l1 = l2.
Proof.
  induction l1 as [|x l1 IH]; destruct l2 as [|y l2]; simpl; split; try discriminate; auto.
  - rewrite andb_true_iff, Z.eqb_eq, IH. intros [-> ->]; auto.
  - intros E; injection E as -> ->. rewrite Z.eqb_refl. simpl. apply IH; auto.
Qed.

Lemma Qc_eqb_eq : forall x y, Qc_eqb x y = true <-> x = y.
Proof. intros x y; unfold Qc_eqb; destruct (Qc_eq_dec x y); split; congruence. Qed.

Lemma udim_eqb_eq : forall u1 u2, udim_eqb u1 u2 = true <-> u_dim u1 = u_dim u2.
Proof. intros; apply zs_eqb_eq. Qed.

Lemma one_eqb_eq : forall u1 u2, one_eqb u1 u2 = true <->
  u_dim u1 = u_dim u2 /\ base_value u1 1%Qc = base_value u2 1%Qc.
Proof.
  intros u1 u2. unfold one_eqb, base_value. rewrite andb_true_iff, udim_eqb_eq, Qc_eqb_eq.
  rewrite !Qcmult_1_l. tauto.
Qed.

Lemma one_eqb_refl : forall u, one_eqb u u = true.
Proof. intros; apply one_eqb_eq; auto. Qed.

Lemma aofQ_this : forall x : Qc, aofQ (this x) = x.
Proof. intros x; simpl. apply Qc_is_canon. simpl. rewrite Qred_correct. reflexivity. Qed.

Lemma uconv_Qc : forall u1 u2 (x : Qc),
  uconv u1 u2 x = (x * (u_fac u1 / u_fac u2) + (u_off u1 - u_off u2) / u_fac u2)%Qc.
Proof.
  intros u1 u2 x. unfold uconv.
  destruct (Qc_eqb (u_off u1) 0%Qc && Qc_eqb (u_off u2) 0%Qc) eqn:E; rewrite !aofQ_this; simpl; auto.
  apply andb_true_iff in E as [E1 E2]. apply Qc_eqb_eq in E1, E2. rewrite E1, E2.
  unfold Qcdiv. ring.
Qed.

Lemma uconv_base : forall u1 u2 (x : Qc), u_fac u2 <> 0%Qc -> base_value u2 (uconv u1 u2 x) = base_value u1 x.
Proof.
  intros u1 u2 x H. rewrite uconv_Qc. unfold base_value. field. auto.
Qed.

Lemma base_value_inj : forall u x y, u_fac u <> 0%Qc -> base_value u x = base_value u y -> x = y.
Proof.
  intros u x y H E. unfold base_value in E.
  assert (E' : (x * u_fac u = y * u_fac u)%Qc).
  { replace (x * u_fac u)%Qc with (x * u_fac u + u_off u - u_off u)%Qc by ring. rewrite E. ring. }
  replace x with (x * u_fac u / u_fac u)%Qc by (field; auto). rewrite E'. field; auto.
Qed.

Lemma uconv_back : forall u1 u2 (x : Qc), u_fac u1 <> 0%Qc -> u_fac u2 <> 0%Qc ->
  uconv u2 u1 (uconv u1 u2 x) = x.
Proof.
  intros u1 u2 x H1 H2. apply (base_value_inj u1); auto. rewrite !uconv_base; auto.
Qed.

Lemma uconv_self : forall u (x : Qc), u_fac u <> 0%Qc -> uconv u u x = x.
Proof. intros u x H. apply (base_value_inj u); auto. apply uconv_base; auto. Qed.

Lemma nd_map_data : forall {T} (f : T -> T) a, data (nd_map f a) = map f (data a).
Proof. reflexivity. Qed.

(** C08 *)
Lemma to_units_spec : forall (R : Registry) (a : da Qc) s,
  sane_registry R -> wf_nd (arr a) ->
  (dget "units" (attrs a) = None -> to_units a s = Err EKey) /\
  forall own u1 u2, dget "units" (attrs a) = Some own -> parse own = Some u1 -> parse s = Some u2 ->
    (u_dim u1 <> u_dim u2 -> to_units a s = Err EValue) /\
    (u_dim u1 = u_dim u2 -> exists q, to_units a s = Ok q /\
       dims q = dims a /\ shape (arr q) = shape (arr a) /\ wf_nd (arr q) /\
       (exists s', dget "units" (attrs q) = Some s' /\ parse s' = Some u2) /\
       (forall k, k <> "units" -> dget k (attrs q) = dget k (attrs a)) /\
       (forall idx, in_range idx (shape (arr a)) ->
          base_value u2 (at_ (arr q) idx) = base_value u1 (at_ (arr a) idx)) /\
       exists r, to_units q own = Ok r /\ dims r = dims a /\ arr r = arr a /\
         exists s', dget "units" (attrs r) = Some s' /\ parse s' = Some u1).
Proof.
  intros R a s [Hfac Hone] Hwf. split.
  - intros H. unfold to_units. rewrite H. auto.
  - intros own u1 u2 Hown H1 H2.
    assert (Hto : to_units a s = if negb (one_eqb u1 u2) then if udim_eqb u1 u2
       then Ok (da_map (uconv u1 u2) (dset "units" s (attrs a)) a) else Err EValue else Ok a).
    { unfold to_units. rewrite Hown. unfold parseE. rewrite H1, H2. reflexivity. }
    split.
    + intros Hd. rewrite Hto.
      assert (E : udim_eqb u1 u2 = false).
      { destruct (udim_eqb u1 u2) eqn:E; auto. apply udim_eqb_eq in E; contradiction. }
      unfold one_eqb. rewrite E. reflexivity.
    + intros Hd. pose proof (proj2 (udim_eqb_eq u1 u2) Hd) as Ed.
      rewrite Ed in Hto. destruct (one_eqb u1 u2) eqn:Eo; simpl in Hto.
      * apply one_eqb_eq in Eo as [_ Eo]. pose proof (Hone _ _ _ _ H1 H2 Hd Eo) as Heq. subst u2.
        exists a. repeat split; auto; [exists own; auto|].
        exists a. repeat split; eauto.
        unfold to_units. rewrite Hown. unfold parseE. rewrite H1. simpl. rewrite one_eqb_refl. auto.
      * rewrite Hto. eexists. split; [reflexivity|]. cbn [da_map dims arr attrs].
        split; auto. split; [reflexivity|]. split; [apply wf_nd_map; auto|].
        split; [exists s; rewrite dget_dset_eq; auto|].
        split; [intros k Hk; apply dget_dset_neq; auto|]. split.
        -- intros idx Hi. rewrite at_nd_map by auto. apply uconv_base. eauto.
        -- unfold to_units, da_map. cbn [attrs]. rewrite dget_dset_eq. unfold parseE. rewrite H1, H2. simpl.
           assert (Eo' : one_eqb u2 u1 = false).
           { destruct (one_eqb u2 u1) eqn:E; auto. apply one_eqb_eq in E as [? ?].
             assert (one_eqb u1 u2 = true) by (apply one_eqb_eq; auto). congruence. }
           assert (Ed' : udim_eqb u2 u1 = true) by (apply udim_eqb_eq; auto).
           rewrite Eo', Ed'. simpl. eexists. split; [reflexivity|]. cbn [da_map dims arr attrs].
           split; auto. split; [|exists own; rewrite dget_dset_eq; auto].
           unfold nd_map; simpl. destruct (arr a) as [sh dt]; simpl. f_equal.
           rewrite map_map. rewrite <- (map_id dt) at 2. apply map_ext. intros x. apply uconv_back; eauto.
Qed.
