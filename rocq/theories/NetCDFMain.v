(** Every stored state is written once (C53). *)
From Coq Require Import String List Bool Arith ZArith Sorting Permutation Lia.
From Verif Require Import Prelude PreludeFacts ArithM NdArray NdFacts DataArrayM GetNpFacts StrFun NetCDF SpecNetCDF NetCDFKeeps NetCDFFacts.
Import ListNotations.
Open Scope string_scope.
Open Scope nat_scope.
Open Scope list_scope.

(** The second half of an equality of pairs. *)
Ltac snd_eq H := apply (f_equal snd) in H; cbn [snd] in H; subst.

Section Write.
  Context {T : Type} {A : Arith T} {N : NcLib T}.

  Lemma ensure_dim_grid : forall L x len (f f' : nfile T), ensure_dim x len f = (Ok tt, f') -> grid_dims L f -> len = (if String.eqb x "time" then None else Some (L x)) ->
    grid_dims L f' /\ dget x (d_dims f') = Some len /\ d_vars f' = d_vars f /\ d_time f' = d_time f /\ (forall y o, dget y (d_dims f) = Some o -> dget y (d_dims f') = Some o).
  Proof.
    intros L x len f f' H (G1 & G2) Hl. unfold ensure_dim in H. destruct (dget x (d_dims f)) as [o|] eqn:E.
    - pose proof (G1 _ _ E) as Eo. rewrite <- Hl in Eo. subst o.
      assert (f' = f). { destruct len as [n|]; [destruct (Nat.eqb _ _)|]; first [discriminate H|snd_eq H; auto]. }
      subst f'. split; [split; auto|]. auto.
    - assert (f' = mkds (dset x len (d_dims f)) (d_time f) (d_vars f)) by (destruct len; snd_eq H; auto). subst f'. clear H. cbn [d_dims d_vars d_time].
      assert (M : forall y o, dget y (d_dims f) = Some o -> dget y (dset x len (d_dims f)) = Some o).
      { intros y o Hy. rewrite dget_dset_neq; auto. intros ->. rewrite E in Hy. discriminate. }
      split; [split|]; cbn [d_dims d_vars].
      + intros y o Hy. rewrite dget_dset in Hy. destruct (String.eqb y x) eqn:Ey; auto. apply String.eqb_eq in Ey. subst. injection Hy as <-. auto.
      + intros n v Hv. destruct (G2 n v Hv) as (I & Ht). split; auto. intros d Hd. apply In_keys_dset. right. apply I. auto.
      + split. apply dget_dset_eq. auto.
  Qed.

  Lemma ensure_dims_grid : forall L ds (f f' : nfile T), each (fun dn => ensure_dim (fst dn) (Some (snd dn))) (combine ds (map L ds)) f = (Ok tt, f') ->
    grid_dims L f -> ~ In "time" ds ->
    grid_dims L f' /\ incl ds (keys (d_dims f')) /\ d_vars f' = d_vars f /\ d_time f' = d_time f /\ (forall y o, dget y (d_dims f) = Some o -> dget y (d_dims f') = Some o).
  Proof.
    intros L. induction ds as [|d ds IH]; intros f f' H G Ht; cbn [map combine each] in H.
    - snd_eq H. split; auto. split. intros x []. auto.
    - unfold thn in H. destruct (ensure_dim _ _ f) as [[[]|e] f1] eqn:E; [|discriminate H]. cbn [fst snd] in E.
      assert (Hd : Some (L d) = if String.eqb d "time" then None else Some (L d)).
      { destruct (String.eqb d "time") eqn:Ed; auto. apply String.eqb_eq in Ed. subst. cbn [In] in Ht. tauto. }
      destruct (ensure_dim_grid L d _ f f1 E G Hd) as (G1 & D1 & V1 & T1 & M1).
      destruct (IH f1 f' H G1) as (G2 & I2 & V2 & T2 & M2). { cbn [In] in Ht. tauto. }
      split; auto. split. { intros x [<-|Hx]; auto. apply M2 in D1. eapply dget_In_keys; eauto. } split. congruence. split. congruence. auto.
  Qed.

  Lemma slot_grid : forall L (f : nfile T) v, (forall x o, dget x (d_dims f) = Some o -> o = if String.eqb x "time" then None else Some (L x)) ->
    incl (nv_dims v) (keys (d_dims f)) -> ~ In "time" (nv_dims v) -> slot_shape f v = map L (nv_dims v).
  Proof.
    intros L f v G I Ht. unfold slot_shape. apply map_ext_in. intros d Hd. destruct (In_keys_dget _ _ (I d Hd)) as (o & Ho). rewrite Ho. rewrite (G _ _ Ho).
    destruct (String.eqb d "time") eqn:E; auto. apply String.eqb_eq in E. subst. contradiction.
  Qed.

  Lemma fit_rows : forall (L : string -> nat) (ds : list string) (rows : list (nd T)), plain_fit N -> (forall r, In r rows -> shape r = map L ds) -> mapM (fun r => nc_fit r (map L ds)) rows = Ok rows.
  Proof.
    intros L ds rows P. induction rows as [|r rows IH]; intros H; cbn [mapM]; auto.
    assert (E : nc_fit r (map L ds) = Ok r). { rewrite <- (H r) by (cbn; auto). apply P. }
    rewrite E. cbn [bind]. rewrite IH by (intros r' Hr; apply H; cbn; auto). auto.
  Qed.

  (** The rows of a variable after writing [rows] from [start] on. *)
  Definition put (start : nat) (old : list (option (nd T))) (rows : list (nd T)) : list (option (nd T)) :=
    firstn start old ++ repeat None (start - length old) ++ map Some rows ++ skipn (start + length rows) old.

  Lemma variable_step : forall (L : string -> nat) n start (cb : comb T) f f', plain_fit N -> grid_dims L f -> ~ In "time" (cb_dims cb) -> cb_shape cb = map L (cb_dims cb) ->
    (forall r, In r (cb_rows cb) -> shape r = map L (cb_dims cb)) ->
    thn (ensure_variable n cb) (fun _ => put_rows n start cb) f = (Ok tt, f') ->
    grid_dims L f' /\ d_time f' = d_time f /\ (forall x, x <> n -> dget x (d_vars f') = dget x (d_vars f)) /\
    (forall x, In x (keys (d_vars f')) <-> x = n \/ In x (keys (d_vars f))) /\ (NoDup (keys (d_vars f)) -> NoDup (keys (d_vars f'))) /\
    match dget n (d_vars f) with
    | Some v => nv_dims v = cb_dims cb /\ dget n (d_vars f') = Some (mkncvar (nv_dims v) (nv_attrs v) (put start (nv_rows v) (cb_rows cb)))
    | None => dget n (d_vars f') = Some (mkncvar (cb_dims cb) (cb_attrs cb) (put start [] (cb_rows cb)))
    end.
  Proof.
    intros L n start cb f f' P G Ht Hsh Hrows H.
    assert (Put : forall f1 v1, grid_dims L f1 -> dget n (d_vars f1) = Some v1 -> nv_dims v1 = cb_dims cb -> put_rows n start cb f1 = (Ok tt, f') ->
      grid_dims L f' /\ d_time f' = d_time f1 /\ d_vars f' = dset n (mkncvar (nv_dims v1) (nv_attrs v1) (put start (nv_rows v1) (cb_rows cb))) (d_vars f1)).
    { intros f1 v1 G1 Hv1 Hd1 H1. unfold put_rows in H1. rewrite Hv1 in H1. destruct G1 as (Ga & Gb). destruct (Gb _ _ Hv1) as (I & Nt).
      rewrite (slot_grid L f1 v1 Ga I Nt) in H1. rewrite Hd1 in H1. rewrite fit_rows in H1; auto. snd_eq H1. cbn [d_time d_vars d_dims]. split; [|split; auto; rewrite Hd1; auto].
      split; cbn [d_dims d_vars]; auto. intros x w Hw. rewrite dget_dset in Hw. destruct (String.eqb x n) eqn:E; eauto. injection Hw as <-. cbn [nv_dims]. rewrite <- Hd1. auto. }
    unfold thn in H. unfold ensure_variable in H. destruct (dget n (d_vars f)) as [v|] eqn:Ev.
    - unfold compatible in H. destruct (negb (list_eqb (nv_dims v) (cb_dims cb))) eqn:El. discriminate H. apply negb_false_iff, list_eqb_eq in El.
      destruct (forallb _ (cb_attrs cb)); [|discriminate H]. destruct (Put f v G Ev El H) as (G' & T' & V'). split; auto. split; auto. rewrite V'. split.
      { intros x Hx. apply dget_dset_neq. auto. } split. { intros x. rewrite In_keys_dset. tauto. } split. { apply NoDup_dset. } split; auto. apply dget_dset_eq.
    - destruct (create_variable n cb f) as [[[]|e] f1] eqn:Ec; [|discriminate H]. unfold create_variable, thn in Ec.
      destruct (ensure_dim "time" None f) as [[[]|e] f2] eqn:E2; [|discriminate Ec]. destruct (ensure_dim_grid L "time" None f f2 E2 G eq_refl) as (G2 & _ & V2 & T2 & _).
      rewrite Hsh in Ec. destruct (each _ _ f2) as [[[]|e] f3] eqn:E3; [|discriminate Ec]. destruct (ensure_dims_grid L (cb_dims cb) f2 f3 E3 G2 Ht) as (G3 & I3 & V3 & T3 & _).
      snd_eq Ec.
      match type of H with put_rows _ _ _ ?g = _ => assert (Gg : grid_dims L g) end.
      { destruct G3 as (Ga & Gb). split; cbn [d_dims d_vars]; auto. intros x w Hw. rewrite dget_dset in Hw. destruct (String.eqb x n); eauto. injection Hw as <-. cbn [nv_dims]. auto. }
      destruct (Put _ (mkncvar (cb_dims cb) (cb_attrs cb) []) Gg (dget_dset_eq _ _ _) eq_refl H) as (G' & T' & V').
      cbn [d_time d_vars nv_dims nv_attrs nv_rows] in *. split; auto. split. congruence. rewrite V', V3, V2. split.
      { intros x Hx. rewrite !dget_dset_neq by auto. auto. } split. { intros x. rewrite !In_keys_dset. tauto. } split. { intros. apply NoDup_dset, NoDup_dset. auto. }
      apply dget_dset_eq.
  Qed.

  (** What the loop over the quantities leaves. *)
  Lemma variables_loop : forall (L : string -> nat) start (all : dict (comb T)) f f', plain_fit N -> NoDup (keys all) ->
    (forall n cb, dget n all = Some cb -> ~ In "time" (cb_dims cb) /\ cb_shape cb = map L (cb_dims cb) /\ forall r, In r (cb_rows cb) -> shape r = map L (cb_dims cb)) ->
    grid_dims L f ->
    each (fun nc => thn (ensure_variable (fst nc) (snd nc)) (fun _ => put_rows (fst nc) start (snd nc))) all f = (Ok tt, f') ->
    grid_dims L f' /\ d_time f' = d_time f /\ (forall x, In x (keys (d_vars f')) <-> In x (keys all) \/ In x (keys (d_vars f))) /\ (NoDup (keys (d_vars f)) -> NoDup (keys (d_vars f'))) /\
    forall n, match dget n all, dget n (d_vars f) with
              | Some cb, Some v => nv_dims v = cb_dims cb /\ dget n (d_vars f') = Some (mkncvar (nv_dims v) (nv_attrs v) (put start (nv_rows v) (cb_rows cb)))
              | Some cb, None => dget n (d_vars f') = Some (mkncvar (cb_dims cb) (cb_attrs cb) (put start [] (cb_rows cb)))
              | None, o => dget n (d_vars f') = o
              end.
  Proof.
    intros L start. induction all as [|[k cb] all IH]; intros f f' P Nd Hall G H; cbn [each] in H.
    - snd_eq H. cbn [keys map dget In]. split; auto. split; auto. split. tauto. split; auto.
    - cbn [keys map fst] in Nd. inversion Nd as [|? ? Hk Nd']; subst. unfold thn at 1 in H.
      destruct (thn _ _ f) as [[[]|e] f1] eqn:E; [|discriminate H]. cbn [fst snd] in E.
      destruct (Hall k cb) as (Ht & Hsh & Hr). { cbn [dget]. rewrite String.eqb_refl. auto. }
      destruct (variable_step L k start cb f f1 P G Ht Hsh Hr E) as (G1 & T1 & O1 & K1 & N1 & V1).
      destruct (IH f1 f' P Nd') as (G2 & T2 & K2 & N2 & V2); auto.
      { intros n cb' Hn. apply (Hall n). cbn [dget]. destruct (String.eqb n k) eqn:En; auto. apply String.eqb_eq in En. subst. exfalso. apply Hk. eapply dget_In_keys; eauto. }
      split; auto. split. congruence. split. { intros x. rewrite K2, K1. cbn [keys map fst In]. intuition auto. } split; auto.
      intros n. specialize (V2 n). cbn [dget]. destruct (String.eqb n k) eqn:En.
      + apply String.eqb_eq in En. subst. apply dget_none in Hk. rewrite Hk in V2. rewrite V2. exact V1.
      + rewrite O1 in V2 by (intros ->; rewrite String.eqb_refl in En; discriminate). exact V2.
  Qed.

  Lemma put_exact : forall (old : list (option (nd T))) rows, put (length old) old rows = old ++ map Some rows.
  Proof. intros old rows. unfold put. rewrite firstn_all, Nat.sub_diag, skipn_all2 by lia. cbn [repeat app]. rewrite app_nil_r. auto. Qed.

  Lemma mapM_codes : forall (g : Z -> res Z) ts zs, mapM g ts = Ok zs -> Forall2 (fun t z => g t = Ok z) ts zs.
  Proof. intros g ts zs H. apply mapM_Forall2 in H. exact H. Qed.

  Lemma same_list_iff : forall l1 l2, same_list l1 l2 = true -> forall n, In n l1 <-> In n l2.
  Proof.
    intros l1 l2 H n. unfold same_list in H. apply andb_true_iff in H as (_ & H). apply andb_true_iff in H as (H1 & H2). rewrite forallb_forall in H1, H2.
    split; intros Hn. apply mem_In; auto. apply mem_In; auto.
  Qed.

  Lemma nth_first : forall (X : Type) (l : list X) x r, l = x :: r -> In x l.
  Proof. intros X l x r ->. cbn. auto. Qed.

  Lemma rows_shape : forall n L ds (lb : list (Z * dict (pval T))) rs, Forall2 (fun ts row => exists a, dget n (snd ts) = Some (VDA a) /\ holds_row L ds a row) lb rs ->
    forall r, In (Some r) rs -> shape r = map L ds.
  Proof.
    intros n L ds lb rs F r. induction F as [|ts row lb rs (a & _ & (r' & -> & _ & Hs & _)) F IH]; cbn [In]. tauto.
    intros [E|Hr]; auto. injection E as ->. auto.
  Qed.

  (** C53: what a successful write adds to the file. *)
  Theorem write_holds : forall m L log c (f f' : nfile T), plain_fit N -> holds m L log f -> grid_dims L f ->
    (forall ts, In ts log -> snd ts <> []) -> NoDup (map fst c) -> (forall ts, In ts c -> on_grid L (snd ts)) ->
    write_act m c f = (Ok tt, f') -> by_time c <> [] /\ holds m L (log ++ by_time c) f' /\ grid_dims L f'.
  Proof.
    intros m L log c f f' P Hh G Hne Ndt Hc H. unfold write_act in H. unfold thn at 1 in H. destruct (check_keys c f) as [[[]|e] f0] eqn:Ek; [|discriminate H].
    assert (f0 = f /\ forall ts, In ts c -> forall n, In n (keys (snd ts)) <-> In n (match keys (d_vars f) with [] => keys (snd (hd (0%Z, []) c)) | ks => ks end)) as (-> & Hk).
    { unfold check_keys in Ek. destruct c as [|[t s] c']. snd_eq Ek. split; auto. intros ts [].
      destruct (forallb _ _) eqn:Ef; [|discriminate Ek]. snd_eq Ek. split; auto. intros ts Hts. rewrite forallb_forall in Ef. apply Ef in Hts. apply same_list_iff. exact Hts. }
    clear Ek. pose proof (by_time_perm c) as Pm. destruct (by_time c) as [|[t0 s0] l] eqn:Eb; [discriminate H|]. split; [discriminate|].
    assert (Hin : forall ts, In ts ((t0, s0) :: l) -> In ts c) by (intros ts Hts; eapply Permutation_in; eauto).
    assert (Hkk : forall ts, In ts ((t0, s0) :: l) -> forall n, In n (keys (snd ts)) <-> In n (keys s0)).
    { intros ts Hts n. rewrite (Hk ts (Hin ts Hts) n), (Hk (t0, s0) (Hin _ (or_introl eq_refl)) n). tauto. }
    unfold thn at 1 in H. destruct (ensure_time m t0 f) as [[[]|e] f1] eqn:Et; [|discriminate H].
    assert (S1 : grid_dims L f1 /\ d_vars f1 = d_vars f /\ exists tv, d_time f1 = Some tv /\ length (t_vals tv) = n_times f /\ (forall tv', d_time f = Some tv' -> tv = tv')).
    { unfold ensure_time, thn in Et. destruct (ensure_dim "time" None f) as [[[]|e] g] eqn:E; [|discriminate Et].
      destruct (ensure_dim_grid L "time" None f g E G eq_refl) as (G1 & _ & V1 & T1 & _). destruct (d_time g) as [tv|] eqn:Eg.
      - snd_eq Et. split; auto. split; auto. exists tv. split; auto. split. unfold n_times. rewrite <- T1. auto. intros tv' H'. congruence.
      - snd_eq Et. cbn [d_vars d_time]. split; [split; cbn [d_dims d_vars]; apply G1|]. split; auto. eexists. split; [reflexivity|]. split. unfold n_times. rewrite <- T1. auto.
        intros tv' H'. congruence. }
    destruct S1 as (G1 & V1 & tv & T1 & Lt & Htv). cbv zeta in H. pose proof (n_times_ensure_time _ _ _ _ _ Et) as Nt. rewrite Nt in H.
    unfold thn at 1 in H. destruct (append_times m (map fst ((t0, s0) :: l)) f1) as [[[]|e] f2] eqn:Ea; [|discriminate H]. unfold append_times in Ea. rewrite T1 in Ea.
    assert (Codes : exists zs, Forall2 (fun t z => time_code m tv t = Ok z) (map fst ((t0, s0) :: l)) zs /\ f2 = mkds (d_dims f1) (Some (mktvar (t_units tv) (t_ref tv) (t_vals tv ++ zs))) (d_vars f1)).
    { unfold time_code. destruct (m_delta m).
      - destruct (mapM _ _) as [zs|e] eqn:Em; [|discriminate Ea]. snd_eq Ea. exists zs. split; auto. apply mapM_codes in Em. exact Em.
      - destruct (t_ref tv) as [r|]; [|discriminate Ea]. destruct (mapM _ _) as [zs|e] eqn:Em; [|discriminate Ea]. snd_eq Ea. exists zs. split; auto. apply mapM_codes in Em. exact Em. }
    clear Ea. destruct Codes as (zs & Fz & ->).
    unfold thn at 1, lift in H. destruct (combine_states (map snd ((t0, s0) :: l))) as [all|e] eqn:Ec; [|discriminate H]. cbn [map snd] in Ec.
    assert (Hst : forall st, In st (s0 :: map snd l) -> exists t, In (t, st) ((t0, s0) :: l)).
    { intros st [<-|Hst]. exists t0. cbn; auto. apply in_map_iff in Hst as ([t' st'] & <- & Hst). exists t'. cbn; auto. }
    destruct (combine_spec s0 (map snd l) all) as (Na & Ka & Va); [|exact Ec|].
    { intros st Hs. destruct (Hst st Hs) as (t' & Ht'). destruct (Hc _ (Hin _ Ht')) as (_ & Nd & _). split; auto. intros n. apply (Hkk _ Ht'). }
    assert (Rows : forall n cb, dget n all = Some cb -> ~ In "time" (cb_dims cb) /\ cb_shape cb = map L (cb_dims cb) /\ (forall r, In r (cb_rows cb) -> shape r = map L (cb_dims cb)) /\
              Forall2 (fun ts row => exists a, dget n (snd ts) = Some (VDA a) /\ holds_row L (cb_dims cb) a row) ((t0, s0) :: l) (map Some (cb_rows cb))).
    { intros n cb Hcb. destruct (Va n cb Hcb) as (a0 & Ha0 & E1 & E2 & E3 & F). destruct (Hc _ (Hin _ (or_introl eq_refl))) as (_ & _ & Hg). destruct (Hg n a0 Ha0) as (W0 & Sh0 & Nt0).
      assert (F' : Forall2 (fun ts row => exists a, dget n (snd ts) = Some (VDA a) /\ holds_row L (cb_dims cb) a row) ((t0, s0) :: l) (map Some (cb_rows cb))).
      { change (s0 :: map snd l) with (map snd ((t0, s0) :: l)) in F. revert F. generalize (cb_rows cb). revert Hin. generalize ((t0, s0) :: l). clear - Hc W0 Sh0 E1 E2.
        induction l as [|ts l IH]; intros Hin rows F; inversion F as [|? r ? rows' (a & Ha & Hr) F']; subst; cbn [map]; constructor.
        - exists a. split; auto. destruct (Hc ts (Hin ts (or_introl eq_refl))) as (_ & _ & Hg). destruct (Hg n a Ha) as (Wa & Sha & _). rewrite E2 in Hr. eapply (row_holds L (cb_dims cb) a0 a r); eauto.
        - apply IH; auto. intros ts' Hts. apply Hin. cbn; auto. }
      split. { rewrite E1. auto. } split. { rewrite E2, E1. auto. } split; auto.
      intros r Hr. apply (rows_shape n L (cb_dims cb) _ _ F'). apply in_map; auto. }
    match type of H with each _ _ ?ff = _ => set (f2 := ff) in * end.
    destruct (variables_loop L (n_times f) all f2 f' P Na) as (G3 & T3 & K3 & N3 & V3); auto.
    { intros n cb Hcb. destruct (Rows n cb Hcb) as (R1 & R2 & R3 & _). auto. }
    split; auto. unfold f2 in T3, K3, N3, V3. cbn [d_time d_vars] in T3, K3, N3, V3. rewrite V1 in K3, N3, V3. clear H f2.
    (* the two cases: a file without states and one with some *)
    destruct log as [|[t1 s1] log'].
    - destruct Hh as (Hv0 & Hn0). rewrite Hv0 in *. cbn [app]. unfold holds. split.
      { eexists. split; [exact T3|]. cbn [t_vals]. rewrite Hn0 in Lt. apply length_zero_iff_nil in Lt. rewrite Lt. cbn [app]. exact Fz. }
      split. { apply N3. constructor. } split. { intros ts Hts n. rewrite (Hkk ts Hts n), K3, Ka. cbn [keys map In]. tauto. }
      intros n v Hv. specialize (V3 n). cbn [dget] in V3. assert (Hna : In n (keys all)). { apply dget_In_keys in Hv. apply K3 in Hv. cbn [keys map In] in Hv. tauto. }
      apply In_keys_dget in Hna as (cb & Hcb). rewrite Hcb in V3. rewrite V3 in Hv. injection Hv as <-. cbn [nv_dims nv_attrs nv_rows].
      destruct (Va n cb Hcb) as (a0 & Ha0 & E1 & E2 & E3 & _). split. { exists a0. auto. } rewrite Hn0. change 0 with (length (@nil (option (nd T)))). rewrite put_exact. cbn [app].
      apply (Rows n cb Hcb).
    - destruct Hh as ((tv' & Htv' & Fz') & Nv & Kv & Vv). apply Htv in Htv'. subst tv'. unfold holds. cbn [app]. split.
      { eexists. split; [exact T3|]. cbn [t_vals]. change ((t1, s1) :: log' ++ (t0, s0) :: l) with (((t1, s1) :: log') ++ (t0, s0) :: l). rewrite map_app.
        apply Forall2_app; [exact Fz'|exact Fz]. }
      assert (Hvne : keys (d_vars f) <> []).
      { intros E. pose proof (Hne (t1, s1) (or_introl eq_refl)) as Hs1. cbn [snd] in Hs1. destruct s1 as [|[k v] s1]; [contradiction Hs1; auto|].
        assert (In k (keys (d_vars f))) as Hin' by (apply (Kv (t1, (k, v) :: s1)); cbn; auto). rewrite E in Hin'. destruct Hin'. }
      assert (Hkv : forall n, In n (keys s0) <-> In n (keys (d_vars f))).
      { intros n. rewrite (Hk (t0, s0) (Hin _ (or_introl eq_refl)) n). destruct (keys (d_vars f)); [contradiction Hvne; auto|tauto]. }
      assert (Kall : forall n, In n (keys (d_vars f')) <-> In n (keys (d_vars f))). { intros n. rewrite K3, Ka, Hkv. tauto. }
      split; auto. split.
      { intros ts Hts n. rewrite Kall. change ((t1, s1) :: log' ++ (t0, s0) :: l) with (((t1, s1) :: log') ++ (t0, s0) :: l) in Hts. apply in_app_iff in Hts as [Hts|Hts].
        apply Kv. auto. rewrite (Hkk ts Hts n), Hkv. tauto. }
      intros n v' Hv'. assert (Hn : In n (keys (d_vars f))) by (apply Kall; eapply dget_In_keys; eauto). pose proof (In_keys_dget _ _ Hn) as (v & Hv).
      assert (Hna : In n (keys all)) by (apply Ka, Hkv; auto). apply In_keys_dget in Hna as (cb & Hcb). specialize (V3 n). rewrite Hcb, Hv in V3. destruct V3 as (Ed & V3).
      rewrite V3 in Hv'. injection Hv' as <-. cbn [nv_dims nv_attrs nv_rows]. destruct (Vv n v Hv) as (H0 & Fr). split; auto.
      assert (El : n_times f = length (nv_rows v)).
      { rewrite <- Lt. rewrite <- (Forall2_len _ _ _ Fz'), map_length. apply (Forall2_len _ _ _ Fr). }
      rewrite El, put_exact. change ((t1, s1) :: log' ++ (t0, s0) :: l) with (((t1, s1) :: log') ++ (t0, s0) :: l). apply Forall2_app; auto.
      rewrite Ed. apply (Rows n cb Hcb).
  Qed.
End Write.

Section History.
  Context {T : Type} {A : Arith T} {N : NcLib T}.

  (** ** What is cached of a state *)

  Lemma apply_alias_values : forall long short (cs cs' : dict (pval T)), apply_alias cs long short = Ok cs' -> NoDup (keys cs) ->
    NoDup (keys cs') /\ forall n v, dget n cs' = Some v -> exists n', dget n' cs = Some v.
  Proof.
    intros long short cs cs' H Nd. unfold apply_alias in H.
    apply (foldM_inv (fun d => NoDup (keys d) /\ forall n v, dget n d = Some v -> exists n', dget n' cs = Some v)) in H; auto.
    - intros d name d' _ (N1 & V1) H1. destruct (str_in long name). 2: { injection H1 as <-. auto. }
      destruct (String.eqb (str_replace long short name) ""). discriminate H1. destruct (dget name d) as [v|] eqn:E; [|discriminate H1]. injection H1 as <-. split.
      + apply NoDup_dset, NoDup_ddel. auto.
      + intros n w Hw. rewrite dget_dset in Hw. destruct (String.eqb n (str_replace long short name)). injection Hw as <-. eauto.
        rewrite dget_ddel in Hw. destruct (String.eqb n name). discriminate. eauto.
    - split; eauto.
  Qed.

  Lemma prepare_values : forall ord m (st : state T) t cs, (forall l, Permutation (ord l) l) -> NoDup (keys st) -> prepare ord m st = Ok (t, cs) ->
    NoDup (keys cs) /\ forall n v, dget n cs = Some v -> exists n', dget n' st = Some v.
  Proof.
    intros ord m st t cs Po Nd H. unfold prepare in H. apply bind_ok in H as (c0 & H0 & H).
    assert (S0 : NoDup (keys c0) /\ forall n v, dget n c0 = Some v -> exists n', dget n' st = Some v).
    { destruct (m_names m) as [ns|].
      - assert (K : keys c0 = ord (filter (fun n => mem n ("time" :: ns)) (keys st)) /\ forall n v, In (n, v) c0 -> dget n st = Some v).
        { clear H. revert H0. generalize (ord (filter (fun n => mem n ("time" :: ns)) (keys st))). intros l. revert c0. induction l as [|n l IH]; intros c0 H0; cbn [mapM] in H0.
          - injection H0 as <-. split; auto. intros n v [].
          - apply bind_ok in H0 as (y & Hy & H0). apply bind_ok in H0 as (ys & Hys & H0). injection H0 as <-. apply bind_ok in Hy as (v & Hv & Hy). injection Hy as <-.
            apply dgetE_ok in Hv. destruct (IH _ Hys) as (K & V). split. cbn [keys map fst]. unfold keys in K. rewrite K. auto.
            intros n' v' [E|Hin]; eauto. injection E as <- <-. auto. }
        destruct K as (K & V). split. { rewrite K. eapply Permutation_NoDup. apply Permutation_sym, Po. apply NoDup_filter. auto. }
        intros n v Hv. exists n. apply V. apply dget_In. auto.
      - injection H0 as <-. split; eauto. }
    destruct (mem "" (keys c0)). discriminate H. apply bind_ok in H as (c1 & H1 & H).
    assert (S1 : NoDup (keys c1) /\ forall n v, dget n c1 = Some v -> exists n', dget n' st = Some v).
    { apply (foldM_inv (fun d => NoDup (keys d) /\ forall n v, dget n d = Some v -> exists n', dget n' st = Some v)) in H1; auto.
      intros d la d' _ (N1 & V1) Ha. apply apply_alias_values in Ha as (N2 & V2); auto. split; auto. intros n v Hv. apply V2 in Hv as (n' & Hv). eauto. }
    apply bind_ok in H as (tt0 & _ & H). apply bind_ok in H as (tv & _ & H). destruct tv; [discriminate H|]. injection H as <- <-. split.
    - apply NoDup_ddel. apply S1.
    - intros n v Hv. rewrite dget_ddel in Hv. destruct (String.eqb n "time"). discriminate. apply S1 in Hv. auto.
  Qed.

  Lemma storable_grid : forall ord m L (st : state T) t cs, (forall l, Permutation (ord l) l) -> storable ord m L st -> prepare ord m st = Ok (t, cs) -> on_grid L cs.
  Proof.
    intros ord m L st t cs Po ((Nd & Hg) & Hne) H. destruct (prepare_values ord m st t cs Po Nd H) as (N1 & V1). split. eauto. split; auto.
    intros n a Ha. apply V1 in Ha as (n' & Ha). eauto.
  Qed.

  Lemma latest_in : forall (stored : list (Z * dict (pval T))) t n v, latest stored t n = Some v -> exists s, In (t, s) stored /\ dget n s = Some v.
  Proof.
    intros stored t n v. unfold latest. assert (G : forall acc, fold_left (fun acc s => if Z.eqb t (fst s) then match dget n (snd s) with Some v => Some v | None => acc end else acc) stored acc = Some v ->
      acc = Some v \/ exists s, In (t, s) stored /\ dget n s = Some v).
    { induction stored as [|[t' s'] stored IH]; intros acc H; cbn [fold_left fst snd] in H; auto. apply IH in H as [H|(s & Hs & Hv)].
      - destruct (Z.eqb t t') eqn:E; auto. apply Z.eqb_eq in E. subst. destruct (dget n s') eqn:E'; auto. injection H as ->. right. exists s'. split; auto. cbn; auto.
      - right. exists s. cbn; auto. }
    intros H. apply G in H as [H|H]; auto. discriminate.
  Qed.

  Lemma latest_some : forall (stored : list (Z * dict (pval T))) t s n, In (t, s) stored -> In n (keys s) -> exists v, latest stored t n = Some v.
  Proof.
    intros stored t s n. unfold latest. generalize (@None (pval T)). induction stored as [|[t' s'] stored IH]; intros acc Hin Hn; [destruct Hin|]. cbn [fold_left fst snd].
    destruct Hin as [E|Hin]; [|eauto]. injection E as -> ->. rewrite Z.eqb_refl. apply In_keys_dget in Hn as (v & Hv). rewrite Hv.
    clear. revert v. induction stored as [|[t' s'] stored IH]; intros v; cbn [fold_left fst snd]; eauto. destruct (Z.eqb t t'); auto. destruct (dget n s'); auto.
  Qed.

  Lemma cached_grid : forall L (stored c : list (Z * dict (pval T))), cache_is stored c -> (forall ts, In ts stored -> on_grid L (snd ts)) -> forall ts, In ts c -> on_grid (T := T) L (snd ts).
  Proof.
    intros L stored c (Nd & Ht & Hc) Hs [t s] Hin. destruct (Hc t s Hin) as (Ns & Hl). cbn [snd]. split; [|split; auto].
    - assert (Hts : In t (map fst stored)) by (apply Ht; change t with (fst (t, s)); apply in_map; auto). apply in_map_iff in Hts as ([t' s'] & E & Hts). cbn [fst] in E. subst t'.
      destruct (Hs _ Hts) as (Hne & _). cbn [snd] in Hne. destruct s' as [|[k w] s']; [contradiction Hne; auto|].
      destruct (latest_some stored t _ k Hts) as (v & Hv). { cbn. auto. } intros ->. specialize (Hl k). rewrite Hv in Hl. discriminate Hl.
    - intros n a Ha. rewrite Hl in Ha. apply latest_in in Ha as (s' & Hs' & Ha). destruct (Hs _ Hs') as (_ & _ & Hg). eauto.
  Qed.

  Lemma write_step : forall m L log stored c fs fs' c', plain_fit N -> file_holds m L log fs -> cache_is stored c -> (forall ts, In ts stored -> on_grid L (snd ts)) ->
    write m fs c = (Ok tt, fs', c') -> c' = [] /\ batch_of stored (by_time c) /\ file_holds m L (log ++ by_time c) fs'.
  Proof.
    intros m L log stored c fs fs' c' P (Hne & Hf) Hc Hs H. unfold write in H. pose proof (cached_grid L stored c Hc Hs) as Hg.
    destruct (write_act m c _) as [[[]|e] d'] eqn:E; [|discriminate H]. injection H as <- <-. split; auto. split. apply batch_by_time. auto.
    assert (Hh : holds m L log (match dget (m_file m) fs with Some d => d | None => empty_ds end) /\ grid_dims L (match dget (m_file m) fs with Some d => d | None => empty_ds end)).
    { destruct (dget (m_file m) fs); auto. subst log. split; [split; auto|]. split; cbn; intros; discriminate. }
    destruct Hh as (Hh & Gd). destruct (write_holds m L log c _ d' P Hh Gd Hne (proj1 Hc) Hg E) as (_ & H1 & H2). unfold file_holds. rewrite dget_dset_eq. split; auto.
    intros ts Hts. apply in_app_iff in Hts as [Hts|Hts]; auto. eapply Permutation_in in Hts; [|apply by_time_perm]. apply Hg in Hts. apply Hts.
  Qed.

  Lemma mapM_snoc : forall {X Y} (f : X -> res Y) l ys x y, mapM f l = Ok ys -> f x = Ok y -> mapM f (l ++ [x]) = Ok (ys ++ [y]).
  Proof.
    intros X Y f. induction l as [|z l IH]; intros ys x y H Hx; cbn [mapM app] in *.
    - injection H as <-. rewrite Hx. auto.
    - apply bind_ok in H as (w & Hw & H). apply bind_ok in H as (ws & Hws & H). injection H as <-. rewrite Hw. cbn [bind]. rewrite (IH _ _ _ Hws Hx). auto.
  Qed.

  Lemma cache_is_nil : cache_is (T := T) [] [].
  Proof. split. constructor. split. tauto. intros t s []. Qed.

  (** C53: a program that meets no exception. *)
  Lemma history : forall ord m L, plain_fit N -> (forall l, Permutation (ord l) l) -> forall ops current stored fs log c os fs' c',
    (forall st, In (Store st) ops -> storable ord m L st) ->
    mapM (prepare ord m) current = Ok stored -> (forall ts, In ts stored -> on_grid L (snd ts)) -> cache_is stored c ->
    file_holds m L log fs -> mon_run ord m ops fs c = (os, fs', c') -> Forall (eq (Ok tt)) os ->
    exists written left, Forall2 (fun states batch => exists prepared, mapM (prepare ord m) states = Ok prepared /\ batch_of prepared batch) (fst (batches (m_on_store m) current ops)) written /\
      file_holds m L (log ++ concat written) fs' /\ mapM (prepare ord m) (snd (batches (m_on_store m) current ops)) = Ok left /\ cache_is left c'.
  Proof.
    intros ord m L P Po. induction ops as [|op ops IH]; intros current stored fs log c os fs' c' Hop Hcur Hst Hc Hf H Hok; cbn [mon_run batches] in *.
    - injection H as <- <- <-. exists [], stored. cbn [concat fst snd]. rewrite app_nil_r. split; auto.
    - destruct (mon_step ord m op fs c) as [[o fs1] c1] eqn:E. destruct (mon_run ord m ops fs1 c1) as [[os1 fs2] c2] eqn:E2. injection H as <- <- <-.
      inversion Hok as [|? ? Ho Hok']; subst. assert (Hop' : forall st, In (Store st) ops -> storable ord m L st) by (intros st Hin; apply Hop; cbn; auto).
      assert (Wr : forall states prep cc, mapM (prepare ord m) states = Ok prep -> (forall ts, In ts prep -> on_grid L (snd ts)) -> cache_is prep cc -> write m fs cc = (Ok tt, fs1, c1) ->
        exists written left, Forall2 (fun states batch => exists prepared, mapM (prepare ord m) states = Ok prepared /\ batch_of prepared batch) (states :: fst (batches (m_on_store m) [] ops)) written /\
          file_holds m L (log ++ concat written) fs2 /\ mapM (prepare ord m) (snd (batches (m_on_store m) [] ops)) = Ok left /\ cache_is left c2).
      { intros states prep cc H1 H2 H3 H4. destruct (write_step m L log prep cc fs fs1 c1 P Hf H3 H2 H4) as (-> & B & F).
        assert (Hnil : forall ts : Z * dict (pval T), In ts [] -> on_grid L (snd ts)) by (intros ts []).
        destruct (IH [] [] fs1 (log ++ by_time cc) [] os1 fs2 c2 Hop' eq_refl Hnil cache_is_nil F E2 Hok') as (written & left & F2 & Fh & Hl & Hcl).
        exists (by_time cc :: written), left. cbn [concat]. rewrite app_assoc. split; [|auto]. constructor; eauto. }
      destruct op as [st|]; cbn [mon_step] in E.
      + unfold store in E. destruct (prepare ord m st) as [[t cs]|e] eqn:Ep; [|discriminate E].
        pose proof (storable_grid ord m L st t cs Po (Hop st (or_introl eq_refl)) Ep) as Hg.
        pose proof (mapM_snoc (prepare ord m) current stored st (t, cs) Hcur Ep) as Hcur'.
        assert (Hst' : forall ts, In ts (stored ++ [(t, cs)]) -> on_grid L (snd ts)).
        { intros ts Hts. apply in_app_iff in Hts as [Hts|[<-|[]]]; auto. }
        assert (Hc' : cache_is (stored ++ [(t, cs)]) (cache_add t cs c)) by (apply cache_is_add; auto; apply Hg).
        destruct (m_on_store m) eqn:Eo.
        * specialize (Wr _ _ _ Hcur' Hst' Hc' E). destruct (batches true [] ops) as [bs tl]. exact Wr.
        * injection E as <- <-. exact (IH _ _ _ _ _ _ _ _ Hop' Hcur' Hst' Hc' Hf E2 Hok').
      + specialize (Wr _ _ _ Hcur Hst Hc E). destruct (batches (m_on_store m) [] ops) as [bs tl]. exact Wr.
  Qed.

  Lemma main_monitor_history : forall ord m L ops fs log os fs' c', plain_fit N -> (forall l, Permutation (ord l) l) ->
    (forall st, In (Store st) ops -> storable ord m L st) -> file_holds m L log fs ->
    mon_run ord m ops fs [] = (os, fs', c') -> Forall (eq (Ok tt)) os ->
    exists written left, Forall2 (fun states batch => exists prepared, mapM (prepare ord m) states = Ok prepared /\ batch_of prepared batch) (fst (batches (m_on_store m) [] ops)) written /\
      file_holds m L (log ++ concat written) fs' /\ mapM (prepare ord m) (snd (batches (m_on_store m) [] ops)) = Ok left /\ cache_is left c'.
  Proof.
    intros ord m L ops fs log os fs' c' P Po Hop Hf H Hok. apply (history ord m L P Po ops [] [] fs log [] os fs' c'); auto. intros ts []. apply cache_is_nil.
  Qed.
End History.
