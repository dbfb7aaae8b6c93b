(** When a NetCDF monitor writes without an exception (C53). *)
From Coq Require Import String List Bool Arith ZArith Sorting Permutation Lia.
From Verif Require Import Prelude PreludeFacts ArithM NdArray NdFacts DataArrayM GetNpFacts StrFun NetCDF SpecNetCDF NetCDFKeeps NetCDFFacts NetCDFMain.
Import ListNotations.
Open Scope string_scope.
Open Scope nat_scope.
Open Scope list_scope.

Lemma foldM_ok : forall {X S} (P : S -> Prop) (f : S -> X -> res S) l s,
  (forall s x, In x l -> P s -> exists s', f s x = Ok s' /\ P s') -> P s -> exists s', foldM f l s = Ok s' /\ P s'.
Proof.
  intros X S P f. induction l as [|x l IH]; intros s H Hs; cbn [foldM]. eauto.
  destruct (H s x) as (s1 & E & H1); cbn; auto. rewrite E. cbn [bind]. apply IH; auto. intros s' x' Hx. apply H. cbn; auto.
Qed.

Lemma mapM_all : forall {X Y} (f : X -> res Y) l, (forall x, exists y, f x = Ok y) -> exists ys, mapM f l = Ok ys.
Proof.
  intros X Y f l H. induction l as [|x l (ys & IH)]; cbn [mapM]. eauto. destruct (H x) as (y & Hy). rewrite Hy. cbn [bind]. rewrite IH. cbn [bind]. eauto.
Qed.

Lemma same_list_true : forall l1 l2, NoDup l1 -> NoDup l2 -> (forall n, In n l1 <-> In n l2) -> same_list l1 l2 = true.
Proof.
  intros l1 l2 N1 N2 H. unfold same_list. rewrite (Permutation_length (NoDup_Permutation N1 N2 H)), Nat.eqb_refl. cbn [andb].
  apply andb_true_iff. split; apply forallb_forall; intros n Hn; apply mem_In, H; auto.
Qed.

Section Succeeds.
  Context {T : Type} {A : Arith T} {N : NcLib T}.

  Lemma ensure_dim_ok : forall L x len (f : nfile T), grid_dims L f -> len = (if String.eqb x "time" then None else Some (L x)) -> exists f', ensure_dim x len f = (Ok tt, f').
  Proof.
    intros L x len f (G & _) Hl. unfold ensure_dim. destruct (dget x (d_dims f)) as [o|] eqn:E.
    - rewrite (G _ _ E), <- Hl. destruct len as [n|]; eauto. cbn [dim_size]. rewrite Nat.eqb_refl. eauto.
    - destruct len; eauto.
  Qed.

  Lemma ensure_dims_ok : forall L ds (f : nfile T), grid_dims L f -> ~ In "time" ds -> exists f', each (fun dn => ensure_dim (fst dn) (Some (snd dn))) (combine ds (map L ds)) f = (Ok tt, f').
  Proof.
    intros L. induction ds as [|d ds IH]; intros f G Ht; cbn [map combine each]. unfold ret. eauto.
    assert (Hd : Some (L d) = if String.eqb d "time" then None else Some (L d)).
    { destruct (String.eqb d "time") eqn:Ed; auto. apply String.eqb_eq in Ed. subst. cbn [In] in Ht. tauto. }
    unfold thn. cbn [fst snd]. destruct (ensure_dim_ok L d _ f G Hd) as (f1 & E). rewrite E. apply IH.
    apply (ensure_dim_grid L d _ f f1 E G Hd). cbn [In] in Ht. tauto.
  Qed.

  Lemma variable_ok : forall L n start (cb : comb T) f, plain_fit N -> grid_dims L f -> ~ In "time" (cb_dims cb) -> cb_shape cb = map L (cb_dims cb) ->
    (forall r, In r (cb_rows cb) -> shape r = map L (cb_dims cb)) -> NoDup (keys (cb_attrs cb)) ->
    (forall v, dget n (d_vars f) = Some v -> nv_dims v = cb_dims cb /\ nv_attrs v = cb_attrs cb) ->
    exists f', thn (ensure_variable n cb) (fun _ => put_rows n start cb) f = (Ok tt, f').
  Proof.
    intros L n start cb f P G Ht Hsh Hrows Na Hv.
    assert (Put : forall f1 v1, grid_dims L f1 -> dget n (d_vars f1) = Some v1 -> nv_dims v1 = cb_dims cb -> exists f', put_rows n start cb f1 = (Ok tt, f')).
    { intros f1 v1 (Ga & Gb) Hv1 Hd1. unfold put_rows. rewrite Hv1. destruct (Gb _ _ Hv1) as (I & Nt). rewrite (slot_grid L f1 v1 Ga I Nt), Hd1, fit_rows; auto. eauto. }
    unfold thn, ensure_variable. destruct (dget n (d_vars f)) as [v|] eqn:Ev.
    - destruct (Hv v eq_refl) as (E1 & E2). unfold compatible. rewrite E1. assert (R : list_eqb (cb_dims cb) (cb_dims cb) = true) by (apply list_eqb_eq; auto). rewrite R. cbn [negb].
      match goal with |- context [if ?b then Ok tt else _] => assert (E : b = true) end.
      { apply forallb_forall. intros [k x] Hx. cbn [fst snd]. rewrite E2, (dget_NoDup_In _ _ _ Na Hx). apply String.eqb_refl. }
      rewrite E. eauto.
    - unfold create_variable, thn. destruct (ensure_dim_ok L "time" None f G eq_refl) as (f2 & E2). rewrite E2. destruct (ensure_dim_grid L "time" None f f2 E2 G eq_refl) as (G2 & _ & V2 & T2 & _).
      rewrite Hsh. destruct (ensure_dims_ok L (cb_dims cb) f2 G2 Ht) as (f3 & E3). rewrite E3. destruct (ensure_dims_grid L (cb_dims cb) f2 f3 E3 G2 Ht) as (G3 & I3 & V3 & T3 & _).
      eapply Put; [|apply dget_dset_eq|reflexivity]. destruct G3 as (Ga & Gb). split; cbn [d_dims d_vars]; auto.
      intros x w Hw. rewrite dget_dset in Hw. destruct (String.eqb x n); eauto. injection Hw as <-. cbn [nv_dims]. auto.
  Qed.

  Lemma variables_ok : forall (L : string -> nat) start (all : dict (comb T)) f, plain_fit N -> NoDup (keys all) ->
    (forall n cb, dget n all = Some cb -> ~ In "time" (cb_dims cb) /\ cb_shape cb = map L (cb_dims cb) /\ (forall r, In r (cb_rows cb) -> shape r = map L (cb_dims cb)) /\ NoDup (keys (cb_attrs cb)) /\
       forall v, dget n (d_vars f) = Some v -> nv_dims v = cb_dims cb /\ nv_attrs v = cb_attrs cb) ->
    grid_dims L f ->
    exists f', each (fun nc => thn (ensure_variable (fst nc) (snd nc)) (fun _ => put_rows (fst nc) start (snd nc))) all f = (Ok tt, f').
  Proof.
    intros L start. induction all as [|[k cb] all IH]; intros f P Nd Hall G; cbn [each]. unfold ret. eauto.
    cbn [keys map fst] in Nd. inversion Nd as [|? ? Hk Nd']; subst. unfold thn at 1. cbn [fst snd].
    destruct (Hall k cb) as (H1 & H2 & H3 & H4 & H5). { cbn [dget]. rewrite String.eqb_refl. auto. }
    destruct (variable_ok L k start cb f P G H1 H2 H3 H4 H5) as (f1 & E). rewrite E.
    destruct (variable_step L k start cb f f1 P G H1 H2 H3 E) as (G1 & _ & O1 & _).
    apply IH; auto. intros n cb' Hn. assert (Hne : n <> k). { intros ->. apply Hk. eapply dget_In_keys; eauto. }
    rewrite O1 by auto. apply (Hall n). cbn [dget]. destruct (String.eqb n k) eqn:En; auto. apply String.eqb_eq in En. contradiction.
  Qed.

  Lemma row_of_ok : forall L (a : da T), wf_da a -> dims a <> [] -> shape (arr a) = map L (dims a) -> exists r, row_of (dims a) (map L (dims a)) a = Ok r.
  Proof.
    intros L a (_ & Nd & _) Hne Hs. unfold row_of. rewrite Hs.
    match goal with |- exists r, (match dims a with [] => _ | _ :: _ => match dims a with [] => _ | _ :: _ => if ?b1 then if ?b2 then _ else _ else _ end end) = _ => assert (E1 : b1 = true); [|assert (E2 : b2 = true)] end.
    { apply forallb_forall. intros d Hd. apply mem_In. auto. }
    { apply forallb_forall. intros [d n] Hd. apply orb_true_iff. right. cbn [fst snd]. assert (Eg : dget d (combine (dims a) (map L (dims a))) = Some n). { apply dget_NoDup_In; auto. rewrite keys_combine; auto. rewrite map_length. auto. }
      rewrite Eg. apply Nat.eqb_refl. }
    rewrite E1, E2. destruct (dims a); [contradiction Hne; auto|]. eauto.
  Qed.

  Lemma combine_ok : forall L S s0 (states : list (dict (pval T))), (forall st, In st (s0 :: states) -> on_grid L st /\ fits S st) -> exists all, combine_states (s0 :: states) = Ok all.
  Proof.
    intros L S s0 states Hs. unfold combine_states. destruct (Hs s0 (or_introl eq_refl)) as (G0 & F0). destruct G0 as (_ & Nd0 & G0).
    match goal with |- context [foldM ?g s0 []] => assert (S0 : exists start, foldM g s0 [] = Ok start) end.
    { match goal with |- exists _, foldM ?g s0 [] = _ => destruct (foldM_ok (fun _ => True) g s0 []) as (start & E & _) end; eauto.
      intros rd [k v] Hin _. cbn [fst snd]. destruct F0 as (_ & F0). destruct (F0 k v) as (a & -> & _). { apply dget_NoDup_In; auto. } cbn [as_da bind]. eauto. }
    destruct S0 as (start & E0). rewrite E0. cbn [bind]. pose proof (start_spec s0 [] start Nd0 E0) as St.
    pose (P := fun rd : dict (comb T) => forall n, In n (sc_names S) -> exists cb, dget n rd = Some cb /\ cb_dims cb = sc_dims S n /\ cb_shape cb = map L (sc_dims S n)).
    assert (P0 : P start).
    { intros n Hn. apply F0 in Hn. apply In_keys_dget in Hn as (v & Hv). specialize (St n). rewrite Hv in St. destruct St as (a & -> & Est). eexists. split; [exact Est|].
      destruct F0 as (_ & F0). destruct (F0 n _ Hv) as (a' & Ea & Ed & _). injection Ea as <-. cbn [cb_dims cb_shape]. split; auto. rewrite <- Ed. apply (G0 n a Hv). }
    match goal with |- exists _, foldM ?g ?l start = _ => destruct (foldM_ok P g l start) as (all & E & _) end; eauto.
    intros rd st Hst HP. destruct (Hs st Hst) as ((_ & Nd & Gs) & (Fk & Fs)).
    match goal with |- exists _, foldM ?g ?l _ = _ /\ _ => apply (foldM_ok P g l rd); auto end.
    intros rd' [k v] Hin HP'. cbn [fst snd]. apply dget_NoDup_In in Hin; auto. destruct (HP' k) as (cb & Hcb & Ed & Es). { apply Fk. eapply dget_In_keys; eauto. }
    unfold dgetE. rewrite Hcb. cbn [bind]. destruct (Fs k v Hin) as (a & -> & Ea & Hne & _). cbn [as_da bind]. destruct (Gs k a Hin) as (Wa & Sa & _).
    destruct (row_of_ok L a Wa Hne Sa) as (r & Hr). rewrite Ed, Es, <- Ea, Hr. cbn [bind]. eexists. split; [reflexivity|].
    intros n Hn. rewrite dget_dset. destruct (String.eqb n k) eqn:En; [|apply HP'; auto]. apply String.eqb_eq in En. subst. eexists. split; [reflexivity|]. cbn [cb_dims cb_shape]. rewrite Ea. auto.
  Qed.

  (** C53: a cache that matches the file is written. *)
  Lemma write_act_ok : forall m L S log c (f : nfile T), plain_fit N -> clock m -> holds m L log f -> grid_dims L f -> same_clock m f ->
    (forall ts, In ts log -> snd ts <> [] /\ fits S (snd ts)) -> (forall ts, In ts c -> on_grid L (snd ts) /\ fits S (snd ts)) -> c <> [] ->
    exists f', write_act m c f = (Ok tt, f') /\ same_clock m f'.
  Proof.
    intros m L S log c f P Ck Hh G Sc Hlog Hc Hne.
    assert (Hvars : d_vars f = [] \/ NoDup (keys (d_vars f)) /\ (forall n, In n (keys (d_vars f)) <-> In n (sc_names S)) /\
      forall n v, dget n (d_vars f) = Some v -> nv_dims v = sc_dims S n /\ nv_attrs v = sc_attrs S n).
    { destruct log as [|[t1 s1] log]; cbn [holds] in Hh. tauto. right. destruct Hh as (_ & Nv & Kv & Vv). destruct (Hlog (t1, s1) (or_introl eq_refl)) as (_ & F1k & F1). cbn [snd] in *.
      split; auto. split. { intros n. rewrite <- (F1k n). symmetry. apply (Kv (t1, s1)). cbn; auto. }
      intros n v Hv. destruct (Vv n v Hv) as ((a0 & Ha0 & -> & ->) & _). destruct (F1 n _ Ha0) as (a & E & E1 & _ & E2 & _). injection E as <-. auto. }
    unfold write_act. unfold thn at 1. assert (Ek : check_keys c f = (Ok tt, f)).
    { unfold check_keys. destruct c as [|[t s] c]; auto.
      match goal with |- (if ?b then _ else _) = _ => assert (E : b = true) end; [|rewrite E; auto]. apply forallb_forall. intros ts Hts.
      destruct (Hc ts Hts) as ((_ & Nd & _) & Fk & _). destruct (Hc (t, s) (or_introl eq_refl)) as ((_ & Nd0 & _) & Fk0 & _).
      destruct Hvars as [Hv|(Nv & Kv & _)].
      - rewrite Hv. cbn [keys map]. apply same_list_true; auto. intros n. rewrite (Fk n), (Fk0 n). tauto.
      - destruct (keys (d_vars f)) as [|k ks] eqn:E; apply same_list_true; auto; intros n; rewrite (Fk n), ?(Fk0 n); try tauto. rewrite <- (Kv n). tauto. }
    rewrite Ek. pose proof (by_time_perm c) as Pm. destruct (by_time c) as [|[t0 s0] l] eqn:Eb. { apply Permutation_nil in Pm. contradiction. }
    assert (Hin : forall ts, In ts ((t0, s0) :: l) -> In ts c) by (intros ts Hts; eapply Permutation_in; eauto).
    unfold thn at 1.
    assert (S1 : exists f1 tv, ensure_time m t0 f = (Ok tt, f1) /\ grid_dims L f1 /\ d_vars f1 = d_vars f /\ d_time f1 = Some tv /\ t_units tv = m_units m /\ (m_delta m = false -> t_ref tv <> None)).
    { unfold ensure_time, thn. destruct (ensure_dim_ok L "time" None f G eq_refl) as (g & E). rewrite E. destruct (ensure_dim_grid L "time" None f g E G eq_refl) as (G1 & _ & V1 & T1 & _).
      destruct (d_time g) as [tv|] eqn:Eg.
      - exists g, tv. destruct (Sc tv (eq_sym T1)) as (U & Rf). auto 7.
      - eexists _, _. split; [reflexivity|]. cbn [d_vars d_time]. split; [split; cbn [d_dims d_vars]; apply G1|]. split; auto. split; auto. cbn [t_units t_ref]. split; auto. intros ->. discriminate. }
    destruct S1 as (f1 & tv & E1 & G1 & V1 & T1 & U1 & R1). rewrite E1. cbv zeta. unfold thn at 1.
    assert (S2 : exists zs, append_times m (map fst ((t0, s0) :: l)) f1 = (Ok tt, mkds (d_dims f1) (Some (mktvar (t_units tv) (t_ref tv) (t_vals tv ++ zs))) (d_vars f1))).
    { unfold append_times. rewrite T1. unfold clock in Ck. destruct (m_delta m).
      - destruct (mapM_all _ (map fst ((t0, s0) :: l)) Ck) as (zs & ->). eauto.
      - destruct (t_ref tv) as [r|]; [|contradiction R1; auto]. rewrite U1. destruct (mapM_all _ (map fst ((t0, s0) :: l)) (Ck r)) as (zs & ->). eauto. }
    destruct S2 as (zs & E2). rewrite E2. unfold thn at 1, lift.
    assert (Hst : forall st, In st (s0 :: map snd l) -> on_grid L st /\ fits S st).
    { change (s0 :: map snd l) with (map snd ((t0, s0) :: l)). intros st Hst. apply in_map_iff in Hst as (ts & <- & Hts). auto. }
    destruct (combine_ok L S s0 (map snd l) Hst) as (all & Ec). cbn [map snd]. rewrite Ec.
    destruct (combine_spec s0 (map snd l) all) as (Na & Ka & Va); [|exact Ec|].
    { intros st Hs. destruct (Hst st Hs) as ((_ & Nd & _) & Fk & _). split; auto. intros n. rewrite (Fk n). destruct (Hst s0 (or_introl eq_refl)) as (_ & Fk0 & _). rewrite (Fk0 n). tauto. }
    match goal with |- exists f', each _ _ ?ff = _ /\ _ => set (f2 := ff) end.
    assert (G2 : grid_dims L f2) by (destruct G1 as (Ga & Gb); split; cbn [d_dims d_vars]; auto).
    assert (Cb : forall n cb, dget n all = Some cb -> ~ In "time" (cb_dims cb) /\ cb_shape cb = map L (cb_dims cb) /\ (forall r, In r (cb_rows cb) -> shape r = map L (cb_dims cb)) /\ NoDup (keys (cb_attrs cb)) /\
       forall v, dget n (d_vars f2) = Some v -> nv_dims v = cb_dims cb /\ nv_attrs v = cb_attrs cb).
    { intros n cb Hcb. destruct (Va n cb Hcb) as (a0 & Ha0 & Ed & Es & Ea & F). destruct (Hst s0 (or_introl eq_refl)) as ((_ & _ & Gs) & _ & Fs). destruct (Gs n a0 Ha0) as (W0 & Sh0 & Nt0).
      destruct (Fs n _ Ha0) as (a & Eq & D0 & _ & A0 & NA). injection Eq as <-. rewrite Ed, Es, Ea. split; auto. split; auto. split; [|split; auto].
      - intros r Hr. assert (F' : exists st, In st (s0 :: map snd l) /\ exists a, dget n st = Some (VDA a) /\ row_of (cb_dims cb) (cb_shape cb) a = Ok r).
        { clear - F Hr. induction F as [|x y xs ys Hxy F IH]; [destruct Hr|]. destruct Hr as [<-|Hr]. exists x. cbn; auto. destruct (IH Hr) as (st & Hin & H). exists st. cbn [In]. auto. }
        destruct F' as (st & Hin' & a & Ha & Hrow). destruct (Hst st Hin') as ((_ & _ & Gs') & _). destruct (Gs' n a Ha) as (Wa & Sa & _). rewrite Es in Hrow.
        destruct (row_holds L (cb_dims cb) a0 a r W0 Sh0 Ed Wa Sa Hrow) as (r' & Er & _ & Shr & _). injection Er as <-. rewrite Shr, Ed. auto.
      - intros v Hv. unfold f2 in Hv. cbn [d_vars] in Hv. rewrite V1 in Hv. destruct Hvars as [E0|(_ & _ & Vv)]. rewrite E0 in Hv. discriminate Hv.
        rewrite D0, A0. auto. }
    destruct (variables_ok L (n_times f1) all f2 P Na Cb G2) as (f' & E).
    exists f'. split; auto. destruct (variables_loop L (n_times f1) all f2 f' P Na) as (_ & T3 & _); auto.
    { intros n cb Hcb. destruct (Cb n cb Hcb) as (H1 & H2 & H3 & _). auto. }
    intros tv' Htv'. rewrite T3 in Htv'. injection Htv' as <-. cbn [t_units t_ref]. auto.
  Qed.

  Lemma cached_fits : forall S stored c, cache_is stored c -> (forall ts, In ts stored -> fits S (snd ts)) -> forall ts, In ts c -> fits (T := T) S (snd ts).
  Proof.
    intros S stored c (Nd & Ht & Hc) Hs [t s] Hin. destruct (Hc t s Hin) as (Ns & Hl). cbn [snd]. split.
    - intros n. split.
      + intros Hn. apply In_keys_dget in Hn as (v & Hv). rewrite Hl in Hv. apply latest_in in Hv as (s' & Hs' & Hv). apply (Hs _ Hs'). eapply dget_In_keys; eauto.
      + intros Hn. assert (Hts : In t (map fst stored)) by (apply Ht; change t with (fst (t, s)); apply in_map; auto). apply in_map_iff in Hts as ([t' s'] & E & Hts). cbn [fst] in E. subst t'.
        destruct (latest_some stored t s' n Hts) as (v & Hv). { apply (Hs _ Hts). auto. } rewrite <- Hl in Hv. eapply dget_In_keys; eauto.
    - intros n v Hv. rewrite Hl in Hv. apply latest_in in Hv as (s' & Hs' & Hv). destruct (Hs _ Hs') as (_ & F). eauto.
  Qed.

  Lemma write_ok : forall m L S log stored c (fs : files T), plain_fit N -> clock m -> file_holds m L log fs -> file_clock m fs -> (forall ts, In ts log -> fits S (snd ts)) ->
    cache_is stored c -> (forall ts, In ts stored -> on_grid L (snd ts) /\ fits S (snd ts)) -> stored <> [] ->
    exists fs', write m fs c = (Ok tt, fs', []) /\ file_holds m L (log ++ by_time c) fs' /\ file_clock m fs' /\ (forall ts, In ts (log ++ by_time c) -> fits S (snd ts)).
  Proof.
    intros m L S log stored c fs P Ck Hf Fc Hlog Hc Hst Hne.
    pose proof (cached_grid L stored c Hc (fun ts H => proj1 (Hst ts H))) as Hg. pose proof (cached_fits S stored c Hc (fun ts H => proj2 (Hst ts H))) as Hfit.
    assert (Hcne : c <> []). { intros ->. destruct stored as [|[t s] stored]; [contradiction Hne; auto|]. destruct Hc as (_ & Ht & _). apply (Ht t). cbn; auto. }
    destruct (write_act_ok m L S log c (match dget (m_file m) fs with Some d => d | None => empty_ds end) P Ck) as (d' & E & Sc'); auto.
    - destruct Hf as (_ & Hf). destruct (dget (m_file m) fs). apply Hf. subst log. split; auto.
    - destruct Hf as (_ & Hf). destruct (dget (m_file m) fs). apply Hf. split; cbn; intros; discriminate.
    - destruct (dget (m_file m) fs) as [f|] eqn:Ef. apply Fc; auto. intros tv H. discriminate H.
    - intros ts Hts. split; auto. apply Hf. auto.
    - assert (W : write m fs c = (Ok tt, dset (m_file m) d' fs, [])) by (unfold write; rewrite E; auto).
      exists (dset (m_file m) d' fs). split; auto.
      destruct (write_step m L log stored c fs _ _ P Hf Hc (fun ts H => proj1 (Hst ts H)) W) as (_ & _ & F). split; auto. split.
      { intros f Hf'. rewrite dget_dset_eq in Hf'. injection Hf' as <-. auto. }
      intros ts Hts. apply in_app_iff in Hts as [Hts|Hts]; auto. apply Hfit. eapply Permutation_in; [apply by_time_perm|auto].
  Qed.

  Lemma run_ok : forall ord m L S, plain_fit N -> clock m -> (forall l, Permutation (ord l) l) -> sc_names S <> [] -> forall ops current stored fs log c,
    (forall st, In (Store st) ops -> grid_state L st /\ conforms ord m S st) ->
    mapM (prepare ord m) current = Ok stored -> (forall ts, In ts stored -> on_grid L (snd ts) /\ fits S (snd ts)) -> cache_is stored c ->
    file_holds m L log fs -> file_clock m fs -> (forall ts, In ts log -> fits S (snd ts)) ->
    Forall (fun states => states <> []) (fst (batches (m_on_store m) current ops)) ->
    Forall (eq (Ok tt)) (fst (fst (mon_run ord m ops fs c))).
  Proof.
    intros ord m L S P Ck Po Hnm. induction ops as [|op ops IH]; intros current stored fs log c Hop Hcur Hst Hc Hf Fc Hlog Hb; cbn [mon_run batches] in *. constructor.
    assert (Hop' : forall st, In (Store st) ops -> grid_state L st /\ conforms ord m S st) by (intros st Hin; apply Hop; cbn; auto).
    assert (Wr : forall states prep cc, states <> [] -> mapM (prepare ord m) states = Ok prep -> (forall ts, In ts prep -> on_grid L (snd ts) /\ fits S (snd ts)) -> cache_is prep cc ->
      Forall (fun states => states <> []) (fst (batches (m_on_store m) [] ops)) ->
      exists fs1, write m fs cc = (Ok tt, fs1, []) /\ Forall (eq (Ok tt)) (fst (fst (mon_run ord m ops fs1 [])))).
    { intros states prep cc Hne H1 H2 H3 H4.
      assert (Hpn : prep <> []). { intros ->. apply mapM_length in H1. destruct states; [contradiction Hne; auto|discriminate H1]. }
      destruct (write_ok m L S log prep cc fs P Ck Hf Fc Hlog H3 H2 Hpn) as (fs1 & W & F1 & C1 & L1). exists fs1. split; auto.
      apply (IH [] [] fs1 (log ++ by_time cc) []); auto. intros ts []. apply cache_is_nil. }
    destruct op as [st|]; cbn [mon_step].
    - destruct (Hop st (or_introl eq_refl)) as (Gs & t & cs & Ep & Fs).
      assert (Hg : on_grid L cs).
      { apply (storable_grid ord m L st t cs Po); auto. split; auto. intros t' cs' E'. rewrite Ep in E'. injection E' as <- <-. intros ->.
        destruct (sc_names S) as [|n ns] eqn:En; [contradiction Hnm; auto|]. destruct Fs as (Fk & _). rewrite En in Fk. apply (Fk n). cbn; auto. }
      pose proof (mapM_snoc (prepare ord m) current stored st (t, cs) Hcur Ep) as Hcur'.
      assert (Hst' : forall ts, In ts (stored ++ [(t, cs)]) -> on_grid L (snd ts) /\ fits S (snd ts)).
      { intros ts Hts. apply in_app_iff in Hts as [Hts|[<-|[]]]; auto. }
      assert (Hc' : cache_is (stored ++ [(t, cs)]) (cache_add t cs c)) by (apply cache_is_add; auto; apply Hg).
      unfold store. rewrite Ep. destruct (m_on_store m) eqn:Eo.
      + destruct (batches true [] ops) as [bs tl] eqn:Eb. cbn [fst] in Hb. inversion Hb as [|? ? Hb1 Hb2]; subst.
        destruct (Wr _ _ _ Hb1 Hcur' Hst' Hc') as (fs1 & W & F). auto. rewrite W. destruct (mon_run ord m ops fs1 []) as [[os1 fs2] c2]. cbn [fst] in *. constructor; auto.
      + specialize (IH _ _ fs log _ Hop' Hcur' Hst' Hc' Hf Fc Hlog Hb). destruct (mon_run ord m ops fs (cache_add t cs c)) as [[os1 fs2] c2]. cbn [fst] in *. constructor; auto.
    - destruct (batches (m_on_store m) [] ops) as [bs tl] eqn:Eb. cbn [fst] in Hb. inversion Hb as [|? ? Hb1 Hb2]; subst.
      destruct (Wr _ _ _ Hb1 Hcur Hst Hc) as (fs1 & W & F). auto. rewrite W. destruct (mon_run ord m ops fs1 []) as [[os1 fs2] c2]. cbn [fst] in *. constructor; auto.
  Qed.

  (** C53: states with the same quantities are all written. *)
  Lemma main_monitor_succeeds : forall ord m L S ops (fs : files T) log, plain_fit N -> clock m -> (forall l, Permutation (ord l) l) -> sc_names S <> [] ->
    (forall st, In (Store st) ops -> grid_state L st /\ conforms ord m S st) ->
    file_holds m L log fs -> file_clock m fs -> (forall ts, In ts log -> fits S (snd ts)) ->
    Forall (fun states => states <> []) (fst (batches (m_on_store m) [] ops)) ->
    Forall (eq (Ok tt)) (fst (fst (mon_run ord m ops fs []))).
  Proof.
    intros ord m L S ops fs log P Ck Po Hn Hop Hf Fc Hl Hb. apply (run_ok ord m L S P Ck Po Hn ops [] [] fs log []); auto. intros ts []. apply cache_is_nil.
  Qed.
End Succeeds.
