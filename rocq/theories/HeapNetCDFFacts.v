(** What is written of states whose arrays are shared (C67). *)
From Coq Require Import String List Bool Arith ZArith Permutation Lia.
From Verif Require Import Prelude PreludeFacts ArithM NdArray DataArrayM Heap StrFun NetCDF SpecNetCDF NetCDFMain HeapNetCDF SpecHeapNetCDF.
Import ListNotations.
Open Scope string_scope.
Open Scope nat_scope.
Open Scope list_scope.

(** ** Functions on the values of a dictionary *)
Section Values.
  Context {V W : Type} (g : V -> W).
  Definition vals (d : dict V) : dict W := map (fun nv => (fst nv, g (snd nv))) d.

  Lemma keys_vals : forall d, keys (vals d) = keys d.
  Proof. intros d. unfold keys, vals. rewrite map_map. auto. Qed.

  Lemma dget_vals : forall n d, dget n (vals d) = match dget n d with Some v => Some (g v) | None => None end.
  Proof. intros n d. induction d as [|[k v] d IH]; cbn [vals map dget fst snd]; auto. destruct (String.eqb n k); auto. Qed.

  Lemma dset_vals : forall n v d, dset n (g v) (vals d) = vals (dset n v d).
  Proof. intros n v d. induction d as [|[k w] d IH]; cbn [vals map dset fst snd]; auto. destruct (String.eqb n k); cbn [map fst snd]; auto. unfold vals in IH. rewrite IH. auto. Qed.

  Lemma ddel_vals : forall n d, ddel n (vals d) = vals (ddel n d).
  Proof. intros n d. induction d as [|[k w] d IH]; cbn [vals map ddel fst snd]; auto. unfold vals in IH. destruct (String.eqb n k); cbn [map fst snd]; rewrite IH; auto. Qed.

  Lemma dupdate_vals : forall d e, dupdate (vals d) (vals e) = vals (dupdate d e).
  Proof. intros d e. revert d. induction e as [|[k v] e IH]; intros d; auto. cbn [vals map]. unfold dupdate in *. cbn [fold_left fst snd]. rewrite dset_vals. apply IH. Qed.
End Values.

Section Facts.
  Context {T : Type} {A : Arith T} {N : NcLib T}.

  Definition res_vals {B C} (f : B -> C) (r : res B) : res C := match r with Ok x => Ok (f x) | Err e => Err e end.

  Lemma dgetE_vals : forall {V W} (g : V -> W) n d, dgetE n (vals g d) = res_vals g (dgetE n d).
  Proof. intros V W g n d. unfold dgetE. rewrite dget_vals. destruct (dget n d); auto. Qed.

  Lemma foldM_vals : forall {X B C} (f : B -> C) (s1 : B -> X -> res B) (s2 : C -> X -> res C), (forall b x, s2 (f b) x = res_vals f (s1 b x)) ->
    forall l b, foldM s2 l (f b) = res_vals f (foldM s1 l b).
  Proof. intros X B C f s1 s2 H. induction l as [|x l IH]; intros b; cbn [foldM]; auto. rewrite H. destruct (s1 b x); cbn [res_vals bind]; auto. Qed.

  Lemma prepare_refs : forall ord m h (st : dict (pval nat)),
    prepare (T := T) ord m (load_refs h st) = res_vals (fun tc => (fst tc, load_refs h (snd tc))) (prepare ord m st).
  Proof.
    intros ord m h st. unfold prepare. change (load_refs h) with (vals (load_ref (T := T) h)).
    match goal with |- bind ?x _ = res_vals _ (bind ?y _) => assert (E0 : x = res_vals (vals (load_ref h)) y) end.
    { destruct (m_names m) as [ns|]; auto. rewrite keys_vals. generalize (ord (filter (fun n => mem n ("time" :: ns)) (keys st))). induction l as [|n l IH]; cbn [mapM]; auto.
      rewrite dgetE_vals. destruct (dgetE n st) as [v|]; cbn [bind res_vals]; auto. rewrite IH. match goal with |- context [mapM ?g l] => destruct (mapM g l) end; cbn [bind res_vals]; auto. }
    rewrite E0. clear E0. destruct (match m_names m with Some _ => _ | None => _ end) as [cs|e]; cbn [res_vals bind]; auto. rewrite keys_vals. destruct (mem "" (keys cs)); auto.
    rewrite (foldM_vals (vals (load_ref h)) (fun cs la => apply_alias cs (fst la) (snd la))).
    2: { intros b la. unfold apply_alias. rewrite keys_vals. apply foldM_vals. intros b' name. destruct (str_in (fst la) name); auto. destruct (String.eqb _ ""); auto. rewrite dget_vals.
         destruct (dget name b') as [v|]; auto. rewrite ddel_vals, dset_vals. auto. }
    match goal with |- context [foldM ?g ?l cs] => destruct (foldM g l cs) as [c1|e] end; cbn [res_vals bind]; auto. unfold dgetE. rewrite !dget_vals. destruct (dget "time" c1) as [v1|]; cbn [bind res_vals]; auto.
    destruct (dget "time" st) as [[a|t]|]; cbn [bind res_vals load_ref]; auto. rewrite ddel_vals. auto.
  Qed.

  Lemma cache_add_refs : forall h t cs c, cache_add t (load_refs h cs) (load_cache h c) = load_cache (T := T) h (cache_add t cs c).
  Proof.
    intros h t cs c. unfold cache_add.
    assert (G : tget t (load_cache (T := T) h c) = match tget t c with Some s => Some (load_refs h s) | None => None end).
    { induction c as [|[t' s] c IH]; cbn [load_cache map tget fst snd]; auto. destruct (Z.eqb t t'); auto. }
    assert (S : forall s, tset t (load_refs h s) (load_cache (T := T) h c) = load_cache h (tset t s c)).
    { intros s. clear G. induction c as [|[t' s'] c IH]; cbn [load_cache map tset fst snd]; auto. destruct (Z.eqb t t'); cbn [map fst snd]; auto. unfold load_cache in IH. rewrite IH. auto. }
    rewrite G. destruct (tget t c) as [old|]; [|apply S]. rewrite <- S. f_equal. apply dupdate_vals.
  Qed.

  (** The cells of a cache. *)
  Definition cache_cells (c : cache_t nat) : list nat := flat_map (fun ts => cells_of (snd ts)) c.

  Lemma load_same : forall (h h' : heap T) c, (forall x, In x (cache_cells c) -> cell h' x = cell h x) -> load_cache h' c = load_cache h c.
  Proof.
    intros h h' c H. unfold load_cache. apply map_ext_in. intros [t s] Hs. f_equal. unfold load_refs. apply map_ext_in. intros [n v] Hv. f_equal. destruct v as [a|]; auto. cbn [load_ref snd].
    do 3 f_equal. apply map_ext_in. intros x Hx. apply H. apply in_flat_map. exists (t, s). split; auto. apply in_flat_map. exists (n, VDA a). auto.
  Qed.

  Lemma cells_sub : forall (d e : dict (pval nat)), (forall n v, In (n, v) d -> exists n', In (n', v) e) -> incl (cells_of d) (cells_of e).
  Proof. intros d e H x Hx. apply in_flat_map in Hx as ([n v] & Hin & Hx). apply H in Hin as (n' & Hin). apply in_flat_map. exists (n', v). auto. Qed.

  Lemma In_dset : forall {V} n (v : V) d k w, In (k, w) (dset n v d) -> (k = n /\ w = v) \/ In (k, w) d.
  Proof.
    intros V n v d k w. induction d as [|[k' w'] d IH]; cbn [dset In].
    - intros [E|[]]. injection E as <- <-. auto.
    - destruct (String.eqb n k') eqn:E; cbn [In]. { apply String.eqb_eq in E. subst. intros [Eq|H]; auto. injection Eq as <- <-. auto. } intros [Eq|H]; auto. apply IH in H as [H|H]; auto.
  Qed.

  Lemma In_ddel : forall {V} n (d : dict V) k w, In (k, w) (ddel n d) -> In (k, w) d.
  Proof. intros V n d k w. induction d as [|[k' w'] d IH]; cbn [ddel In]; auto. destruct (String.eqb n k'); cbn [In]; tauto. Qed.

  Lemma prepare_from : forall ord m (st : dict (pval nat)) t cs, prepare ord m st = Ok (t, cs) -> forall n v, In (n, v) cs -> exists n', In (n', v) st.
  Proof.
    intros ord m st t cs H. unfold prepare in H. apply bind_ok in H as (c0 & H0 & H).
    assert (S0 : forall n v, In (n, v) c0 -> exists n', In (n', v) st).
    { destruct (m_names m) as [ns|]; [|injection H0 as <-; eauto]. clear H. revert c0 H0. generalize (ord (filter (fun n => mem n ("time" :: ns)) (keys st))). induction l as [|n l IH]; intros c0 H0; cbn [mapM] in H0.
      - injection H0 as <-. intros n v [].
      - apply bind_ok in H0 as (y & Hy & H0). apply bind_ok in H0 as (ys & Hys & H0). injection H0 as <-. apply bind_ok in Hy as (v & Hv & Hy). injection Hy as <-. apply dgetE_ok in Hv. apply dget_In in Hv.
        intros n' v' [E|Hin]; eauto. injection E as <- <-. eauto. }
    destruct (mem "" (keys c0)). discriminate H. apply bind_ok in H as (c1 & H1 & H).
    assert (S1 : forall n v, In (n, v) c1 -> exists n', In (n', v) st).
    { pose (P := fun d : dict (pval nat) => forall n v, In (n, v) d -> exists n', In (n', v) st). change (P c1). revert H1. apply (foldM_inv P); auto. intros d la d' _ V1 Ha. unfold apply_alias in Ha.
      revert Ha. apply (foldM_inv P); auto. intros e name e' _ Ve He. destruct (str_in _ name). 2: { injection He as <-. auto. }
      destruct (String.eqb _ ""). discriminate He. destruct (dget name e) as [v|] eqn:E; [|discriminate He]. injection He as <-. intros n w Hin. apply In_dset in Hin as [(-> & ->)|Hin].
      apply dget_In in E. eauto. apply In_ddel in Hin. eauto. }
    apply bind_ok in H as (tt0 & _ & H). apply bind_ok in H as (tv & _ & H). destruct tv; [discriminate H|]. injection H as <- <-. intros n v Hin. apply In_ddel in Hin. eauto.
  Qed.

  Lemma cache_add_cells : forall t cs c, incl (cache_cells (cache_add t cs c)) (cells_of cs ++ cache_cells c).
  Proof.
    intros t cs c x Hx. apply in_flat_map in Hx as ([t' s] & Hin & Hx). cbn [snd] in Hx. apply in_app_iff.
    assert (Ts : forall s1, In (t', s) (tset t s1 c) -> s = s1 \/ In (t', s) c).
    { intros s1. clear. induction c as [|[t2 s2] c IH]; cbn [tset In]. intros [E|[]]. injection E as <- <-. auto.
      destruct (Z.eqb t t2); cbn [In]. intros [E|H]; auto. injection E as <- <-. auto. intros [E|H]; auto. apply IH in H as [H|H]; auto. }
    unfold cache_add in Hin. destruct (tget t c) as [old|] eqn:E.
    - apply Ts in Hin as [->|Hin]; [|right; apply in_flat_map; eauto].
      assert (Hold : exists t2, In (t2, old) c). { clear - E. induction c as [|[t2 s2] c IH]; cbn [tget] in E. discriminate. destruct (Z.eqb t t2). injection E as <-. exists t2. cbn; auto. destruct (IH E) as (t3 & H). exists t3. cbn; auto. }
      destruct Hold as (t2 & Hold). apply in_flat_map in Hx as ([n v] & Hv & Hx).
      assert (Du : forall e d, In (n, v) (dupdate d e) -> In (n, v) d \/ In (n, v) e).
      { induction e as [|[k w] e IH]; intros d Hd; unfold dupdate in *; cbn [fold_left fst snd] in Hd; auto. apply IH in Hd as [Hd|Hd]; [|cbn; auto]. apply In_dset in Hd as [(-> & ->)|Hd]; cbn; auto. }
      apply Du in Hv as [Hv|Hv]. right. apply in_flat_map. exists (t2, old). split; auto. apply in_flat_map. eauto. left. apply in_flat_map. eauto.
    - apply Ts in Hin as [->|Hin]; auto. right. apply in_flat_map. eauto.
  Qed.

  Lemma ref_write_spec : forall m (h : heap T) fs c o fs' c', ref_write m h fs c = (o, fs', c') ->
    NetCDF.write m fs (load_cache h c) = (o, fs', load_cache h c') /\ (o = Ok tt -> c' = []).
  Proof.
    intros m h fs c o fs' c' H. unfold ref_write in H. unfold NetCDF.write in *. destruct (write_act m _ _) as [[u|e] d']; injection H as <- <- <-; split; auto. intros; discriminate.
  Qed.

  (** C67: what is written, if nothing is changed before it is. *)
  Lemma ref_run_spec : forall ord m ops (h : heap T) fs c waiting os fs' c', incl (cache_cells c) waiting ->
    undisturbed (m_on_store m) waiting h ops -> ref_run ord m ops h fs c = (os, fs', c') -> Forall (eq (Ok tt)) os ->
    exists cv, mon_run ord m (at_store h ops) fs (load_cache h c) = (os, fs', cv).
  Proof.
    intros ord m. induction ops as [|op ops IH]; intros h fs c waiting os fs' c' Hw Hu H Hok; cbn [ref_run at_store mon_run undisturbed] in *.
    - injection H as <- <- <-. eauto.
    - destruct op as [st| |h']; cbn [ref_step] in H.
      + cbn [mon_run mon_step]. unfold store. rewrite prepare_refs. destruct (prepare ord m st) as [[t cs]|e] eqn:Ep; cbn [res_vals fst snd].
        * rewrite cache_add_refs. pose proof (cache_add_cells t cs c) as Hc. assert (Hcs : incl (cells_of cs) (cells_of st)) by (apply cells_sub; eapply prepare_from; eauto).
          destruct (m_on_store m) eqn:Eo.
          -- destruct (ref_write m h fs (cache_add t cs c)) as [[o fs1] c1] eqn:Ew. destruct (ref_run ord m ops h fs1 c1) as [[os1 fs2] c2] eqn:Er. injection H as <- <- <-.
             inversion Hok as [|? ? Ho Hok']; subst. apply ref_write_spec in Ew as (Ew & Ec). rewrite Ew. specialize (Ec eq_refl). subst c1.
             destruct (IH h fs1 [] [] os1 fs2 c2) as (cv & Ev); auto. { apply incl_refl. } rewrite Ev. eauto.
          -- destruct (ref_run ord m ops h fs (cache_add t cs c)) as [[os1 fs2] c2] eqn:Er. injection H as <- <- <-. inversion Hok as [|? ? Ho Hok']; subst.
             destruct (IH h fs (cache_add t cs c) (cells_of st ++ waiting) os1 fs2 c2) as (cv & Ev); auto.
             { intros x Hx. apply Hc in Hx. apply in_app_iff in Hx. apply in_app_iff. destruct Hx; auto. }
             rewrite Ev. eauto.
        * destruct (ref_run ord m ops h fs c) as [[os1 fs2] c2]. injection H as <- <- <-. inversion Hok; subst. discriminate.
      + cbn [mon_run mon_step]. destruct (ref_write m h fs c) as [[o fs1] c1] eqn:Ew. destruct (ref_run ord m ops h fs1 c1) as [[os1 fs2] c2] eqn:Er. injection H as <- <- <-.
        inversion Hok as [|? ? Ho Hok']; subst. apply ref_write_spec in Ew as (Ew & Ec). rewrite Ew. specialize (Ec eq_refl). subst c1.
        destruct (IH h fs1 [] [] os1 fs2 c2) as (cv & Ev); auto. { apply incl_refl. } rewrite Ev. eauto.
      + destruct Hu as (Hh & Hu). destruct (ref_run ord m ops h' fs c) as [[os1 fs2] c2] eqn:Er. injection H as <- <- <-.
        rewrite <- (load_same h h' c). eapply IH; eauto. intros x Hx. apply Hh. auto.
  Qed.

  Lemma main_undisturbed : forall ord m ops (h : heap T) fs os fs' c', undisturbed (m_on_store m) [] h ops -> ref_run ord m ops h fs [] = (os, fs', c') -> Forall (eq (Ok tt)) os ->
    exists cv, mon_run ord m (at_store h ops) fs [] = (os, fs', cv).
  Proof. intros ord m ops h fs os fs' c' Hu H Hok. apply (ref_run_spec ord m ops h fs [] [] os fs' c'); auto. apply incl_refl. Qed.

  Lemma undisturbed_on_store : forall ops (h : heap T), undisturbed true [] h ops.
  Proof. induction ops as [|[st| |h'] ops IH]; intros h; cbn [undisturbed]; auto. split; auto. intros x []. Qed.

  (** With write_on_store nothing can come between. *)
  Lemma main_on_store : forall ord m ops (h : heap T) fs os fs' c', m_on_store m = true -> ref_run ord m ops h fs [] = (os, fs', c') -> Forall (eq (Ok tt)) os ->
    exists cv, mon_run ord m (at_store h ops) fs [] = (os, fs', cv).
  Proof. intros ord m ops h fs os fs' c' E H Hok. eapply main_undisturbed; eauto. rewrite E. apply undisturbed_on_store. Qed.
End Facts.
