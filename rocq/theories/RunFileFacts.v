(** Proofs about the file that a model run leaves (C87). *)
From Coq Require Import String List Bool Arith ZArith QArith Lia Permutation Sorting.
From Verif Require Import Prelude PreludeFacts ArithM NdArray Units DataArrayM StrFun NetCDF SpecNetCDF NetCDFFacts NetCDFMain NetCDFAlias NetCDFSucceeds
  Components Composite Steppers Basic MainLoop SpecMainLoop MainLoopMain SpecLoopRun SpecRunFile.
Import ListNotations.
Open Scope string_scope.
Open Scope nat_scope.
Open Scope list_scope.

Section Facts.
  Context {T : Type} {A : Arith T} {N : NcLib T}.

  (** ** Programs that only store *)
  Lemma batches_on_store : forall (l : list (state T)), batches true [] (map (@Store T) l) = (map (fun s => [s]) l, []).
  Proof. induction l as [|s l IH]; simpl; [reflexivity|]. rewrite IH. reflexivity. Qed.

  Lemma batches_later : forall (l cur : list (state T)), batches false cur (map (@Store T) l ++ [Write]) = ([cur ++ l], []).
  Proof.
    induction l as [|s l IH]; intros cur; simpl.
    - rewrite app_nil_r. reflexivity.
    - rewrite IH, <- app_assoc. reflexivity.
  Qed.

  Lemma mon_run_app : forall ord m ops1 ops2 (fs : files T) c, mon_run ord m (ops1 ++ ops2) fs c =
    match mon_run ord m ops1 fs c with
    | (os1, fs1, c1) => match mon_run ord m ops2 fs1 c1 with (os2, fs2, c2) => (os1 ++ os2, fs2, c2) end
    end.
  Proof.
    intros ord m ops1. induction ops1 as [|op ops1 IH]; intros ops2 fs c.
    - simpl. destruct (mon_run ord m ops2 fs c) as [[? ?] ?]. reflexivity.
    - simpl. destruct (mon_step ord m op fs c) as [[o fs1] c1]. rewrite IH.
      destruct (mon_run ord m ops1 fs1 c1) as [[os1 fs2] c2]. destruct (mon_run ord m ops2 fs2 c2) as [[? ?] ?]. reflexivity.
  Qed.

  Lemma mon_run_files : forall ord m l (fs : files T) c os fs' c', m_on_store m = false ->
    mon_run ord m (map (@Store T) l) fs c = (os, fs', c') -> fs' = fs.
  Proof.
    intros ord m l. induction l as [|s l IH]; intros fs c os fs' c' Hm H; simpl in H.
    - injection H as _ <- _. reflexivity.
    - unfold NetCDF.store in H. rewrite Hm in H. destruct (prepare ord m s) as [[t cs]|e].
      + destruct (mon_run ord m (map (@Store T) l) fs (cache_add t cs c)) as [[os1 fs1] c1] eqn:E.
        injection H as _ <- _. eapply IH; eauto.
      + destruct (mon_run ord m (map (@Store T) l) fs c) as [[os1 fs1] c1] eqn:E.
        injection H as _ <- _. eapply IH; eauto.
  Qed.

  (** ** Batches of states with increasing times *)
  Lemma sorted_same : forall l1 l2, StronglySorted Z.lt l1 -> StronglySorted Z.lt l2 -> (forall t, In t l1 <-> In t l2) -> l1 = l2.
  Proof.
    induction l1 as [|x l1 IH]; intros l2 S1 S2 H.
    - destruct l2 as [|y l2]; [reflexivity|]. exfalso. apply (proj2 (H y)). left; reflexivity.
    - destruct l2 as [|y l2]; [exfalso; apply (proj1 (H x)); left; reflexivity|].
      apply StronglySorted_inv in S1 as [S1 F1]. apply StronglySorted_inv in S2 as [S2 F2].
      rewrite Forall_forall in F1, F2.
      assert (Exy : x = y).
      { destruct (proj1 (H x) (or_introl eq_refl)) as [E|Hx]; [auto|].
        destruct (proj2 (H y) (or_introl eq_refl)) as [E|Hy]; [auto|].
        specialize (F1 _ Hy). specialize (F2 _ Hx). lia. }
      subst y. f_equal. apply IH; auto. intros t. split; intros Ht.
      + destruct (proj1 (H t) (or_intror Ht)) as [<-|Hx]; [|exact Hx]. specialize (F1 _ Ht). lia.
      + destruct (proj2 (H t) (or_intror Ht)) as [<-|Hx]; [|exact Hx]. specialize (F2 _ Ht). lia.
  Qed.

  Lemma latest_skip : forall (l : list (Z * dict (pval T))) t n acc, ~ In t (map fst l) ->
    fold_left (fun acc s => if Z.eqb t (fst s) then match dget n (snd s) with Some v => Some v | None => acc end else acc) l acc = acc.
  Proof.
    induction l as [|s l IH]; intros t n acc H; simpl; [reflexivity|]. simpl in H.
    destruct (Z.eqb t (fst s)) eqn:E; [apply Z.eqb_eq in E; exfalso; apply H; left; auto|]. apply IH. auto.
  Qed.

  Lemma latest_unique : forall (l : list (Z * dict (pval T))) t s n, NoDup (map fst l) -> In (t, s) l -> latest l t n = dget n s.
  Proof.
    unfold latest. intros l t s n. 
    assert (G : forall l acc, NoDup (map fst l) -> In (t, s) l -> acc = None ->
      fold_left (fun acc s => if Z.eqb t (fst s) then match dget n (snd s) with Some v => Some v | None => acc end else acc) l acc = dget n s).
    { clear l. induction l as [|x l IH]; intros acc Hn Hi Ha; [destruct Hi|]. simpl. simpl in Hn. inversion Hn; subst.
      destruct Hi as [->|Hi].
      - simpl. rewrite Z.eqb_refl. rewrite latest_skip by auto. destruct (dget n s); reflexivity.
      - destruct (Z.eqb t (fst x)) eqn:E.
        + apply Z.eqb_eq in E. exfalso. apply H1. rewrite <- E. apply in_map_iff. exists (t, s). auto.
        + apply IH; auto. }
    intros Hn Hi. apply G; auto.
  Qed.

  Lemma sorted_NoDup : forall l, StronglySorted Z.lt l -> NoDup l.
  Proof.
    induction 1 as [|x l _ IH F]; constructor; [|exact IH]. intros Hx. rewrite Forall_forall in F. specialize (F _ Hx). lia.
  Qed.

  (** A batch of states in increasing order of time is those states. *)
  Lemma batch_increasing : forall (stored batch : list (Z * dict (pval T))), StronglySorted Z.lt (map fst stored) -> batch_of stored batch ->
    Forall2 (fun s b => fst b = fst s /\ NoDup (keys (snd b)) /\ forall n, dget n (snd b) = dget n (snd s)) stored batch.
  Proof.
    intros stored batch Hs (Hb & Ht & Hd).
    assert (E : map fst stored = map fst batch) by (apply sorted_same; auto; intros t; rewrite Ht; tauto).
    assert (G : forall l1 l2, map fst l1 = map fst l2 -> incl l1 stored -> incl l2 batch ->
      Forall2 (fun s b => fst b = fst s /\ NoDup (keys (snd b)) /\ forall n, dget n (snd b) = dget n (snd s)) l1 l2).
    { induction l1 as [|s l1 IH]; intros [|b l2] El H1 H2; simpl in El; try discriminate; constructor.
      - injection El as E1 _. split; [auto|]. destruct b as [t sb]. simpl in E1. 
        destruct (Hd t sb) as [Hk Hg]; [apply H2; left; reflexivity|]. split; [exact Hk|].
        intros n. simpl. rewrite Hg. apply latest_unique; [apply sorted_NoDup; auto|]. 
        rewrite <- E1. destruct s; simpl. apply H1. left; reflexivity.
      - apply IH; [injection El; auto| |]; intros x Hx; [apply H1|apply H2]; right; exact Hx. }
    apply G; [exact E| |]; apply incl_refl.
  Qed.

  (** ** The loop and its monitor *)
  Lemma called_beside : forall {M U} dt (ps : list (process (T:=T) U)) (w : M * U) s w' r,
    called dt (map beside ps) w s w' r -> fst w' = fst w /\ called dt ps (snd w) s (snd w') r.
  Proof.
    intros M U dt ps w s w' r H. remember (map beside ps) as qs eqn:E. revert ps E.
    induction H as [w s|q qs w s w' e Hq|q qs w s w1 d s1 w2 e Hq H IH|q qs w s w1 d s1 w2 ds next Hq H IH]; intros ps E; destruct ps as [|p ps]; try discriminate.
    - split; [reflexivity|constructor].
    - injection E as -> ->. unfold beside in Hq. destruct (p (snd w) s dt) as [u' r] eqn:Ep. injection Hq as <- ->.
      split; [reflexivity|]. apply called_raised. exact Ep.
    - injection E as -> ->. destruct (IH ps eq_refl) as (I1 & I2). unfold beside in Hq. destruct (p (snd w) s dt) as [u' r] eqn:Ep. injection Hq as <- ->.
      split; [exact I1|]. eapply called_later; eauto.
    - injection E as -> ->. destruct (IH ps eq_refl) as (I1 & I2). unfold beside in Hq. destruct (p (snd w) s dt) as [u' r] eqn:Ep. injection Hq as <- ->.
      split; [exact I1|]. eapply called_all; eauto.
  Qed.

  (** Where the monitor is in the objects of a program: [mon] picks its files and cache. *)
  Lemma loop_stores : forall {W} (mon : W -> files T * cache_t T) ord m (pass : W -> state T -> W -> res (state T * list (dict (da T)) * state T) -> Prop) store stop dt w st w' log r,
    (forall w s w1 x, pass w s w1 x -> mon w1 = mon w) ->
    (forall w S, NetCDF.store ord m S (fst (mon w)) (snd (mon w)) = (snd (store w S), fst (mon (fst (store w S))), snd (mon (fst (store w S))))) ->
    loop (T:=T) pass store stop dt w st w' log r -> (exists t, has_time t st) -> (forall S, In S log -> exists t, has_time t S) ->
    exists os, mon_run ord m (map (@Store T) log) (fst (mon w)) (snd (mon w)) = (os, fst (mon w'), snd (mon w')) /\
      (forall e, r = Some (Err e) -> (exists v s v1, pass v s v1 (Err e)) \/ In (Err e) os).
  Proof.
    intros W mon ord m pass store stop dt w st w' log r Hp Hs H.
    assert (Hno : forall (s : state T) e, no_time s e -> (exists t, has_time t s) -> False).
    { intros s e [[E _]|[(a & E) _]] (t & Ht); unfold has_time in Ht; congruence. }
    induction H as [w st|w st e Hn|w st t Ht Hle|w st t w1 e Ht Hlt Hpass|w st t w1 s ds next S w2 e Ht Hlt Hpass Hc Hst
      |w st t w1 s ds next S w2 x e Ht Hlt Hpass Hc Hst Hn|w st t w1 s ds next S w2 x t1 s' w3 log r Ht Hlt Hpass Hc Hst Ht1 Ht2 Hsame H IH]; intros Hst0 Hlog.
    - exists []. split; [reflexivity|discriminate].
    - exfalso. eapply Hno; eauto.
    - exists []. split; [reflexivity|discriminate].
    - exists []. rewrite (Hp _ _ _ _ Hpass). split; [reflexivity|]. intros e' E. injection E as <-. left. eauto.
    - exists [Err e]. split.
      + simpl. rewrite <- (Hp _ _ _ _ Hpass), (Hs w1 S), Hst. reflexivity.
      + intros e' E. injection E as <-. right. left; reflexivity.
    - exfalso. eapply Hno; [exact Hn|]. apply Hlog. left; reflexivity.
    - destruct IH as (os & Hos & Hr).
      + exists (t1 + dt)%Z. exact Ht2.
      + intros S' HS'. apply Hlog. right; exact HS'.
      + exists (Ok x :: os). split.
        * simpl. rewrite <- (Hp _ _ _ _ Hpass), (Hs w1 S), Hst. simpl. rewrite Hos. reflexivity.
        * intros e He. destruct (Hr e He) as [Hq|Hi]; [left; exact Hq|right; right; exact Hi].
  Qed.
End Facts.
