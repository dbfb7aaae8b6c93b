(** C87: the file that a model run leaves. *)
From Coq Require Import String List Bool Arith ZArith QArith Lia Permutation Sorting.
From Verif Require Import Prelude PreludeFacts ArithM NdArray Units DataArrayM StrFun NetCDF SpecNetCDF NetCDFFacts NetCDFMain NetCDFAlias NetCDFSucceeds
  Components Composite Steppers Basic MainLoop SpecMainLoop MainLoopMain LeapLoop LeapLoopMain SpecLoopRun LoopRunMain SpecRunFile RunFileFacts.
Import ListNotations.
Open Scope string_scope.
Open Scope nat_scope.
Open Scope list_scope.

Lemma Forall2_nth_error : forall {B C} (P : B -> C -> Prop) l l', Forall2 P l l' ->
  forall k x, nth_error l k = Some x -> exists y, nth_error l' k = Some y /\ P x y.
Proof.
  intros B C P l l' H. induction H as [|x y l l' Hxy H IH]; intros k z Hk.
  - destruct k; discriminate.
  - destruct k as [|k]; simpl in Hk |- *; [injection Hk as <-; eauto|]. apply IH; exact Hk.
Qed.

Lemma Forall2_same_length : forall {B C} (P : B -> C -> Prop) l l', Forall2 P l l' -> length l = length l'.
Proof. intros B C P l l' H. induction H; simpl; auto. Qed.

Lemma Forall2_singles : forall {B C} (P : B -> C -> Prop) (l : list B) (l' : list (list C)),
  Forall2 (fun x b => exists y, b = [y] /\ P x y) l l' -> Forall2 P l (concat l').
Proof.
  intros B C P l l' H. induction H as [|x b l l' (y & -> & Hp) H IH]; simpl; constructor; auto.
Qed.

Lemma Forall2_map_l : forall {B C D} (f : B -> C) (P : C -> D -> Prop) l l', Forall2 P (map f l) l' -> Forall2 (fun x y => P (f x) y) l l'.
Proof.
  intros B C D f P l. induction l as [|x l IH]; intros l' H; inversion H; subst; constructor; auto.
Qed.

Lemma Forall2_impl_in : forall {B C} (P Q : B -> C -> Prop) l l', (forall x y, In x l -> P x y -> Q x y) -> Forall2 P l l' -> Forall2 Q l l'.
Proof.
  intros B C P Q l l' H F. induction F as [|x y l l' Hp F IH]; constructor.
  - apply H; [left; reflexivity|exact Hp].
  - apply IH. intros; apply H; auto. right; assumption.
Qed.

Lemma Forall2_trans : forall {B C D} (P : B -> C -> Prop) (Q : C -> D -> Prop) l1 l2 l3, Forall2 P l1 l2 -> Forall2 Q l2 l3 ->
  Forall2 (fun x z => exists y, P x y /\ Q y z) l1 l3.
Proof.
  intros B C D P Q l1 l2 l3 H. revert l3. induction H as [|x y l1 l2 Hp H IH]; intros l3 H2; inversion H2; subst; constructor; eauto.
Qed.

Lemma sorted_steps : forall l t0 dt, (0 < dt)%Z -> (forall k x, nth_error l k = Some x -> x = (t0 + Z.of_nat k * dt)%Z) -> StronglySorted Z.lt l.
Proof.
  induction l as [|x l IH]; intros t0 dt Hd H; constructor.
  - apply (IH (t0 + dt)%Z dt Hd). intros k y Hk. specialize (H (S k) y Hk). rewrite H, Nat2Z.inj_succ. lia.
  - apply Forall_forall. intros y Hy. apply In_nth_error in Hy as (k & Hk).
    pose proof (H 0 x eq_refl) as Hx. pose proof (H (S k) y Hk) as Hy. rewrite Nat2Z.inj_succ in Hy. nia.
Qed.

Section Main.
  Context {T : Type} {A : Arith T} {N : NcLib T}.

  Lemma beside_leaves_time : forall {M U} (p : process (T:=T) U), leaves_time p -> leaves_time (beside (S:=M) p).
  Proof.
    intros M U p H w st dt w' d new E. unfold beside in E. destruct (p (snd w) st dt) as [u' r] eqn:Ep.
    injection E as <- ->. eapply H; eauto.
  Qed.

  Lemma conforms_storable : forall ord m L S st, sc_names S <> [] -> grid_state L st -> conforms ord m S st -> storable (T:=T) ord m L st.
  Proof.
    intros ord m L S st Hn Hg (t & cs & Hp & Hf). split; [exact Hg|]. intros t' cs' Hp' ->.
    rewrite Hp in Hp'. injection Hp' as _ ->. apply Hn. destruct Hf as [Hk _]. destruct (sc_names S) as [|x l]; [reflexivity|].
    destruct (proj2 (Hk x)); left; reflexivity.
  Qed.

  Lemma cache_empty : forall c : cache_t T, cache_is [] c -> c = [].
  Proof.
    intros [|[t s] c] (_ & H & _); [reflexivity|]. exfalso. apply (proj1 (H t)). left; reflexivity.
  Qed.

  (** A prepared state, as a record of the file. *)
  Definition recorded ord (m : monitor) (S : state T) (r : Z * dict (pval T)) : Prop :=
    has_time (fst r) S /\ record_of ord m S (snd r).

  Lemma prepared_recorded : forall ord m S p r t, (forall l, Permutation (ord l) l) -> NoDup (keys S) -> has_time t S -> aliased ord m S ->
    (forall la, In la (m_aliases m) -> str_in (fst la) "time" = false) -> prepare ord m S = Ok p ->
    fst r = fst p -> NoDup (keys (snd r)) -> (forall n, dget n (snd r) = dget n (snd p)) -> recorded ord m S r.
  Proof.
    intros ord m S p r t Po Hn Ht [Ha1 Ha2] Hla Hp H1 Hk H2.
    destruct (main_prepare ord m S t Po Hn Ht Ha1 Ha2 Hla) as (cs & Hp' & Hkc & Hv & Hx & _).
    rewrite Hp in Hp'. injection Hp' as ->. split; [rewrite H1; exact Ht|]. split.
    - intros n v Hc Hne Hd. rewrite H2. apply Hv; auto.
    - intros x Hin. apply Hx. simpl in H2. 
      destruct (dget x (snd r)) as [v|] eqn:E.
      + rewrite H2 in E. apply dget_In_keys in E. exact E.
      + exfalso. apply dget_none in E. contradiction.
  Qed.

  Lemma run_file_of : forall ord m L t0 dt old log records fs,
    (forall k S, nth_error log k = Some S -> has_time (t0 + Z.of_nat k * dt) S) ->
    Forall2 (recorded ord m) log records -> file_holds m L (old ++ records) fs -> run_file (A:=A) (N:=N) ord m L t0 dt old log fs.
  Proof.
    intros ord m L t0 dt old log records fs Ht F H. exists records. split; [symmetry; eapply Forall2_same_length; eauto|]. split; [|exact H].
    intros k S Hk. destruct (Forall2_nth_error _ _ _ F k S Hk) as ([t s] & Hs & [Hr1 Hr2]).
    exists s. split; [|exact Hr2]. specialize (Ht k S Hk). unfold has_time in *. simpl in Hr1. rewrite Hs. congruence.
  Qed.

  Lemma file_of_loop : forall {W} (mon : W -> files T * cache_t T) ord m L Sc (pass : W -> state T -> W -> res (state T * list (dict (da T)) * state T) -> Prop) store stop dt w old st t0 w' log r,
    (forall w s w1 x, pass w s w1 x -> mon w1 = mon w) ->
    (forall w S, NetCDF.store ord m S (fst (mon w)) (snd (mon w)) = (snd (store w S), fst (mon (fst (store w S))), snd (mon (fst (store w S))))) ->
    plain_fit N -> clock m -> (forall l, Permutation (ord l) l) -> sc_names Sc <> [] ->
    (forall la, In la (m_aliases m) -> str_in (fst la) "time" = false) ->
    (0 < dt)%Z -> has_time t0 st -> snd (mon w) = [] ->
    file_holds m L old (fst (mon w)) -> file_clock m (fst (mon w)) -> (forall ts, In ts old -> fits Sc (snd ts)) ->
    loop pass store stop dt w st w' log r ->
    (forall k S, nth_error log k = Some S -> has_time (t0 + Z.of_nat k * dt) S) ->
    (forall S, In S log -> grid_state L S /\ conforms ord m Sc S /\ aliased ord m S) ->
    (m_on_store m = true -> snd (mon w') = [] /\ run_file ord m L t0 dt old log (fst (mon w'))) /\
    (m_on_store m = false -> fst (mon w') = fst (mon w) /\
       (log <> [] -> exists fs'', NetCDF.write m (fst (mon w')) (snd (mon w')) = (Ok tt, fs'', []) /\ run_file ord m L t0 dt old log fs'')) /\
    (forall e, r = Some (Err e) -> exists v s v1, pass v s v1 (Err e)).
  Proof.
    intros W mon ord m L Sc pass store stop dt w old st t0 w' log r Hpm Hsm Hpf Hcl Po Hsc Hla Hdt Ht0 Hc0 Hholds Hfc Hold H Hclk Hlog.
    assert (Htime : forall S, In S log -> exists t, has_time t S).
    { intros S HS. apply In_nth_error in HS as (k & Hk). eauto. }
    destruct (loop_stores mon ord m pass store stop dt w st w' log r Hpm Hsm H (ex_intro _ t0 Ht0) Htime) as (os & Hrun & Herr).
    rewrite Hc0 in Hrun. set (fs := fst (mon w)) in *. set (fs' := fst (mon w')) in *. set (c' := snd (mon w')) in *. clearbody fs fs' c'.
    assert (Hst : forall ops, (forall s, In (Store s) ops -> In s log) -> forall s, In (Store s) ops -> grid_state L s /\ conforms ord m Sc s).
    { intros ops Ho s Hs. destruct (Hlog s (Ho s Hs)) as (? & ? & _). auto. }
    assert (Hops : forall s, In (Store s) (map (@Store T) log) -> In s log).
    { intros s Hs. apply in_map_iff in Hs as (s' & E & Hs'). injection E as <-. exact Hs'. }
    assert (Hops2 : forall s, In (Store s) (map (@Store T) log ++ [Write]) -> In s log).
    { intros s Hs. apply in_app_iff in Hs as [Hs|[Hs|[]]]; [apply Hops; exact Hs|discriminate]. }
    assert (Hstor : forall ops, (forall s, In (Store s) ops -> In s log) -> forall s, In (Store s) ops -> storable ord m L s).
    { intros ops Ho s Hs. destruct (Hlog s (Ho s Hs)) as (? & ? & _). eapply conforms_storable; eauto. }
    assert (Hrec : forall S p r, In S log -> prepare ord m S = Ok p -> fst r = fst p -> NoDup (keys (snd r)) ->
      (forall x, dget x (snd r) = dget x (snd p)) -> recorded ord m S r).
    { intros S p rr HS Hp H1 H2 H3. destruct (Hlog S HS) as ([Hk _] & _ & Ha). destruct (Htime S HS) as (t & Ht).
      eapply prepared_recorded; eauto. }
    assert (Hoks : Forall (eq (Ok tt)) os).
    { destruct (m_on_store m) eqn:Em.
      - pose proof (main_monitor_succeeds ord m L Sc (map (@Store T) log) fs old Hpf Hcl Po Hsc (Hst _ Hops) Hholds Hfc Hold) as Hs.
        rewrite Em, batches_on_store, Hrun in Hs. apply Hs. apply Forall_map. apply Forall_forall. intros x _. discriminate.
      - pose proof (main_monitor_succeeds ord m L Sc (map (@Store T) log) fs old Hpf Hcl Po Hsc (Hst _ Hops) Hholds Hfc Hold) as Hs.
        rewrite Em, Hrun in Hs. apply Hs.
        assert (Eb : forall l cur, fst (batches false cur (map (@Store T) l)) = []).
        { induction l as [|s l IH]; intros cur; simpl; [reflexivity|apply IH]. }
        rewrite Eb. constructor. }
    split; [|split].
    - intros Em.
      destruct (main_monitor_history ord m L (map (@Store T) log) fs old os fs' c' Hpf Po (Hstor _ Hops) Hholds Hrun Hoks) as (written & left & Hw & Hf & Hl & Hc).
      rewrite Em, batches_on_store in Hw, Hl. simpl in Hw, Hl, Hf. injection Hl as <-.
      split; [apply cache_empty; exact Hc|]. apply run_file_of with (records := concat written); auto.
      apply Forall2_singles. apply Forall2_map_l in Hw. eapply Forall2_impl_in; [|exact Hw].
      intros S b HS (prepared & Hp & Hb). simpl in Hp. destruct (prepare ord m S) as [p|e] eqn:Ep; [|discriminate].
      simpl in Hp. injection Hp as <-.
      assert (Hsort : StronglySorted Z.lt (map fst [p])) by (repeat constructor).
      pose proof (batch_increasing [p] b Hsort Hb) as F. inversion F as [|x y l l' (F1 & F2 & F3) F4]; subst. inversion F4; subst.
      exists y. split; [reflexivity|]. eapply Hrec; eauto.
    - intros Em. split; [eapply mon_run_files; eauto|]. intros Hne.
      pose proof (mon_run_app ord m (map (@Store T) log) [Write] fs []) as Happ. rewrite Hrun in Happ. simpl in Happ.
      destruct (NetCDF.write m fs' c') as [[o fs''] c''] eqn:Ew.
      pose proof (main_monitor_succeeds ord m L Sc (map (@Store T) log ++ [Write]) fs old Hpf Hcl Po Hsc (Hst _ Hops2) Hholds Hfc Hold) as Hs.
      rewrite Em, batches_later, Happ in Hs. simpl in Hs.
      assert (Hok2 : Forall (eq (Ok tt)) (os ++ [o])).
      { apply Hs. constructor; [exact Hne|constructor]. }
      assert (Eo : o = Ok tt).
      { apply Forall_app in Hok2 as [_ Ho]. inversion Ho; subst. reflexivity. }
      destruct (main_monitor_history ord m L (map (@Store T) log ++ [Write]) fs old (os ++ [o]) fs'' c'' Hpf Po (Hstor _ Hops2) Hholds Happ Hok2) as (written & left & Hw & Hf & Hl & Hc).
      rewrite Em, batches_later in Hw, Hl. simpl in Hw, Hl, Hf. injection Hl as <-.
      apply cache_empty in Hc as ->. exists fs''. split; [rewrite Eo; reflexivity|].
      inversion Hw as [|x b l l' (prepared & Hp & Hb) Hw']; subst. inversion Hw'; subst. simpl in Hf. rewrite app_nil_r in Hf.
      apply run_file_of with (records := b); auto.
      apply mapM_Forall2 in Hp.
      assert (Hsort : StronglySorted Z.lt (map fst prepared)).
      { apply (sorted_steps _ t0 dt Hdt). intros k x Hk. rewrite nth_error_map in Hk.
        destruct (nth_error prepared k) as [p|] eqn:Epk; [|discriminate]. simpl in Hk. injection Hk as <-.
        assert (Hlk : k < length log).
        { rewrite (Forall2_same_length _ _ _ Hp). apply nth_error_Some. congruence. }
        destruct (nth_error log k) as [S|] eqn:ESk; [|apply nth_error_None in ESk; lia].
        destruct (Forall2_nth_error _ _ _ Hp k S ESk) as (p' & Ep' & Hpp). assert (p' = p) by congruence. subst p'.
        pose proof (Hclk k S ESk) as Hts. pose proof (nth_error_In _ _ ESk) as HS.
        assert (Hr : recorded ord m S p).
        { destruct (Hlog S HS) as ([Hk _] & _ & [Ha1 Ha2]).
          destruct (main_prepare ord m S _ Po Hk Hts Ha1 Ha2 Hla) as (cs & Hpc & Hkc & _).
          rewrite Hpp in Hpc. injection Hpc as ->. eapply (Hrec S _ _ HS Hpp); auto. }
        destruct Hr as [Hr _]. unfold has_time in *. congruence. }
      pose proof (batch_increasing prepared b Hsort Hb) as F.
      pose proof (Forall2_trans _ _ _ _ _ Hp F) as G. eapply Forall2_impl_in; [|exact G].
      intros S rr HS (p & Hpp & F1 & F2 & F3). eapply Hrec; eauto.
    - intros e He. destruct (Herr e He) as [Hp|Hi]; [exact Hp|]. rewrite Forall_forall in Hoks. specialize (Hoks _ Hi). discriminate.
  Qed.

  (** The loop of quickstart.rst. *)
  Lemma main_run_file : forall {U} ord m L Sc n (ps : list (process (T:=T) U)) stop dt fs old u st t0 fs' c' u' log r,
    plain_fit N -> clock m -> (forall l, Permutation (ord l) l) -> sc_names Sc <> [] ->
    (forall la, In la (m_aliases m) -> str_in (fst la) "time" = false) ->
    (0 < dt)%Z -> has_time t0 st -> Forall leaves_time ps ->
    file_holds m L old fs -> file_clock m fs -> (forall ts, In ts old -> fits Sc (snd ts)) ->
    main_loop n (map beside ps) (to_file ord m) stop dt ((fs, []), u) st = ((((fs', c'), u'), log), r) ->
    (forall S, In S log -> grid_state L S /\ conforms ord m Sc S /\ aliased ord m S) ->
    (m_on_store m = true -> c' = [] /\ run_file ord m L t0 dt old log fs') /\
    (m_on_store m = false -> fs' = fs /\
       (log <> [] -> exists fs'', NetCDF.write m fs' c' = (Ok tt, fs'', []) /\ run_file ord m L t0 dt old log fs'')) /\
    (forall e, r = Some (Err e) -> exists v s v1, called dt ps v s v1 (Err e)).
  Proof.
    intros U ord m L Sc n ps stop dt fs old u st t0 fs' c' u' log r Hpf Hcl Po Hsc Hla Hdt Ht0 Hlt Hholds Hfc Hold H Hlog.
    assert (Hb : Forall leaves_time (map (beside (S:=files T * cache_t T)) ps)).
    { apply Forall_map. eapply Forall_impl; [|exact Hlt]. intros p Hp. apply beside_leaves_time; exact Hp. }
    destruct (main_clock (R:=Build_Registry (fun _ => None)) n _ _ stop dt _ st _ log r t0 Ht0 Hb H) as (Hclk & _).
    apply (main_run (R:=Build_Registry (fun _ => None))) in H.
    destruct (file_of_loop fst ord m L Sc (plain_pass (map beside ps) dt) (to_file ord m) stop dt (fs, [], u) old st t0 (fs', c', u') log r) as (G1 & G2 & G3); auto.
    - intros w s w1 x [(e & Hc & _)|(ds & next & Hc & _)]; apply called_beside in Hc as [Hc _]; exact Hc.
    - intros w S. unfold to_file. destruct (NetCDF.store ord m S (fst (fst w)) (snd (fst w))) as [[o f] c]. reflexivity.
    - intros k S Hk. apply Hclk; exact Hk.
    - split; [exact G1|]. split; [exact G2|]. intros e He. destruct (G3 e He) as (v & s & v1 & [(e' & Hc & E)|(ds & next & _ & E)]); [|discriminate].
      injection E as <-. apply called_beside in Hc as [_ Hc]. eauto.
  Qed.

  (** The same loop with a Leapfrog object. *)
  Lemma main_leap_file : forall {R : Registry} {U V} ord m L Sc n cfg (prog : icaller (T:=T) U) (qs : list (process (T:=T) V)) stop dt s fs old v st t0 s' fs' c' v' log r,
    plain_fit N -> clock m -> (forall l, Permutation (ord l) l) -> sc_names Sc <> [] ->
    (forall la, In la (m_aliases m) -> str_in (fst la) "time" = false) ->
    (0 < dt)%Z -> has_time t0 st -> (forall u st u' t d, prog u st dt = (u', Ok (t, d)) -> ~ In "time" (keys d)) -> Forall leaves_time qs ->
    file_holds m L old fs -> file_clock m fs -> (forall ts, In ts old -> fits Sc (snd ts)) ->
    leap_main_loop n cfg prog (map beside qs) (to_file ord m) stop dt s ((fs, []), v) st = ((s', ((fs', c'), v'), log), r) ->
    (forall S, In S log -> grid_state L S /\ conforms ord m Sc S /\ aliased ord m S) ->
    (m_on_store m = true -> c' = [] /\ run_file ord m L t0 dt old log fs') /\
    (m_on_store m = false -> fs' = fs /\
       (log <> [] -> exists fs'', NetCDF.write m fs' c' = (Ok tt, fs'', []) /\ run_file ord m L t0 dt old log fs'')) /\
    (forall e, r = Some (Err e) -> (exists s1 s2 x x', leapfrog cfg prog s1 x dt = (s2, x', Err e)) \/ (exists v1 x v2, called dt qs v1 x v2 (Err e))).
  Proof.
    intros R U V ord m L Sc n cfg prog qs stop dt s fs old v st t0 s' fs' c' v' log r Hpf Hcl Po Hsc Hla Hdt Ht0 Hprog Hlt Hholds Hfc Hold H Hlog.
    assert (Hb : Forall leaves_time (map (beside (S:=files T * cache_t T)) qs)).
    { apply Forall_map. eapply Forall_impl; [|exact Hlt]. intros p Hp. apply beside_leaves_time; exact Hp. }
    destruct (main_leap_clock n cfg prog _ _ stop dt s _ st _ _ log r t0 Ht0 Hprog Hb H) as (Hclk & _).
    apply main_leap_all in H.
    destruct (file_of_loop (fun w => fst (snd w)) ord m L Sc (leap_pass cfg prog (map beside qs) dt) (beside_store (to_file ord m)) stop dt (s, (fs, [], v)) old st t0 (s', (fs', c', v')) log r) as (G1 & G2 & G3); auto.
    - intros w x w1 y [(s1 & st' & e & _ & -> & _)|[(s1 & st' & d & new & v1 & e & _ & Hc & -> & _)|(s1 & st' & d & new & v1 & ds & next & _ & Hc & -> & _)]];
        simpl; [reflexivity| |]; apply called_beside in Hc as [Hc _]; exact Hc.
    - intros w S. unfold beside_store, to_file. destruct (NetCDF.store ord m S (fst (fst (snd w))) (snd (fst (snd w)))) as [[o f] c]. reflexivity.
    - intros k S Hk. apply Hclk; exact Hk.
    - split; [exact G1|]. split; [exact G2|]. intros e He.
      destruct (G3 e He) as (w & x & w1 & [(s1 & st' & e' & Hlf & _ & E)|[(s1 & st' & d & new & v1 & e' & _ & Hc & _ & E)|(s1 & st' & d & new & v1 & ds & next & _ & _ & _ & E)]]); try discriminate.
      + injection E as <-. left. eauto 6.
      + injection E as <-. right. apply called_beside in Hc as [_ Hc]. eauto.
  Qed.
End Main.
