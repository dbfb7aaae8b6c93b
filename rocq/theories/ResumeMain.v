(** Resuming a run from a stored state: the main loop (C78). *)
From Coq Require Import String List Bool Arith ZArith QArith Lia.
From Verif Require Import Prelude PreludeFacts ArithM NdArray Units DataArrayM GetNp Restore Tracers Components SpecComponents Composite Steppers Basic MainLoop NetCDF
  SpecNetCDF NetCDFRestart CallFacts ComponentsMain CompositeFacts NestedFacts SpecMainLoop SpecResume ResumeFacts.
Import ListNotations.
Open Scope string_scope.
Open Scope nat_scope.
Open Scope list_scope.

Section ResumeMain.
  Context {T : Type} {A : Arith T} {R : Registry}.

  (** ** One run in two *)
  Theorem main_two_runs : forall {W} (ps : list (process (T:=T) W)) store stop stop1 dt m n w st w1 log1 st1, (stop1 <= stop)%Z ->
    main_loop n ps store stop1 dt w st = ((w1, log1), Some (Ok st1)) ->
    main_loop (length log1 + m) ps store stop dt w st =
    let '((w2, log2), r) := main_loop m ps store stop dt w1 st1 in ((w2, log1 ++ log2), r).
  Proof.
    intros W ps store stop stop1 dt m n. induction n as [|n IH]; intros w st w1 log1 st1 Hle H; cbn [main_loop] in H; [discriminate|].
    destruct (state_time st) as [t|e] eqn:Et; [|discriminate]. destruct (t <? stop1)%Z eqn:El.
    - destruct (run_processes ps w st dt) as [wa r] eqn:Er. destruct r as [[ds next]|e]; [|discriminate].
      destruct (store wa (update_all ds st)) as [wb q] eqn:Es. destruct q as [[]|e]; [|discriminate].
      destruct (state_time (update_all ds st)) as [t1|e] eqn:E1; [|discriminate].
      destruct (main_loop n ps store stop1 dt wb (dset "time" (VTime (t1 + dt)) next)) as [[wc log] rc] eqn:Ec. injection H as <- <- ->.
      specialize (IH _ _ _ _ _ Hle Ec). cbn [length Nat.add main_loop]. rewrite Et.
      assert (El' : (t <? stop)%Z = true) by (apply Z.ltb_lt in El; apply Z.ltb_lt; lia). rewrite El', Er, Es, E1. rewrite IH.
      destruct (main_loop m ps store stop dt wc st1) as [[w2 log2] r]. reflexivity.
    - injection H as <- <- <-. cbn [length Nat.add app]. destruct (main_loop m ps store stop dt w st) as [[w2 log2] r]. reflexivity.
  Qed.

  (** ** Another object in the same place *)
  Lemma same_processes : forall {W} (Rel : W -> W -> Prop) dt ps, Forall (interchangeable (T:=T) Rel dt) ps -> forall w w' st st', Rel w w' -> same_state st st' ->
    Rel (fst (run_processes ps w st dt)) (fst (run_processes ps w' st' dt)) /\
    match snd (run_processes ps w st dt), snd (run_processes ps w' st' dt) with
    | Ok (ds, s), Ok (ds', s') => ds = ds' /\ same_state s s'
    | Err _, Err _ => True
    | _, _ => False
    end.
  Proof.
    intros W Rel dt ps Hf. induction Hf as [|p ps Hp Hf IH]; intros w w' st st' Hw Hs; cbn [run_processes fst snd]; auto.
    destruct (Hp w w' st st' Hw Hs) as [H1 H2]. destruct (p w st dt) as [w1 r]. destruct (p w' st' dt) as [w1' r']. cbn [fst snd] in *.
    destruct r as [[d s]|e]; destruct r' as [[d' s']|e']; cbn [same_result fst snd] in *; try contradiction; [|auto]. destruct H2 as [<- H2].
    specialize (IH w1 w1' s s' H1 H2). destruct (run_processes ps w1 s dt) as [w2 q]. destruct (run_processes ps w1' s' dt) as [w2' q']. cbn [fst snd] in *.
    destruct IH as [I1 I2]. split; auto. destruct q as [[ds x]|e]; destruct q' as [[ds' x']|e']; cbn [bind fst snd] in *; try contradiction; auto.
    destruct I2 as [-> I2]. auto.
  Qed.

  Lemma same_update : forall ds (st st' : state T), same_state st st' -> same_state (update_all ds st) (update_all ds st').
  Proof.
    intros ds. unfold update_all. induction ds as [|d ds IH]; intros st st' H; cbn [fold_left]; auto. apply IH. unfold dupdate. revert st st' H.
    induction (as_state d) as [|[k v] l IHl]; intros st st' H; cbn [fold_left]; auto. apply IHl. apply same_dset; auto.
  Qed.

  Lemma same_time : forall st st' : state T, same_state st st' -> state_time st = state_time st'.
  Proof. intros st st' (_ & _ & H). unfold state_time, dgetE. rewrite H. auto. Qed.

  Theorem main_same_run : forall {W} (Rel : W -> W -> Prop) ps store stop dt, Forall (interchangeable (T:=T) Rel dt) ps -> store_interchangeable Rel store ->
    forall n w w' st st', Rel w w' -> same_state st st' ->
    let run := main_loop n ps store stop dt w st in let run' := main_loop n ps store stop dt w' st' in
    Rel (fst (fst run)) (fst (fst run')) /\ Forall2 same_state (snd (fst run)) (snd (fst run')) /\ same_outcome (snd run) (snd run').
  Proof.
    intros W Rel ps store stop dt Hp Hst n. induction n as [|n IH]; intros w w' st st' Hw Hs; cbn [main_loop].
    - split; [|split]; cbn; auto.
    - rewrite <- (same_time _ _ Hs). destruct (state_time st) as [t|e]; [|split; [|split]; cbn; auto].
      destruct (t <? stop)%Z; [|split; [|split]; cbn; auto].
      destruct (same_processes Rel dt ps Hp w w' st st' Hw Hs) as [H1 H2]. destruct (run_processes ps w st dt) as [wa r]. destruct (run_processes ps w' st' dt) as [wa' r'].
      cbn [fst snd] in *. destruct r as [[ds next]|e]; destruct r' as [[ds' next']|e']; try contradiction; [|split; [|split]; cbn; auto].
      destruct H2 as [<- H2]. pose proof (same_update ds _ _ Hs) as Hu. destruct (Hst wa wa' _ _ H1 Hu) as [H3 H4].
      destruct (store wa (update_all ds st)) as [wb q]. destruct (store wa' (update_all ds st')) as [wb' q']. cbn [fst snd] in *.
      destruct q as [[]|e]; destruct q' as [[]|e']; try contradiction; [|split; [|split]; cbn; auto].
      rewrite <- (same_time _ _ Hu). destruct (state_time (update_all ds st)) as [t1|e]; [|split; [|split]; cbn; auto].
      pose proof (IH wb wb' _ _ H3 (same_dset "time" (VTime (t1 + dt)) _ _ H2)) as K. cbn zeta in K.
      destruct (main_loop n ps store stop dt wb (dset "time" (VTime (t1 + dt)) next)) as [[wc log] rc].
      destruct (main_loop n ps store stop dt wb' (dset "time" (VTime (t1 + dt)) next')) as [[wc' log'] rc']. cbn [fst snd] in *.
      destruct K as (K1 & K2 & K3). split; auto.
  Qed.

  (** ** Stored, loaded, continued *)
  Theorem main_resume : forall {N : NcLib T} {W} (Rel : W -> W -> Prop) (ps : list (process (T:=T) W)) store stop stop1 dt n w st w1 log1 st1 w2 L f fs fs',
    Forall (interchangeable Rel dt) ps -> store_interchangeable Rel store -> (stop1 <= stop)%Z ->
    main_loop n ps store stop1 dt w st = ((w1, log1), Some (Ok st1)) ->
    plain_fit N -> grid_state L st1 -> (exists n, n <> "time" /\ In n (keys st1)) ->
    (forall n a n' a', dget n st1 = Some (VDA a) -> dget n' st1 = Some (VDA a') -> ~ In n (dims a')) ->
    (forall n a, dget n st1 = Some (VDA a) -> xr_decode (attrs a) (arr a) = Ok (attrs a, arr a)) ->
    (forall t z, dget "time" st1 = Some (VTime t) -> date_code "seconds" t t = Ok z -> date_decode "seconds" t z = Ok t) ->
    restart_store f false st1 fs = (Ok tt, fs') -> Rel w1 w2 ->
    exists st2, NetCDF.load f fs' = Ok st2 /\ same_state st1 st2 /\ forall m,
      let whole := main_loop (length log1 + m) ps store stop dt w st in
      let resumed := main_loop m ps store stop dt w2 st2 in
      exists log2, snd (fst whole) = log1 ++ log2 /\ Forall2 same_state log2 (snd (fst resumed)) /\
        Rel (fst (fst whole)) (fst (fst resumed)) /\ same_outcome (snd whole) (snd resumed).
  Proof.
    intros N W Rel ps store stop stop1 dt n w st w1 log1 st1 w2 L f fs fs' Hp Hst Hle H P G Hn Hnm Hx Hd Hr Hw.
    destruct (main_restart_round_trip L f st1 fs fs' P G Hn Hnm Hx Hd Hr) as (st2 & Hl & Nd & Hg). exists st2. split; auto.
    assert (Hs : same_state st1 st2) by (split; [apply G|split; auto]). split; auto. intros m. cbn zeta.
    rewrite (main_two_runs ps store stop stop1 dt m n w st w1 log1 st1 Hle H).
    destruct (main_same_run Rel ps store stop dt Hp Hst m w1 w2 st1 st2 Hw Hs) as (K1 & K2 & K3).
    destruct (main_loop m ps store stop dt w1 st1) as [[wa la] ra]. cbn [fst snd] in *. exists la. auto.
  Qed.

  (** ** Objects that keep nothing *)
  Lemma same_agree : forall names (st st' : state T), same_state st st' -> agree_on names st st'.
  Proof. intros names st st' (_ & _ & H) X _. auto. Qed.

  Lemma unpack_dict : forall g pk mult raw (st : state T) tr raw', unpack_tracers g pk mult raw st = Ok (tr, raw') -> NoDup (keys tr).
  Proof.
    intros g [p|] mult raw st tr raw' H; cbn [unpack_tracers] in H; [|injection H as <- <-; constructor].
    apply bind_ok in H as (t & _ & H). apply bind_ok in H as (out & Ho & H). injection H as <- <-. unfold unpack in Ho.
    apply bind_ok in Ho as (raw2 & _ & Ho). eapply restore_NoDup; eauto.
  Qed.

  Lemma tendency_reads : forall {U} g c (ac : U -> dict (rval T) -> U * res (dict (nd T) * dict (nd T))),
    (forall u (st st' : state T), same_state st st' -> tendency_call g c ac u st = tendency_call g c ac u st') /\
    forall u (st : state T) u' t d, tendency_call g c ac u st = (u', Ok (t, d)) -> NoDup (keys t).
  Proof.
    intros U g c ac. split.
    - intros u st st' H. apply (proj1 calls_ext); apply same_agree; auto.
    - intros u st u' t d H. unfold tendency_call in H. destruct (let* _ := raise_if (negb (t_init c)) ERuntime in raw_state g (t_inp c) (t_packer c) st) as [raw|e]; [|discriminate].
      destruct (ac u raw) as [u1 r]. injection H as _ H. apply bind_ok in H as (out & _ & H). unfold tendency_finish in H.
      apply bind_ok in H as ((tr & rt) & Htr & H). apply bind_ok in H as (? & _ & H). apply bind_ok in H as (? & _ & H). apply bind_ok in H as (tend & _ & H).
      apply bind_ok in H as (? & _ & H). injection H as <- _. apply nodup_dupdate. eapply unpack_dict; eauto.
  Qed.

  Theorem main_composite_reads : forall {U} (cs : list (icaller (T:=T) U + caller (T:=T) U)),
    (forall c, In (inl c) cs -> forall u st st' dt, same_state st st' -> c u st dt = c u st' dt) ->
    (forall c, In (inr c) cs -> forall u st st', same_state st st' -> c u st = c u st') ->
    reads_by_name (fun u s dt => implicit_composite_call cs dt u s).
  Proof.
    intros U cs H1 H2. unfold implicit_composite_call, tendency_composite_call. split.
    - intros u st st' dt Hs. generalize (@nil (string * da T)) at 1 3. generalize (@nil (string * da T)). revert u.
      induction cs as [|c cs IH]; intros u diag tend; cbn [map composite_loop]; auto.
      destruct c as [f|f]; [rewrite (H1 f (or_introl eq_refl) u st st' dt Hs); destruct (f u st' dt) as [u' r]|rewrite (H2 f (or_introl eq_refl) u st st' Hs); destruct (f u st') as [u' r]];
        (destruct r as [td|e]; cbn [bind]; auto; destruct (update_dict_by_adding_another tend (fst td)) as [tend'|e]; cbn [bind]; auto; apply IH;
         [intros g Hg; apply H1; right; auto|intros g Hg; apply H2; right; auto]).
    - intros u st dt u' t d. generalize (NoDup_nil string). change (@nil string) with (keys (@nil (string * da T))) at 1.
      generalize (@nil (string * da T)) at 1 2. generalize (@nil (string * da T)). revert u. clear H1 H2.
      induction cs as [|c cs IH]; intros u diag tend Hn H; cbn [map composite_loop] in H; [congruence|].
      match type of H with context [let (_, _) := ?x in _] => destruct x as [u1 r] end. destruct r as [td|e]; cbn [bind] in H; [|discriminate].
      destruct (update_dict_by_adding_another tend (fst td)) as [tend'|e] eqn:Eu; cbn [bind] in H; [|discriminate].
      eapply IH; [|exact H]. eapply update_order; eauto.
  Qed.

  Theorem main_components_read : forall {U} (cs : list (icaller (T:=T) U + caller (T:=T) U)),
    (forall f, In (inl f) cs -> exists g c (ac : Z -> U -> dict (rval T) -> U * res (dict (nd T) * dict (nd T))), f = fun u st dt => tendency_call g c (ac dt) u st) ->
    (forall f, In (inr f) cs -> exists g c (ac : U -> dict (rval T) -> U * res (dict (nd T) * dict (nd T))), f = tendency_call g c ac) ->
    reads_by_name (fun u s dt => implicit_composite_call cs dt u s).
  Proof.
    intros U cs H1 H2. apply main_composite_reads.
    - intros f Hf u st st' dt Hs. destruct (H1 f Hf) as (g & c & ac & ->). apply tendency_reads; auto.
    - intros f Hf u st st' Hs. destruct (H2 f Hf) as (g & c & ac & ->). apply tendency_reads; auto.
  Qed.

  Theorem main_stepper_keeps_nothing : forall {U} g c (ac : U -> dict (rval T) -> Z -> U * res (dict (nd T) * dict (nd T))) dt,
    interchangeable eq dt (stepper_process g c ac).
  Proof.
    intros U g c ac dt u u' st st' <- Hs. unfold stepper_process.
    rewrite <- (proj2 (proj2 calls_ext) U g c ac u st st' dt) by (apply same_agree; auto).
    destruct (stepper_call g c ac u st dt) as [u1 r] eqn:E. cbn [fst snd]. split; auto. destruct r as [[d new]|e]; cbn [bind same_result fst snd]; auto.
    split; auto. apply same_refl. unfold as_state, keys. rewrite map_map. cbn [fst]. change (NoDup (keys new)).
    unfold stepper_call in E. destruct (let* _ := raise_if (negb (s_init c)) ERuntime in raw_state g (s_inp c) (s_packer c) st) as [raw|e]; [|discriminate].
    destruct (ac u raw dt) as [u2 r]. injection E as _ H. apply bind_ok in H as (out & _ & H). unfold stepper_finish in H. destruct out as [rd rn].
    apply bind_ok in H as ((tr & rt) & Htr & H). apply bind_ok in H as (? & _ & H). apply bind_ok in H as (? & _ & H). apply bind_ok in H as (? & _ & H).
    apply bind_ok in H as (? & _ & H). apply bind_ok in H as (? & _ & H). injection H as _ <-. apply nodup_dupdate. eapply unpack_dict; eauto.
  Qed.

  Theorem main_beside : forall {S U} (Q : S -> S -> Prop) (p : process (T:=T) U) dt, interchangeable eq dt p ->
    interchangeable (fun w w' : S * U => snd w = snd w' /\ Q (fst w) (fst w')) dt (beside p).
  Proof.
    intros S U Q p dt Hp [s u] [s' u'] st st' [Hu Hq] Hs. cbn [fst snd] in *. unfold beside. cbn [fst snd].
    destruct (Hp u u' st st' Hu Hs) as [H1 H2]. destruct (p u st dt) as [u1 r]. destruct (p u' st' dt) as [u1' r']. cbn [fst snd] in *. auto.
  Qed.
End ResumeMain.
