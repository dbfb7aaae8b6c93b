(** The main loop: main results (C75, C76). *)
From Coq Require Import String List Bool Arith ZArith QArith Lia.
From Verif Require Import Prelude PreludeFacts ArithM NdArray Units DataArrayM Wildcard GetNp Restore Tracers
  Components SpecCalls ComponentFacts Composite Steppers Basic MainLoop SpecMainLoop MainLoopFacts.
Import ListNotations.
Open Scope string_scope.
Open Scope nat_scope.
Open Scope list_scope.

Section Main.
  Context {T : Type} {A : Arith T} {R : Registry}.

  (** ** What a Stepper returns *)

  Lemma main_new_state : forall {U} g c (ac : U -> dict (rval T) -> Z -> U * res (dict (nd T) * dict (nd T))) u (st : state T) dt u' d n,
    stepper_call g c ac u st dt = (u', Ok (d, n)) ->
    (forall X, In X (keys n) <-> In X (keys (s_out c)) \/ In X (read_tracers g (s_packer c))) /\
    (forall X, In X (keys d) <-> In X (keys (s_diag c))).
  Proof.
    intros U g c ac u st dt u' d n H. unfold stepper_call in H.
    destruct (let* _ := raise_if (negb (s_init c)) ERuntime in raw_state g (s_inp c) (s_packer c) st) as [raw|e]; [|discriminate H].
    destruct (ac u raw dt) as [u1 r] eqn:E. injection H as -> H. apply bind_ok in H as ([rd rn] & -> & H).
    unfold stepper_finish in H. apply bind_ok in H as ((tr & rn') & Hu & H).
    apply bind_ok in H as (x1 & _ & H). apply bind_ok in H as (x2 & _ & H). apply bind_ok in H as (rd' & _ & H).
    apply bind_ok in H as (dg & Hd & H). apply bind_ok in H as (nw & Hn & H). injection H as <- <-.
    split.
    - intros X. rewrite In_keys_dupdate, (restore_keys _ _ _ _ _ Hn), (unpack_keys _ _ _ _ _ _ _ Hu). tauto.
    - apply (restore_keys _ _ _ _ _ Hd).
  Qed.

  Lemma raw_state_needs : forall g inp pk (st : state T) X, ~ In X (keys st) -> X = "time" \/ In X (keys inp) ->
    exists e, raw_state g inp pk st = Err e.
  Proof.
    intros g inp pk st X Hn [->|Hi].
    - unfold raw_state. destruct (check_inputs inp st) as [x|e]; cbn [bind]; [|eauto].
      destruct (get_numpy_arrays_with_properties st inp) as [raw|e]; cbn [bind]; [|eauto].
      destruct (match pk with None => _ | Some p => _ end) as [raw'|e]; cbn [bind]; [|eauto].
      unfold dgetE. destruct (dget "time" st) eqn:E; cbn [bind]; [|eauto].
      exfalso. apply Hn. eapply dget_In_keys; eauto.
    - unfold raw_state. assert (K : exists e, check_inputs inp st = Err e).
      { unfold check_inputs. clear pk. induction inp as [|[k p] inp IH]; cbn [keys map In] in Hi; [tauto|].
        cbn [foldM fst]. destruct (dmem k st) eqn:Em; cbn [bind]; [|eauto]. destruct Hi as [<-|Hi]; [|apply IH; auto].
        exfalso. unfold dmem in Em. destruct (dget k st) eqn:E; [|discriminate]. apply Hn. eapply dget_In_keys; eauto. }
      destruct K as (e & ->). cbn [bind]. eauto.
  Qed.

  Lemma main_needs_stepper : forall {U} g c (ac : U -> dict (rval T) -> Z -> U * res (dict (nd T) * dict (nd T))) X,
    X = "time" \/ In X (keys (s_inp c)) -> needs X (stepper_process g c ac).
  Proof.
    intros U g c ac X HX u st dt Hn. unfold stepper_process, stepper_call.
    destruct (raw_state_needs g (s_inp c) (s_packer c) st X Hn HX) as (e & He).
    destruct (raise_if (negb (s_init c)) ERuntime); cbn [bind]; [rewrite He|]; cbn [bind]; eauto.
  Qed.

  Lemma main_time_lost : forall {U} g c (ac : U -> dict (rval T) -> Z -> U * res (dict (nd T) * dict (nd T))) u (st : state T) dt u' d n,
    stepper_call g c ac u st dt = (u', Ok (d, n)) ->
    ~ In "time" (keys (s_out c)) -> ~ In "time" (read_tracers g (s_packer c)) ->
    (forall {U2} h c2 (ac2 : U2 -> dict (rval T) -> Z -> U2 * res (dict (nd T) * dict (nd T))) u2 dt2,
       exists e, stepper_call h c2 ac2 u2 (as_state n) dt2 = (u2, Err e)) /\
    (forall {U2} h c2 (ac2 : U2 -> dict (rval T) -> U2 * res (dict (nd T) * dict (nd T))) u2,
       exists e, tendency_call h c2 ac2 u2 (as_state n) = (u2, Err e)) /\
    (forall {U2} c2 (ac2 : U2 -> dict (rval T) -> U2 * res (dict (nd T))) u2,
       exists e, diagnostic_call c2 ac2 u2 (as_state n) = (u2, Err e)).
  Proof.
    intros U g c ac u st dt u' d n H N1 N2. destruct (main_new_state _ _ _ _ _ _ _ _ _ H) as [K _].
    assert (Hn : ~ In "time" (keys (as_state n))) by (rewrite keys_as_state, K; tauto).
    repeat split; intros U2.
    - intros h c2 ac2 u2 dt2. unfold stepper_call.
      destruct (raw_state_needs h (s_inp c2) (s_packer c2) _ _ Hn (or_introl eq_refl)) as (e & He).
      destruct (raise_if (negb (s_init c2)) ERuntime); cbn [bind]; [rewrite He|]; eauto.
    - intros h c2 ac2 u2. unfold tendency_call.
      destruct (raw_state_needs h (t_inp c2) (t_packer c2) _ _ Hn (or_introl eq_refl)) as (e & He).
      destruct (raise_if (negb (t_init c2)) ERuntime); cbn [bind]; [rewrite He|]; eauto.
    - intros c2 ac2 u2. unfold diagnostic_call.
      destruct (raw_state_needs empty_treg (d_inp c2) None _ _ Hn (or_introl eq_refl)) as (e & He).
      destruct (raise_if (negb (d_init c2)) ERuntime); cbn [bind]; [rewrite He|]; eauto.
  Qed.

  (** ** What a TendencyStepper returns *)

  Lemma copy_untouched_keys : forall (old new : state T) X, In X (keys (copy_untouched old new)) <-> In X (keys old) \/ In X (keys new).
  Proof.
    unfold copy_untouched. induction old as [|[k v] old IH]; intros new X; cbn [fold_left fst snd]; [cbn; tauto|].
    rewrite IH. destruct (dmem k new) eqn:Em.
    - cbn [keys map In fst]. split; [tauto|]. intros [[<-|]|]; auto. right.
      unfold dmem in Em. destruct (dget k new) eqn:E; [|discriminate]. eapply dget_In_keys; eauto.
    - rewrite In_keys_dset. cbn [keys map In fst]. intuition.
  Qed.

  Lemma finish_keys : forall cfg dt (st : state T) r d new, finish_step cfg dt st r = Ok (d, new) -> forall X, In X (keys st) -> In X (keys new).
  Proof.
    intros cfg dt st r d new H X HX. unfold finish_step in H. apply bind_ok in H as (dn & _ & H).
    apply bind_ok in H as (dg & _ & H). injection H as _ <-. apply copy_untouched_keys. auto.
  Qed.

  Lemma main_keeps_ab : forall {U} cfg (prog : icaller (T:=T) U), keeps_quantities (adams_bashforth cfg prog).
  Proof.
    intros U cfg prog s st dt w' d new H. unfold adams_bashforth in H. destruct (ab_call prog s st dt) as [s' r].
    injection H as _ H. apply (finish_keys _ _ _ _ _ _ H).
  Qed.

  Lemma main_keeps_rk : forall {U} cfg (prog : icaller (T:=T) U), keeps_quantities (ssp_rk cfg prog).
  Proof.
    intros U cfg prog s st dt w' d new H. unfold ssp_rk in H.
    match type of H with context [finish_step] => idtac end.
    repeat match type of H with
    | (let (_, _) := ?X in _) = _ => destruct X
    end.
    injection H as _ H. apply (finish_keys _ _ _ _ _ _ H).
  Qed.

  Lemma leap_loop_keys : forall sec nu alpha (old : state T) tend ks st new st' r,
    leap_loop sec nu alpha old tend ks st new = (st', r) -> forall X, In X (keys st) -> In X (keys st').
  Proof.
    intros sec nu alpha old tend ks. induction ks as [|k ks IH]; cbn [leap_loop]; intros st new st' r H X HX; [injection H as <- _; auto|].
    match type of H with match ?M with _ => _ end = _ => destruct M as [[[n infl] x']|e] end; [|injection H as <- _; auto].
    match type of H with match ?M with _ => _ end = _ => destruct M as [n'|e] end.
    - apply (IH _ _ _ _ H). apply In_keys_dset. auto.
    - injection H as <- _. apply In_keys_dset. auto.
  Qed.

  Lemma main_keeps_leapfrog : forall {U} cfg (prog : icaller (T:=T) U) s st dt st' s' d new,
    leapfrog cfg prog s st dt = (s', st', Ok (d, new)) -> forall X, In X (keys st) -> In X (keys st') /\ In X (keys new).
  Proof.
    intros U cfg prog s st dt st' s' d new H X HX. unfold leapfrog in H.
    destruct (leap_call prog s st dt) as [[s1 st1] r] eqn:E. injection H as -> -> H.
    assert (K : In X (keys st')); [|split; auto; apply (finish_keys _ _ _ _ _ _ H); auto].
    destruct s as [l u]. unfold leap_call in E. destruct (ensure_timestep (lf_dt l) dt); [|injection E as _ <- _; auto].
    destruct (prog u st dt) as [u' r']. match type of E with match ?M with _ => _ end = _ => destruct M as [[td dg]|e] end; [|injection E as _ <- _; auto].
    match type of E with (let (_, _) := ?M in _) = _ => destruct M as [st2 rn] eqn:El end.
    assert (st2 = st') as -> by (destruct rn; injection E; auto).
    destruct (lf_old l); [|injection El as <- _; auto]. apply (leap_loop_keys _ _ _ _ _ _ _ _ _ _ El); auto.
  Qed.

  Lemma keeps_beside : forall {S U} (p : process (T:=T) U), keeps_quantities p -> keeps_quantities (beside (S:=S) p).
  Proof.
    intros S U p Hp w st dt w' d new H. unfold beside in H. destruct (p (snd w) st dt) as [u' r] eqn:E.
    injection H as _ ->. apply (Hp _ _ _ _ _ _ E).
  Qed.

  Lemma needs_beside : forall {S U} X (p : process (T:=T) U), needs X p -> needs X (beside (S:=S) p).
  Proof.
    intros S U X p Hp w st dt Hn. unfold beside. destruct (Hp (snd w) st dt Hn) as (w' & e & ->). eauto.
  Qed.

  (** ** What a TendencyStepper needs *)

  Lemma main_needs_ab : forall {U} cfg (prog : icaller (T:=T) U) X,
    (forall u st dt, ~ In X (keys st) -> exists u' e, prog u st dt = (u', Err e)) -> needs X (adams_bashforth cfg prog).
  Proof.
    intros U cfg prog X Hp [a u] st dt Hn. unfold adams_bashforth, ab_call.
    destruct (ensure_timestep (ab_dt a) dt) as [x|e]; [|cbn; eauto].
    destruct (Hp u st dt Hn) as (u' & e & ->). cbn [bind finish_step]. eauto.
  Qed.

  Lemma main_needs_composite : forall {U} (cs : list (icaller (T:=T) U + caller (T:=T) U)) c X,
    In c cs ->
    (forall u st dt, ~ In X (keys st) -> exists u' e, match c with inl f => f u st dt | inr f => f u st end = (u', Err e)) ->
    forall u st dt, ~ In X (keys st) -> exists u' e, implicit_composite_call cs dt u st = (u', Err e).
  Proof.
    intros U cs c X Hin Hc u st dt Hn. unfold implicit_composite_call, tendency_composite_call.
    generalize (@nil (string * da T)) at 1. generalize (@nil (string * da T)). revert u.
    induction cs as [|c0 cs IH]; [destruct Hin|]. intros u d0 t0. cbn [map composite_loop].
    destruct Hin as [->|Hin].
    - specialize (Hc u st dt Hn). destruct c as [f|f]; destruct Hc as (u' & e & ->); cbn [bind]; eauto.
    - destruct (match c0 with inl f => _ | inr f => _ end u st) as [u' r].
      destruct (let* td := r in _) as [[t' d']|e]; [|eauto]. apply IH; auto.
  Qed.

  Lemma main_needs_tendency : forall {U} g c (ac : U -> dict (rval T) -> U * res (dict (nd T) * dict (nd T))) X,
    X = "time" \/ In X (keys (t_inp c)) ->
    forall u st, ~ In X (keys st) -> exists e, tendency_call g c ac u st = (u, Err e).
  Proof.
    intros U g c ac X HX u st Hn. unfold tendency_call.
    destruct (raw_state_needs g (t_inp c) (t_packer c) _ _ Hn HX) as (e & He).
    destruct (raise_if (negb (t_init c)) ERuntime); cbn [bind]; [rewrite He|]; eauto.
  Qed.

  (** ** The loop *)

  Lemma dget_as_state : forall (d : dict (da T)) X, dget X (as_state d) = option_map VDA (dget X d).
  Proof.
    unfold as_state. induction d as [|[k a] d IH]; intros X; [reflexivity|]. cbn [map dget fst snd].
    destruct (String.eqb X k); auto.
  Qed.

  Lemma dget_update_other : forall (d : dict (da T)) (s : state T) X, ~ In X (keys d) -> dget X (dupdate s (as_state d)) = dget X s.
  Proof.
    unfold dupdate, as_state. induction d as [|[k a] d IH]; intros s X Hn; [reflexivity|]. cbn [map fold_left fst snd].
    cbn [keys map In fst] in Hn. rewrite IH; [|tauto]. apply dget_dset_neq. intros ->. tauto.
  Qed.

  Lemma dget_update_in : forall (d : dict (da T)) (s : state T) X a, NoDup (keys d) -> dget X d = Some a ->
    dget X (dupdate s (as_state d)) = Some (VDA a).
  Proof.
    induction d as [|[k b] d IH]; intros s X a Hn H; [discriminate H|].
    change (dupdate s (as_state ((k, b) :: d))) with (dupdate (dset k (VDA b) s) (as_state d)).
    inversion Hn as [|? ? H1 H2]; subst. cbn [dget fst snd] in H. destruct (String.eqb_spec X k) as [->|Hne].
    - injection H as ->. rewrite dget_update_other; auto. apply dget_dset_eq.
    - apply IH; auto.
  Qed.

  Lemma completed_update : forall ds (s : state T), completed s ds (update_all ds s).
  Proof.
    unfold completed, update_all. split; [|split].
    - revert s. induction ds as [|d ds IH]; intros s X; cbn [fold_left]; [firstorder|].
      rewrite IH, In_keys_dupdate, keys_as_state. split.
      + intros [[H|H]|(d' & H1 & H2)]; auto; right; [exists d|exists d']; cbn [In]; auto.
      + intros [H|(d' & [<-|H1] & H2)]; auto. right. eauto.
    - revert s. induction ds as [|d ds IH]; intros s X H; [reflexivity|]. cbn [fold_left].
      rewrite IH; [|intros; apply H; right; auto]. apply dget_update_other. apply H. left. auto.
    - intros X pre d post a -> Ha Hnd Hp. rewrite fold_left_app. cbn [fold_left].
      generalize (fold_left (fun s0 d0 => dupdate s0 (as_state d0)) pre s). intros s1.
      assert (G : forall (s1 : state T), dget X s1 = Some (VDA a) ->
        dget X (fold_left (fun s0 d0 => dupdate s0 (as_state d0)) post s1) = Some (VDA a)).
      { clear Ha Hnd d s1. induction post as [|d post IH]; intros s1 H1; auto. cbn [fold_left]. apply IH; auto.
        - intros d' Hd'. apply Hp. right; auto.
        - rewrite dget_update_other; auto. apply Hp. left. auto. }
      apply G. apply dget_update_in; auto.
  Qed.

  Lemma run_in_turn : forall {W} (ps : list (process (T:=T) W)) w st dt w' ds next,
    run_processes ps w st dt = (w', Ok (ds, next)) -> in_turn dt ps st ds next.
  Proof.
    induction ps as [|p ps IH]; intros w st dt w' ds next H; cbn [run_processes] in H.
    - injection H as _ <- <-. constructor.
    - destruct (p w st dt) as [w1 [[d st1]|e]] eqn:E; [|discriminate H].
      destruct (run_processes ps w1 st1 dt) as [w2 r] eqn:E2. injection H as -> H. apply bind_ok in H as ([ds2 n2] & -> & H).
      injection H as <- <-. econstructor; eauto.
  Qed.

  Lemma in_turn_no_time : forall {W} dt (ps : list (process (T:=T) W)) s ds next, in_turn dt ps s ds next ->
    Forall leaves_time ps -> forall d, In d ds -> ~ In "time" (keys d).
  Proof.
    intros W dt ps s ds next H. induction H as [s|p ps s w w' d s1 ds next Hp Ht IH]; intros Hf d0 Hd; [destruct Hd|].
    inversion Hf as [|? ? H1 H2]; subst. destruct Hd as [<-|Hd]; auto. apply (H1 _ _ _ _ _ _ Hp).
  Qed.

  Lemma in_turn_preserves : forall {W} dt (P : state T -> Prop) (ps : list (process (T:=T) W)) s ds next, in_turn dt ps s ds next ->
    Forall (preserves dt P) ps -> P s -> P next.
  Proof.
    intros W dt P ps s ds next H. induction H as [s|p ps s w w' d s1 ds next Hp Ht IH]; intros Hf Hs; auto.
    inversion Hf as [|? ? H1 H2]; subst. apply IH; auto. apply (H1 _ _ _ _ _ Hs Hp).
  Qed.

  Lemma state_time_iff : forall (st : state T) t, state_time st = Ok t <-> has_time t st.
  Proof.
    intros st t. unfold state_time, has_time, dgetE. destruct (dget "time" st) as [[a|t']|]; cbn [bind]; split; intros H; try discriminate; congruence.
  Qed.

  (** The passes of the loop. *)
  Lemma main_passes : forall {W} n (ps : list (process (T:=T) W)) store stop dt w st w' log r,
    main_loop n ps store stop dt w st = ((w', log), r) ->
    exists starts, length starts = length log /\
      (forall s0, nth_error starts 0 = Some s0 -> s0 = st) /\
      (forall k S, nth_error log k = Some S -> exists s ds next, nth_error starts k = Some s /\
         in_turn dt ps s ds next /\ completed s ds S /\
         forall s', nth_error starts (Datatypes.S k) = Some s' \/ length log = Datatypes.S k /\ r = Some (Ok s') ->
           exists t, has_time t S /\ has_time (t + dt) s' /\ forall X, X <> "time" -> dget X s' = dget X next) /\
      (log = [] -> forall s', r = Some (Ok s') -> s' = st).
  Proof.
    intros W. induction n as [|n IH]; intros ps store stop dt w st w' log r H; cbn [main_loop] in H.
    { injection H as _ <- <-. exists []. repeat split; auto; intros; try (destruct k; discriminate); discriminate. }
    destruct (state_time st) as [t|e]; [|injection H as _ <- <-; exists []; repeat split; auto; intros; try (destruct k; discriminate); discriminate].
    destruct (t <? stop)%Z; [|injection H as _ <- <-; exists []; repeat split; auto; intros; try (destruct k; discriminate); try discriminate; congruence].
    destruct (run_processes ps w st dt) as [w1 [[ds next]|e]] eqn:Er;
      [|injection H as _ <- <-; exists []; repeat split; auto; intros; try (destruct k; discriminate); discriminate].
    apply run_in_turn in Er. pose proof (completed_update ds st) as Hc.
    destruct (store w1 (update_all ds st)) as [w2 [x|e]].
    2:{ injection H as _ <- <-. exists [st]. repeat split; auto; try discriminate.
        - intros s0 E. injection E as <-. auto.
        - intros [|k] S HS; [|destruct k; discriminate]. injection HS as <-. exists st, ds, next. repeat split; auto; try apply Hc.
          intros s' [E|[_ E]]; discriminate. }
    destruct (state_time (update_all ds st)) as [t1|e] eqn:Et.
    2:{ injection H as _ <- <-. exists [st]. repeat split; auto; try discriminate.
        - intros s0 E. injection E as <-. auto.
        - intros [|k] S HS; [|destruct k; discriminate]. injection HS as <-. exists st, ds, next. repeat split; auto; try apply Hc.
          intros s' [E|[_ E]]; discriminate. }
    destruct (main_loop n ps store stop dt w2 (dset "time" (VTime (t1 + dt)) next)) as [[w3 log'] r'] eqn:El.
    injection H as _ <- <-. apply IH in El as (starts & Hl & H0 & Hk & He). exists (st :: starts). cbn [length].
    split; [congruence|]. split; [intros s0 E; injection E as <-; auto|]. split; [|discriminate].
    intros [|k] S HS.
    - injection HS as <-. exists st, ds, next. split; [reflexivity|]. split; [auto|]. split; [auto|].
      intros s' Hs'. assert (s' = dset "time" (VTime (t1 + dt)) next) as ->.
      { destruct Hs' as [E|[E1 E2]]; [apply H0; auto|]. apply He; auto. destruct log'; [auto|discriminate E1]. }
      exists t1. split; [apply state_time_iff; auto|]. split; [apply dget_dset_eq|]. intros X HX. apply dget_dset_neq; auto.
    - destruct (Hk k S HS) as (s & ds' & next' & Hs & Ht & Hcc & Hn). exists s, ds', next'. split; [auto|]. split; [auto|]. split; [auto|].
      intros s' Hs'. apply Hn. destruct Hs' as [E|[E1 E2]]; [left; auto|right; split; auto].
  Qed.

  Lemma main_clock : forall {W} n (ps : list (process (T:=T) W)) store stop dt w st w' log r t0,
    has_time t0 st -> Forall leaves_time ps -> main_loop n ps store stop dt w st = ((w', log), r) ->
    (forall k S, nth_error log k = Some S -> has_time (t0 + Z.of_nat k * dt) S /\ (t0 + Z.of_nat k * dt < stop)%Z) /\
    (forall fin, r = Some (Ok fin) -> has_time (t0 + Z.of_nat (length log) * dt) fin /\ (stop <= t0 + Z.of_nat (length log) * dt)%Z) /\
    (r = None -> length log = n).
  Proof.
    intros W. induction n as [|n IH]; intros ps store stop dt w st w' log r t0 Ht Hl H; cbn [main_loop] in H.
    { injection H as _ <- <-. repeat split; intros; try discriminate; destruct k; discriminate. }
    rewrite (proj2 (state_time_iff st t0) Ht) in H. destruct (t0 <? stop)%Z eqn:E.
    2:{ injection H as _ <- <-. apply Z.ltb_ge in E. split; [intros [|k] S HS; discriminate|]. split; [|discriminate].
        intros fin HF. injection HF as <-. cbn [length]. replace (t0 + Z.of_nat 0 * dt)%Z with t0 by lia. auto. }
    apply Z.ltb_lt in E.
    destruct (run_processes ps w st dt) as [w1 [[ds next]|e]] eqn:Er;
      [|injection H as _ <- <-; split; [intros [|k] S HS; discriminate|split; discriminate]].
    apply run_in_turn in Er. destruct (completed_update ds st) as [_ [Hc _]].
    assert (H1 : has_time t0 (update_all ds st)). { unfold has_time. rewrite Hc; auto. apply (in_turn_no_time _ _ _ _ _ Er Hl). }
    assert (H0 : has_time (t0 + Z.of_nat 0 * dt) (update_all ds st) /\ (t0 + Z.of_nat 0 * dt < stop)%Z).
    { replace (t0 + Z.of_nat 0 * dt)%Z with t0 by lia. auto. }
    destruct (store w1 (update_all ds st)) as [w2 [x|e]].
    2:{ injection H as _ <- <-. split; [|split; discriminate]. intros [|k] S HS; [|destruct k; discriminate]. injection HS as <-. auto. }
    rewrite (proj2 (state_time_iff _ _) H1) in H.
    destruct (main_loop n ps store stop dt w2 (dset "time" (VTime (t0 + dt)) next)) as [[w3 log'] r'] eqn:El.
    injection H as _ <- <-. eapply (IH _ _ _ _ _ _ _ _ _ (t0 + dt)%Z) in El as (K1 & K2 & K3); auto; [|unfold has_time; apply dget_dset_eq].
    split; [|split].
    - intros [|k] S HS; [injection HS as <-; auto|]. apply K1 in HS.
      replace (t0 + Z.of_nat (Datatypes.S k) * dt)%Z with (t0 + dt + Z.of_nat k * dt)%Z by lia. auto.
    - intros fin HF. apply K2 in HF. cbn [length].
      replace (t0 + Z.of_nat (Datatypes.S (length log')) * dt)%Z with (t0 + dt + Z.of_nat (length log') * dt)%Z by lia. auto.
    - intros HN. cbn [length]. f_equal. auto.
  Qed.

  Lemma main_terminates : forall {W} n (ps : list (process (T:=T) W)) store stop dt w st t0,
    has_time t0 st -> Forall leaves_time ps -> (stop <= t0 + Z.of_nat n * dt)%Z ->
    snd (main_loop (Datatypes.S n) ps store stop dt w st) <> None.
  Proof.
    intros W n ps store stop dt w st t0 Ht Hl Hs. destruct (main_loop (Datatypes.S n) ps store stop dt w st) as [[w' log] r] eqn:E.
    cbn [snd]. intros ->. destruct (main_clock _ _ _ _ _ _ _ _ _ _ _ Ht Hl E) as (K1 & _ & K3). specialize (K3 eq_refl).
    destruct (nth_error log n) as [S|] eqn:En.
    - apply K1 in En. lia.
    - apply nth_error_None in En. lia.
  Qed.

  Lemma main_fuel : forall {W} n m (ps : list (process (T:=T) W)) store stop dt w st x r,
    main_loop n ps store stop dt w st = (x, Some r) -> main_loop (n + m) ps store stop dt w st = (x, Some r).
  Proof.
    intros W. induction n as [|n IH]; intros m ps store stop dt w st x r H; cbn [Nat.add main_loop] in *; [discriminate H|].
    destruct (state_time st) as [t|e]; auto. destruct (t <? stop)%Z; auto.
    destruct (run_processes ps w st dt) as [w1 [[ds next]|e]]; auto.
    destruct (store w1 (update_all ds st)) as [w2 [u|e]]; auto.
    destruct (state_time (update_all ds st)) as [t1|e]; auto.
    destruct (main_loop n ps store stop dt w2 (dset "time" (VTime (t1 + dt)) next)) as [[w3 log'] r'] eqn:El.
    injection H as <- ->. rewrite (IH m _ _ _ _ _ _ _ _ El). reflexivity.
  Qed.

  Lemma main_backwards : forall {W} n (ps : list (process (T:=T) W)) store stop dt w st t0 x fin,
    has_time t0 st -> Forall leaves_time ps -> (dt <= 0)%Z -> (t0 < stop)%Z ->
    main_loop n ps store stop dt w st <> (x, Some (Ok fin)).
  Proof.
    intros W n ps store stop dt w st t0 [w' log] fin Ht Hl Hd Hs E.
    destruct (main_clock _ _ _ _ _ _ _ _ _ _ _ Ht Hl E) as (_ & K2 & _). destruct (K2 fin eq_refl) as [_ K]. nia.
  Qed.

  (** Whatever every process preserves holds in every pass. *)
  Lemma main_invariant : forall {W} n (ps : list (process (T:=T) W)) store stop dt w st w' log r (P : state T -> Prop),
    main_loop n ps store stop dt w st = ((w', log), r) ->
    P st -> Forall (preserves dt P) ps -> (forall s t, P s -> P (dset "time" (VTime t) s)) ->
    (forall S, In S log -> exists s ds next, P s /\ P next /\ in_turn dt ps s ds next /\ completed s ds S) /\
    (forall fin, r = Some (Ok fin) -> P fin).
  Proof.
    intros W. induction n as [|n IH]; intros ps store stop dt w st w' log r P H Hp Hf Hd; cbn [main_loop] in H.
    { injection H as _ <- <-. split; [intros S []|discriminate]. }
    destruct (state_time st) as [t|e]; [|injection H as _ <- <-; split; [intros S []|discriminate]].
    destruct (t <? stop)%Z; [|injection H as _ <- <-; split; [intros S []|intros fin E; injection E as <-; auto]].
    destruct (run_processes ps w st dt) as [w1 [[ds next]|e]] eqn:Er; [|injection H as _ <- <-; split; [intros S []|discriminate]].
    apply run_in_turn in Er. pose proof (completed_update ds st) as Hc.
    pose proof (in_turn_preserves _ _ _ _ _ _ Er Hf Hp) as Hn.
    assert (H1 : forall S, In S [update_all ds st] -> exists s ds next, P s /\ P next /\ in_turn dt ps s ds next /\ completed s ds S).
    { intros S [<-|[]]. exists st, ds, next. auto. }
    destruct (store w1 (update_all ds st)) as [w2 [x|e]]; [|injection H as _ <- <-; split; [auto|discriminate]].
    destruct (state_time (update_all ds st)) as [t1|e]; [|injection H as _ <- <-; split; [auto|discriminate]].
    destruct (main_loop n ps store stop dt w2 (dset "time" (VTime (t1 + dt)) next)) as [[w3 log'] r'] eqn:El.
    injection H as _ <- <-. apply (IH _ _ _ _ _ _ _ _ _ P) in El as [K1 K2]; auto. split; auto.
    intros S [<-|HS]; auto. apply H1. left; auto.
  Qed.

  Lemma main_nothing_lost : forall {W} n (ps : list (process (T:=T) W)) store stop dt w st w' log r,
    main_loop n ps store stop dt w st = ((w', log), r) -> Forall keeps_quantities ps ->
    forall X, In X (keys st) -> (forall S, In S log -> In X (keys S)) /\ (forall fin, r = Some (Ok fin) -> In X (keys fin)).
  Proof.
    intros W n ps store stop dt w st w' log r H Hk X HX.
    destruct (main_invariant _ _ _ _ _ _ _ _ _ _ (fun s => In X (keys s)) H HX) as [K1 K2].
    - revert Hk. apply Forall_impl. intros p Hp w0 s w1 d new Hs E. apply (Hp _ _ _ _ _ _ E); auto.
    - intros s t Hs. apply In_keys_dset. auto.
    - split; auto. intros S HS. destruct (K1 S HS) as (s & ds & next & Hs & _ & _ & (C & _)). apply C. auto.
  Qed.

  Lemma in_turn_last : forall {W} dt (pre : list (process (T:=T) W)) p names s ds next, in_turn dt (pre ++ [p]) s ds next ->
    returns_only names p -> forall X, In X (keys next) -> In X names.
  Proof.
    intros W dt pre p names. induction pre as [|p0 pre IH]; intros s ds next H Hr; cbn [app] in H; inversion H; subst.
    - match goal with K : in_turn _ [] _ _ _ |- _ => inversion K; subst end. eapply Hr; eauto.
    - eapply IH; eauto.
  Qed.

  (** After the first pass only what the last process returns is left. *)
  Lemma main_lost : forall {W} n (pre : list (process (T:=T) W)) p names store stop dt w st w' log r,
    main_loop n (pre ++ [p]) store stop dt w st = ((w', log), r) -> returns_only names p ->
    (forall k S, nth_error log (Datatypes.S k) = Some S -> exists s ds next, in_turn dt (pre ++ [p]) s ds next /\ completed s ds S /\
       forall X, In X (keys s) -> X = "time" \/ In X names) /\
    (log <> [] -> forall fin, r = Some (Ok fin) -> forall X, In X (keys fin) -> X = "time" \/ In X names).
  Proof.
    intros W n pre p names store stop dt w st w' log r H Hr.
    destruct (main_passes _ _ _ _ _ _ _ _ _ _ H) as (starts & Hl & _ & Hk & _).
    assert (G : forall k S s', nth_error log k = Some S -> nth_error starts (Datatypes.S k) = Some s' \/ length log = Datatypes.S k /\ r = Some (Ok s') ->
      forall X, In X (keys s') -> X = "time" \/ In X names).
    { intros k S s' HS Hs' X HX. destruct (Hk k S HS) as (s & ds & next & _ & Ht & _ & Hn). destruct (Hn s' Hs') as (t & _ & _ & Hd).
      destruct (String.eqb_spec X "time") as [->|Hne]; auto. right. apply (in_turn_last _ _ _ _ _ _ _ Ht Hr).
      apply In_keys_dget in HX as (v & Hv). rewrite Hd in Hv by auto. eapply dget_In_keys; eauto. }
    split.
    - intros k S HS. destruct (Hk _ S HS) as (s & ds & next & Hs & Ht & Hc & _). exists s, ds, next. repeat split; auto; try apply Hc.
      destruct (nth_error log k) as [S0|] eqn:E; [eapply G; eauto|]. exfalso. apply nth_error_None in E.
      assert (nth_error log (Datatypes.S k) <> None) by congruence. apply nth_error_Some in H0. lia.
    - intros Hne fin HF. destruct (nth_error log (length log - 1)) as [S|] eqn:E.
      + eapply G; eauto. right. split; auto. destruct log; [congruence|]. cbn [length]. lia.
      + exfalso. apply nth_error_None in E. destruct log; [congruence|]. cbn [length] in E. lia.
  Qed.

  Lemma returns_only_stepper : forall {S U} g c (ac : U -> dict (rval T) -> Z -> U * res (dict (nd T) * dict (nd T))),
    returns_only (keys (s_out c) ++ read_tracers g (s_packer c)) (beside (S:=S) (stepper_process g c ac)).
  Proof.
    intros S U g c ac w st dt w' d new H X HX. unfold beside, stepper_process in H.
    destruct (stepper_call g c ac (snd w) st dt) as [u' r] eqn:E. injection H as _ H. apply bind_ok in H as ([d1 n1] & -> & H).
    injection H as _ <-. cbn [snd] in HX. rewrite keys_as_state in HX. apply in_app_iff. apply (main_new_state _ _ _ _ _ _ _ _ _ E). auto.
  Qed.

  Lemma main_stops : forall {W} n p0 (mid : list (process (T:=T) W)) p names X store stop dt w st w' log r t0,
    main_loop n (p0 :: mid ++ [p]) store stop dt w st = ((w', log), r) ->
    has_time t0 st -> Forall leaves_time (p0 :: mid ++ [p]) -> (t0 < stop)%Z -> (t0 + dt < stop)%Z ->
    returns_only names p -> needs X p0 -> X <> "time" -> ~ In X names ->
    length log <= 1 /\ forall fin, r <> Some (Ok fin).
  Proof.
    intros W n p0 mid p names X store stop dt w st w' log r t0 H Ht Hl Hs1 Hs2 Hr Hn HX Hno.
    assert (L : length log <= 1).
    { destruct (le_lt_dec (length log) 1) as [|Hgt]; auto. exfalso.
      change (p0 :: mid ++ [p]) with ((p0 :: mid) ++ [p]) in H. destruct (main_lost _ _ _ _ _ _ _ _ _ _ _ _ H Hr) as [K _].
      destruct (nth_error log 1) as [S|] eqn:E; [|apply nth_error_None in E; lia].
      destruct (K 0 S E) as (s & ds & next & Ht' & _ & Hk). cbn [app] in Ht'. inversion Ht' as [|? ? ? w1 w2 d s1 ? ? Hp]; subst.
      assert (Hns : ~ In X (keys s)) by (intros Hin; apply Hk in Hin as [?|?]; auto).
      destruct (Hn w1 s dt Hns) as (w'' & e & He). congruence. }
    split; auto. intros fin ->.
    destruct (main_clock _ _ _ _ _ _ _ _ _ _ _ Ht Hl H) as (_ & K2 & _). destruct (K2 fin eq_refl) as [_ K].
    destruct (length log) as [|[|]]; lia.
  Qed.

  (** The script of the quickstart: an AdamsBashforth of components, then a Stepper. *)
  Lemma main_quickstart_stops : forall {U} n cfg (cs : list (icaller (T:=T) U + caller (T:=T) U)) g c ac g2 c2 ac2 X store stop dt w st w' log r t0,
    let physics := adams_bashforth cfg (fun u s dt => implicit_composite_call cs dt u s) in
    let dynamics := beside (stepper_process g2 c2 ac2) in
    main_loop n [physics; dynamics] store stop dt w st = ((w', log), r) ->
    has_time t0 st -> leaves_time physics -> leaves_time dynamics -> (t0 < stop)%Z -> (t0 + dt < stop)%Z ->
    In (inr (tendency_call g c ac)) cs -> In X (keys (t_inp c)) ->
    X <> "time" -> ~ In X (keys (s_out c2)) -> ~ In X (read_tracers g2 (s_packer c2)) ->
    length log <= 1 /\ forall fin, r <> Some (Ok fin).
  Proof.
    intros U n cfg cs g c ac g2 c2 ac2 X store stop dt w st w' log r t0 physics dynamics H Ht L1 L2 S1 S2 Hc HX Hne N1 N2.
    apply (main_stops n physics [] dynamics (keys (s_out c2) ++ read_tracers g2 (s_packer c2)) X store stop dt w st w' log r t0); auto.
    - repeat constructor; auto.
    - apply returns_only_stepper.
    - apply main_needs_ab. intros u s dt0 Hn. apply (main_needs_composite cs _ X Hc); auto. cbn.
      intros u0 s0 _ Hn0. destruct (main_needs_tendency g c ac X (or_intror HX) u0 s0 Hn0) as (e & ->). eauto.
    - rewrite in_app_iff. tauto.
  Qed.

  (** With a Stepper that returns every quantity, nothing is lost. *)
  Lemma main_complete : forall {S U} n (pre : list (process (T:=T) (S * U))) g c ac store stop dt w st w' log r,
    main_loop n (pre ++ [beside (stepper_process g c ac)]) store stop dt w st = ((w', log), r) ->
    Forall keeps_quantities pre -> In "time" (keys st) ->
    (forall X, In X (keys st) -> X = "time" \/ In X (keys (s_out c)) \/ In X (read_tracers g (s_packer c))) ->
    forall X, In X (keys st) -> (forall S, In S log -> In X (keys S)) /\ (forall fin, r = Some (Ok fin) -> In X (keys fin)).
  Proof.
    intros S U n pre g c ac store stop dt w st w' log r H Hk Htime Hall X HX.
    destruct (String.eqb_spec X "time") as [->|Hne].
    - destruct (main_passes _ _ _ _ _ _ _ _ _ _ H) as (starts & Hl & H0 & Hp & He). split.
      + intros S0 HS. apply In_nth_error in HS as (k & Hk'). destruct (Hp k S0 Hk') as (s & ds & next & Hs & _ & (C & _) & _).
        apply C. left. destruct k as [|k]; [rewrite (H0 _ Hs); auto|].
        destruct (nth_error log k) as [S1|] eqn:E.
        * destruct (Hp k S1 E) as (s1 & ds1 & next1 & _ & _ & _ & Hn). destruct (Hn s (or_introl Hs)) as (t & _ & Ht & _).
          eapply dget_In_keys; exact Ht.
        * exfalso. apply nth_error_None in E. assert (L : nth_error log (Datatypes.S k) <> None) by congruence. apply nth_error_Some in L. lia.
      + intros fin HF. destruct log as [|S0 log']; [rewrite (He eq_refl _ HF); auto|].
        destruct (nth_error (S0 :: log') (length log')) as [S1|] eqn:E.
        * destruct (Hp _ S1 E) as (s1 & ds1 & next1 & _ & _ & _ & Hn). destruct (Hn fin) as (t & _ & Ht & _); [right; auto|].
          eapply dget_In_keys; exact Ht.
        * exfalso. apply nth_error_None in E. cbn [length] in E. lia.
    - destruct (main_invariant _ _ _ _ _ _ _ _ _ _ (fun s => In X (keys s)) H HX) as [K1 K2].
      + apply Forall_app. split.
        * revert Hk. apply Forall_impl. intros p Hp w0 s w1 d new Hs E. apply (Hp _ _ _ _ _ _ E); auto.
        * constructor; [|constructor]. intros w0 s w1 d new Hs E. unfold beside, stepper_process in E.
          destruct (stepper_call g c ac (snd w0) s dt) as [u' r'] eqn:Ec. injection E as _ E. apply bind_ok in E as ([d1 n1] & -> & E).
          injection E as _ <-. cbn [snd]. rewrite keys_as_state. apply (main_new_state _ _ _ _ _ _ _ _ _ Ec).
          destruct (Hall X HX) as [->|]; [congruence|auto].
      + intros s t Hs. apply In_keys_dset. auto.
      + split; auto. intros S0 HS. destruct (K1 S0 HS) as (s & ds & next & Hs & _ & _ & (C & _)). apply C. auto.
  Qed.

  (** ** Processes that call no diagnostic 'time' *)

  Lemma tendency_name_not_time : forall comp X, tendency_name comp X <> "time".
  Proof.
    intros comp X H. apply (f_equal String.length) in H. unfold tendency_name in H. rewrite !append_length in H. cbn in H. lia.
  Qed.

  Lemma restore_keys_sub : forall raw outp (st : state T) inp ign b out,
    restore_data_arrays_with_properties raw outp st inp ign b = Ok out -> forall k, In k (keys out) -> In k (keys outp).
  Proof.
    intros raw outp st inp ign b out H k. unfold restore_data_arrays_with_properties in H.
    apply bind_ok in H as ((wn & dl) & _ & H). apply bind_ok in H as (dd & Hd & H).
    apply bind_ok in H as ((dl' & out') & Hf & H). injection H as <-.
    match type of Hd with extract_output_dims_properties _ _ ?i = _ => generalize dependent i end. intros ign' Hd Hf.
    assert (K1 : forall k, In k (keys dd) -> In k (keys outp)).
    { unfold extract_output_dims_properties in Hd.
      assert (G : forall l acc dd, foldM (extract_dims_step inp ign') l acc = Ok dd -> forall k, In k (keys dd) -> In k (keys acc) \/ In k (keys l)).
      { clear. induction l as [|[n p] l IH]; cbn [foldM]; intros acc dd H k Hk; [injection H as <-; auto|].
        apply bind_ok in H as (s1 & H1 & H2). destruct (IH _ _ H2 k Hk) as [K|K]; [|right; right; auto].
        unfold extract_dims_step in H1. cbn [fst snd] in H1.
        repeat match type of H1 with
        | bind ?X _ = _ => apply bind_ok in H1 as (? & ? & H1)
        | (if ?b then _ else _) = _ => destruct b; try discriminate H1
        | match ?X with _ => _ end = _ => destruct X; try discriminate H1
        end; injection H1 as <-; auto; apply In_keys_dset in K as [->|K]; auto; right; left; auto. }
      intros k0 Hk0. destruct (G _ _ _ Hd k0 Hk0) as [[]|]; auto. }
    intros Hk. assert (G : forall l s s', foldM (restore_step raw outp inp wn ign') l s = Ok s' ->
      forall k, In k (keys (snd s')) -> In k (keys (snd s)) \/ In k (keys l)).
    { clear. induction l as [|[n ds] l IH]; cbn [foldM]; intros s s' H k Hk; [injection H as <-; auto|].
      apply bind_ok in H as (s1 & H1 & H2). destruct (IH _ _ H2 k Hk) as [K|K]; [|right; right; auto].
      destruct s as [dl o]. unfold restore_step in H1. destruct (mem n ign'); [injection H1 as <-; auto|].
      apply bind_ok in H1 as (rn & _ & H1). apply bind_ok in H1 as (((dl3 & ds3) & oa) & _ & H1).
      apply bind_ok in H1 as (p & _ & H1). apply bind_ok in H1 as (u & _ & H1).
      apply bind_ok in H1 as (q & _ & H1). injection H1 as <-. cbn [snd] in *.
      apply In_keys_dset in K as [->|K]; auto. right; left; auto. }
    destruct (G _ _ _ Hf k Hk) as [[]|K]; auto.
  Qed.

  Lemma insert_tendencies_keys : forall comp (tend diag : dict (da T)) k, In k (keys (insert_tendencies comp tend diag)) ->
    In k (keys diag) \/ exists X, k = tendency_name comp X.
  Proof.
    unfold insert_tendencies. induction tend as [|[X a] tend IH]; cbn [fold_left fst snd]; intros diag k H; auto.
    apply IH in H as [H|H]; auto. apply In_keys_dset in H as [->|H]; eauto.
  Qed.

  Lemma main_leaves_tendency : forall {U} g c (ac : U -> dict (rval T) -> U * res (dict (nd T) * dict (nd T))) u st u' t d,
    tendency_call g c ac u st = (u', Ok (t, d)) -> ~ In "time" (keys (t_diag c)) -> ~ In "time" (keys d).
  Proof.
    intros U g c ac u st u' t d H Hn. unfold tendency_call in H.
    destruct (let* _ := raise_if (negb (t_init c)) ERuntime in raw_state g (t_inp c) (t_packer c) st) as [raw|e]; [|discriminate H].
    destruct (ac u raw) as [u1 r]. injection H as _ H. apply bind_ok in H as (o & -> & H). unfold tendency_finish in H.
    apply bind_ok in H as ((tr & rt) & _ & H). apply bind_ok in H as (x1 & _ & H). apply bind_ok in H as (x2 & _ & H).
    apply bind_ok in H as (td & _ & H). apply bind_ok in H as (dg & Hd & H). injection H as _ <-.
    intros K. destruct (t_tid c).
    - apply insert_tendencies_keys in K as [K|(X & K)]; [apply Hn; apply (restore_keys_sub _ _ _ _ _ _ _ Hd); auto|].
      symmetry in K. apply tendency_name_not_time in K. auto.
    - apply Hn. apply (restore_keys_sub _ _ _ _ _ _ _ Hd); auto.
  Qed.

  Lemma main_leaves_composite : forall {U} (cs : list (icaller (T:=T) U + caller (T:=T) U)) dt,
    (forall c, In c cs -> forall u st u' t d, match c with inl f => f u st dt | inr f => f u st end = (u', Ok (t, d)) -> ~ In "time" (keys d)) ->
    forall u st u' t d, implicit_composite_call cs dt u st = (u', Ok (t, d)) -> ~ In "time" (keys d).
  Proof.
    intros U cs dt Hc u st u' t d H. unfold implicit_composite_call, tendency_composite_call in H.
    assert (G : forall u t0 d0, composite_loop (map (fun c => match c with inl f => fun u st => f u st dt | inr f => f end) cs) u st t0 d0 = (u', Ok (t, d)) ->
      ~ In "time" (keys d0) -> ~ In "time" (keys d)).
    { clear H u. induction cs as [|c cs IH]; cbn [map composite_loop]; intros u t0 d0 H Hn; [injection H as _ _ <-; auto|].
      match type of H with (let (_, _) := ?X in _) = _ => destruct X as [u1 [[t1 d1]|e]] eqn:E end; cbn [bind fst snd] in H; [|discriminate H].
      destruct (update_dict_by_adding_another t0 t1); cbn [bind] in H; [|discriminate H].
      apply IH in H; auto.
      - intros c' Hin. apply Hc. right; auto.
      - rewrite In_keys_dupdate. intros [K|K]; auto. revert K. apply (Hc c (or_introl eq_refl) u st u1 t1). destruct c; auto. }
    apply (G _ _ _ H). intros [].
  Qed.

  Lemma finish_leaves_time : forall cfg dt (st : state T) r d new, finish_step cfg dt st r = Ok (d, new) ->
    (forall d0 n0, r = Ok (d0, n0) -> ~ In "time" (keys d0)) -> ~ In "time" (keys d).
  Proof.
    intros cfg dt st r d new H Hr. unfold finish_step in H. apply bind_ok in H as ([d0 n0] & -> & H).
    apply bind_ok in H as (dg & Hd & H). injection H as <- _. specialize (Hr _ _ eq_refl).
    destruct (ts_tid cfg); [|injection Hd as <-; auto]. unfold insert_differences in Hd. cbn [fst snd] in Hd.
    revert Hd Hr. generalize d0. generalize (ts_out cfg) as l. induction l as [|[X p] l IH]; cbn [foldM]; intros d1 H Hn; [injection H as <-; auto|].
    apply bind_ok in H as (d2 & H1 & H2). apply IH in H2; auto. unfold insert_one in H1. cbn [fst] in H1.
    destruct (dmem (tendency_name (ts_name cfg) X) d1); [discriminate H1|].
    repeat (apply bind_ok in H1 as (? & _ & H1)). injection H1 as <-. rewrite In_keys_dset. intros [K|K]; auto.
    symmetry in K. apply tendency_name_not_time in K. auto.
  Qed.

  Lemma ab_call_diag : forall {U} (prog : icaller (T:=T) U) s st dt s' d n, ab_call prog s st dt = (s', Ok (d, n)) ->
    exists u u' t, prog u st dt = (u', Ok (t, d)).
  Proof.
    intros U prog [a u] st dt s' d n H. unfold ab_call in H. destruct (ensure_timestep (ab_dt a) dt); [|discriminate H].
    destruct (prog u st dt) as [u' r] eqn:E. destruct (let* td := r in _) as [[t d']|e] eqn:Er; [|discriminate H].
    apply bind_ok in Er as ([t1 d1] & -> & Er). apply bind_ok in Er as (t2 & _ & Er). injection Er as _ <-.
    destruct (perform_step _ _ st dt); [|discriminate H]. injection H as _ <- _. cbn [snd]. eauto.
  Qed.

  Lemma main_leaves_ab : forall {U} cfg (prog : icaller (T:=T) U),
    (forall u st dt u' t d, prog u st dt = (u', Ok (t, d)) -> ~ In "time" (keys d)) -> leaves_time (adams_bashforth cfg prog).
  Proof.
    intros U cfg prog Hp s st dt w' d new H. unfold adams_bashforth in H. destruct (ab_call prog s st dt) as [s' r] eqn:E.
    injection H as _ H. apply (finish_leaves_time _ _ _ _ _ _ H). intros d0 n0 ->. apply ab_call_diag in E as (u & u' & t & E). eauto.
  Qed.

  Lemma main_leaves_stepper : forall {S U} g c (ac : U -> dict (rval T) -> Z -> U * res (dict (nd T) * dict (nd T))),
    ~ In "time" (keys (s_diag c)) -> leaves_time (beside (S:=S) (stepper_process g c ac)).
  Proof.
    intros S U g c ac Hn w st dt w' d new H. unfold beside, stepper_process in H.
    destruct (stepper_call g c ac (snd w) st dt) as [u' r] eqn:E. injection H as _ H. apply bind_ok in H as ([d1 n1] & -> & H).
    injection H as <- _. cbn [fst]. rewrite (proj2 (main_new_state _ _ _ _ _ _ _ _ _ E)). auto.
  Qed.

  (** The processes of the quickstart, when no component declares a diagnostic 'time'. *)
  Lemma main_leaves_time : forall {S U} cfg (cs : list (icaller (T:=T) U + caller (T:=T) U)),
    (forall c, In c cs -> exists g c0 ac, c = inr (tendency_call g c0 ac) /\ ~ In "time" (keys (t_diag c0))) ->
    leaves_time (adams_bashforth cfg (fun u s dt => implicit_composite_call cs dt u s)) /\
    forall g c ac, ~ In "time" (keys (s_diag c)) -> leaves_time (beside (S:=S) (stepper_process (U:=U) g c ac)).
  Proof.
    intros S U cfg cs Hc. split; [|intros; apply main_leaves_stepper; auto].
    apply main_leaves_ab. intros u st dt u' t d H. apply (main_leaves_composite _ _) in H; auto.
    intros c Hin u0 st0 u1 t0 d0 H0. destruct (Hc c Hin) as (g & c0 & ac & -> & Hn). apply (main_leaves_tendency _ _ _ _ _ _ _ _ H0 Hn).
  Qed.

  Lemma main_keeps : forall {U} cfg (prog : icaller (T:=T) U),
    keeps_quantities (adams_bashforth cfg prog) /\ keeps_quantities (ssp_rk cfg prog) /\
    forall s st dt st' s' d new, leapfrog cfg prog s st dt = (s', st', Ok (d, new)) -> forall X, In X (keys st) -> In X (keys st') /\ In X (keys new).
  Proof. intros. split; [apply main_keeps_ab|split; [apply main_keeps_rk|intros *; apply main_keeps_leapfrog]]. Qed.
End Main.
