(** C76, C80: all that a main loop does. *)
From Coq Require Import String List Bool Arith ZArith QArith Lia.
From Verif Require Import Prelude PreludeFacts ArithM NdArray Units DataArrayM GetNp Components Composite Steppers SpecSteppers Basic MainLoop SpecMainLoop MainLoopMain LeapLoop SpecLoopRun.
Import ListNotations.
Open Scope string_scope.
Open Scope nat_scope.
Open Scope list_scope.

Section Main.
  Context {T : Type} {A : Arith T} {R : Registry}.

  Lemma run_called : forall {W} dt (ps : list (process (T:=T) W)) w st w' r, run_processes ps w st dt = (w', r) -> called dt ps w st w' r.
  Proof.
    intros W dt ps. induction ps as [|p ps IH]; intros w st w' r H; cbn [run_processes] in H; [injection H as <- <-; constructor|].
    destruct (p w st dt) as (w1, [(d, st1)|e]) eqn:Ep; [|injection H as <- <-; constructor; exact Ep].
    destruct (run_processes ps w1 st1 dt) as (w2, r2) eqn:Er. apply IH in Er. destruct r2 as [(ds, next)|e]; cbn [bind fst snd] in H; injection H as <- <-.
    - eapply called_all; eassumption.
    - eapply called_later; eassumption.
  Qed.

  Lemma untimed : forall (st : state T) e, state_time st = Err e -> no_time st e.
  Proof.
    intros st e H. unfold state_time, dgetE in H. unfold no_time. destruct (dget "time" st) as [[a|t]|] eqn:E; cbn [bind] in H; try discriminate; injection H as <-; [right|left]; eauto.
  Qed.

  Lemma main_run : forall {W} n (ps : list (process (T:=T) W)) store stop dt w st w' log r,
    main_loop n ps store stop dt w st = ((w', log), r) -> loop (plain_pass ps dt) store stop dt w st w' log r.
  Proof.
    intros W. induction n as [|n IH]; intros ps store stop dt w st w' log r H; cbn [main_loop] in H; [injection H as <- <- <-; constructor|].
    destruct (state_time st) as [t|e] eqn:Et0; [|injection H as <- <- <-; apply loop_untimed; eapply untimed; exact Et0].
    apply state_time_iff in Et0.
    destruct (t <? stop)%Z eqn:El; [|injection H as <- <- <-; apply Z.ltb_ge in El; eapply loop_ended; eassumption]. apply Z.ltb_lt in El.
    destruct (run_processes ps w st dt) as (w1, [(ds, next)|e]) eqn:Er; apply run_called in Er.
    2:{ injection H as <- <- <-. eapply loop_raised; eauto. left. eauto. }
    assert (Hp : plain_pass ps dt w st w1 (Ok (st, ds, next))) by (right; eauto).
    pose proof (completed_update ds st) as Hc. cbn zeta in H.
    destruct (store w1 (update_all ds st)) as (w2, [x|e]) eqn:Es.
    2:{ injection H as <- <- <-. eapply loop_not_stored; eauto. }
    destruct (state_time (update_all ds st)) as [t1|e] eqn:Et.
    2:{ injection H as <- <- <-. eapply loop_lost_time; eauto. eapply untimed; exact Et. }
    destruct (main_loop n ps store stop dt w2 (dset "time" (VTime (t1 + dt)) next)) as ((w3, log'), r') eqn:En. injection H as <- <- <-.
    apply IH in En. apply state_time_iff in Et. eapply loop_next with (s' := dset "time" (VTime (t1 + dt)) next); eauto.
    - apply dget_dset_eq.
    - intros X HX. apply dget_dset_neq. exact HX.
  Qed.

  Lemma main_leap_all : forall {U V} n cfg (prog : icaller (T:=T) U) (qs : list (process (T:=T) V)) (store : V -> state T -> V * res unit) stop dt s v st s' v' log r,
    leap_main_loop n cfg prog qs store stop dt s v st = ((s', v', log), r) ->
    loop (leap_pass cfg prog qs dt) (beside_store store) stop dt (s, v) st (s', v') log r.
  Proof.
    intros U V. induction n as [|n IH]; intros cfg prog qs store stop dt s v st s' v' log r H; cbn [leap_main_loop] in H; [injection H as <- <- <- <-; constructor|].
    destruct (state_time st) as [t|e] eqn:Et0; [|injection H as <- <- <- <-; apply loop_untimed; eapply untimed; exact Et0].
    apply state_time_iff in Et0.
    destruct (t <? stop)%Z eqn:El; [|injection H as <- <- <- <-; apply Z.ltb_ge in El; eapply loop_ended; eassumption]. apply Z.ltb_lt in El.
    destruct (leapfrog cfg prog s st dt) as ((s1, st'), [(d, new)|e]) eqn:Ef.
    2:{ injection H as <- <- <- <-. eapply loop_raised; eauto. left. exists s1, st', e. auto. }
    destruct (run_processes qs v new dt) as (v1, [(ds, next)|e]) eqn:Er; apply run_called in Er.
    2:{ injection H as <- <- <- <-. eapply loop_raised; eauto. right. left. exists s1, st', d, new, v1, e. auto. }
    assert (Hp : leap_pass cfg prog qs dt (s, v) st (s1, v1) (Ok (st', d :: ds, next))).
    { right. right. exists s1, st', d, new, v1, ds, next. auto. }
    pose proof (completed_update (d :: ds) st') as Hc. cbn zeta in H. set (S := update_all (d :: ds) st') in *.
    destruct (store v1 S) as (v2, [x|e]) eqn:Es.
    2:{ injection H as <- <- <- <-. eapply loop_not_stored; eauto. unfold beside_store. cbn [fst snd]. rewrite Es. reflexivity. }
    assert (Es' : beside_store store (s1, v1) S = ((s1, v2), Ok x)) by (unfold beside_store; cbn [fst snd]; rewrite Es; reflexivity).
    destruct (state_time S) as [t1|e] eqn:Et.
    2:{ injection H as <- <- <- <-. eapply loop_lost_time; eauto. eapply untimed; exact Et. }
    destruct (leap_main_loop n cfg prog qs store stop dt s1 v2 (dset "time" (VTime (t1 + dt)) next)) as (((s3, v3), log'), r') eqn:En. injection H as <- <- <- <-.
    apply IH in En. apply state_time_iff in Et. eapply loop_next with (s' := dset "time" (VTime (t1 + dt)) next); eauto.
    - apply dget_dset_eq.
    - intros X HX. apply dget_dset_neq. exact HX.
  Qed.
End Main.
