(** Concrete cases for C91. *)
From Coq Require Import String Ascii List Bool Arith ZArith QArith Qcanon Lia.
From Verif Require Import Prelude PreludeFacts ArithM NdArray NdFacts Units DataArrayM GetNp SpecUnits UnitsFacts ExampleRegistry Checks
  SpecDa DaFacts Components Composite SpecComposite Steppers SpecSteppers SteppersFacts LeapFacts StepAlgebra StepRuns StepExact StepSteady
  Ex_Components Ex_Composite Ex_Steppers SpecOrder OrderMain Ex_Order SpecLeapOrder LeapOrder.
Import ListNotations.
Open Scope string_scope.
Open Scope nat_scope.
Open Scope list_scope.

#[local] Existing Instance ex_registry | 5.

(** The caller sets the time before each call. *)
Definition at_times (ts : list Z) : list (state Qc -> state Qc) := map (fun t => dset "time" (VTime t)) ts.

Lemma ldrive_times : forall cfg prog dt ts l u st log sf, ldrive cfg prog dt (at_times ts) l u st = Some (log, sf) ->
  (forall k e, nth_error log k = Some e -> exists t, nth_error ts k = Some t /\ dget "time" (l_st e) = Some (VTime t)) /\
  (forall X, X <> "time" -> carried X log) /\ forall X e r, X <> "time" -> log = e :: r -> dget X (l_st e) = dget X st.
Proof.
  intros cfg prog dt ts. induction ts as [|t ts IH]; intros l u st log sf H; cbn [at_times map ldrive] in H.
  - injection H as <- <-. split; [intros [|k] e He; discriminate He|]. split; [intros X _ pre p e post E; destruct pre; discriminate|discriminate].
  - destruct (prog u (dset "time" (VTime t) st) dt) as [u1 [[tend pdiag]|e]]; [|discriminate H].
    destruct (leapfrog cfg prog (l, u) (dset "time" (VTime t) st) dt) as [[[l' u2] st'] [[diag new]|e]]; [|discriminate H].
    destruct (Nat.eqb u1 u2); [|discriminate H].
    fold (at_times ts) in H. destruct (ldrive cfg prog dt (at_times ts) l' u2 new) as [[log1 sf1]|] eqn:Ed; [|discriminate H].
    injection H as <- <-. destruct (IH _ _ _ _ _ Ed) as (I1 & I2 & I3). split; [|split].
    + intros [|k] e He; [|apply I1; exact He]. injection He as <-. exists t. split; [reflexivity|]. apply dget_dset_eq.
    + intros X HX [|e0 pre] p e post E; injection E as <- E; [|eapply (I2 X HX); exact E]. cbn [l_new]. eapply I3; eauto.
    + intros X e r HX E. injection E as <- _. cbn [l_st]. apply dget_dset_neq. exact HX.
Qed.

Definition clock_times : list Z := [0; 1000000; 2000000; 3000000]%Z.

Definition clock_run (nu alpha : Qc) : option (list (lentry Qc) * (leap Qc * nat)) :=
  ldrive cfg_0 prog_clock 1000000 (at_times clock_times) (new_leap nu alpha) 0 st_clock.

Definition clock_entryb (e : lentry Qc) : bool :=
  (proper_stateb (l_st e) && properb (l_tend e) &&
   match dget "a" (l_st e) with Some (VDA x) => list_eqb (dims x) ["x"] && nats_eqb (shape (arr x)) [2] | _ => false end)%bool.

Lemma clock_run_ok : forall nu alpha,
  match clock_run nu alpha with Some (log, _) => forallb clock_entryb log | None => false end = true ->
  exists e0 log s, lhistory cfg_0 prog_clock 1000000 (new_leap nu alpha, 0) (e0 :: log) s /\ wf_llog (e0 :: log) /\
    length log = 3 /\ carried "a" (e0 :: log) /\ dget "a" (l_st e0) = dget "a" st_clock /\
    rates_are (e0 :: log) "a" (fun _ => 0) [0%Qc; 0%Qc; Q2Qc (1 # 2)] 0%Qc 1%Qc.
Proof.
  intros nu alpha H. destruct (clock_run nu alpha) as [[log s]|] eqn:E; [|discriminate H].
  unfold clock_run in E. destruct (ldrive_times _ _ _ _ _ _ _ _ _ E) as (I1 & I2 & I3).
  destruct (ldrive_ok _ _ _ _ _ _ _ _ _ E) as (Hh & Hl).
  assert (Hb := proj1 (forallb_forall clock_entryb log) H).
  destruct log as [|e0 log]; [discriminate Hl|]. exists e0, log, s.
  assert (He : forall e, In e (e0 :: log) -> proper_state (l_st e) /\ proper (l_tend e) /\ holds_points at_a (l_st e)).
  { intros e Hin. specialize (Hb e Hin). unfold clock_entryb in Hb.
    apply andb_true_iff in Hb as [Hb B3]. apply andb_true_iff in Hb as [B1 B2].
    split; [apply proper_stateb_ok; exact B1|]. split; [apply properb_ok; exact B2|].
    intros X c (-> & Hc). destruct (dget "a" (l_st e)) as [[x|]|]; try discriminate B3. exists x. split; [reflexivity|].
    apply andb_true_iff in B3 as [B3 B4]. apply list_eqb_eq in B3. apply nats_eqb_eq in B4.
    intros d n Hd. unfold dim_len in Hd. rewrite B3, B4 in Hd. cbn [combine dget fst snd] in Hd.
    destruct (String.eqb d "x") eqn:Ed; [|discriminate Hd]. apply String.eqb_eq in Ed. subst d. injection Hd as <-. exact Hc. }
  split; [exact Hh|]. split; [intros e Hin; split; apply (He e Hin)|]. split; [cbn in Hl; lia|].
  split; [apply I2; discriminate|]. split.
  - apply (I3 "a" e0 log); [discriminate|reflexivity].
  - intros k e Hk. destruct (I1 k e Hk) as (t & Ht & Hst). assert (Hin : In e (e0 :: log)) by (eapply nth_error_In; eauto).
    destruct (lhistory_prog _ _ _ _ _ _ Hh e Hin) as (u & u' & pdiag & Hp).
    assert (L := clock_linear [0%Qc; 0%Qc; Q2Qc (1 # 2)] 1000000%Z
                   ltac:(intros now; cbn [pderiv pderiv_from peval]; generalize (seconds now); intros q; qc_ring)).
    destruct (L u (l_st e) u' (l_tend e) pdiag t Hp (proj2 (proj2 (He e Hin))) Hst "a" (fun _ => 0)) as (td & T1 & T2 & T3).
    { split; [reflexivity|apply Nat.lt_0_succ]. }
    exists td. split; auto. split; auto. rewrite no_operator in T3.
    replace (peval (pderiv [0%Qc; 0%Qc; Q2Qc (1 # 2)]) (time_after 0 1 k))
      with (peval (pderiv [0%Qc; 0%Qc; Q2Qc (1 # 2)]) (seconds t) + 0)%Qc; [exact T3|].
    replace (seconds t) with (time_after 0 1 k); [ring|].
    clear - Ht. destruct k as [|[|[|[|k]]]]; [..|destruct k; discriminate Ht]; injection Ht as <-; apply Qc_is_canon; reflexivity.
Qed.

Lemma clock_quadratic : forall alpha, alpha = half \/ alpha = 1%Qc -> exists e0 log s,
  lhistory cfg_0 prog_clock 1000000 (new_leap 0%Qc alpha, 0) (e0 :: log) s /\ wf_llog (e0 :: log) /\
  length log = 3 /\ carried "a" (e0 :: log) /\ is_value (l_st e0) "a" (fun _ => 0) (peval [0%Qc; 0%Qc; Q2Qc (1 # 2)] 0%Qc) /\
  rates_are (e0 :: log) "a" (fun _ => 0) [0%Qc; 0%Qc; Q2Qc (1 # 2)] 0%Qc 1%Qc.
Proof.
  intros alpha Ha. destruct (clock_run_ok 0%Qc alpha) as (e0 & log & s & H1 & H2 & H3 & H4 & H5 & H6).
  { destruct Ha as [-> | ->]; vm_compute; reflexivity. }
  exists e0, log, s. split; [exact H1|]. split; [exact H2|]. split; [exact H3|]. split; [exact H4|]. split; [|exact H6].
  eexists. split; [exact H5|]. split; [|apply Qc_is_canon; reflexivity].
  intros d n Hd. vm_compute in Hd. destruct d as [|[[] [] [] [] [] [] [] []] [|]]; try discriminate Hd; injection Hd as <-. apply Nat.lt_0_succ.
Qed.

(** The first step makes an error that the second state, and every second one after it, keeps. *)
Lemma clock_odd : exists (prog : icaller (T:=Qc) nat) alpha u e0 log s X c p e,
  lhistory cfg_0 prog 1000000 (new_leap 0%Qc alpha, u) (e0 :: log) s /\ wf_llog (e0 :: log) /\
  carried X (e0 :: log) /\ length p = 3 /\ is_value (l_st e0) X c (peval p 0%Qc) /\ rates_are (e0 :: log) X c p 0%Qc 1%Qc /\
  nth_error (e0 :: log) 2 = Some e /\ ~ is_value (l_new e) X c (peval p (time_after 0 1 3)).
Proof.
  destruct (clock_quadratic 1%Qc (or_intror eq_refl)) as (e0 & log & s & H1 & H2 & H3 & H4 & H5 & H6).
  destruct log as [|e1 [|e2 log]]; try discriminate H3.
  exists prog_clock, 1%Qc, 0, e0, (e1 :: e2 :: log), s, "a", (fun _ => 0), [0%Qc; 0%Qc; Q2Qc (1 # 2)], e2.
  repeat match goal with |- _ /\ _ => split end; auto. intros (x & Ex & _ & Vx).
  assert (E1 : Q2Qc (1000000 # 1000000) = 1%Qc) by (apply Qc_is_canon; reflexivity).
  assert (G := leap_quadratic cfg_0 prog_clock 1000000%Z 1%Qc 0 e0 (e1 :: e2 :: log) s H1 H2 "a" (fun _ => 0) 0%Qc 0%Qc (Q2Qc (1 # 2)) 0%Qc).
  cbv zeta in G. rewrite E1 in G. destruct (G H4 H5 H6 2 e2 eq_refl) as (x' & Ex' & _ & Vx').
  rewrite Ex in Ex'. injection Ex' as <-. rewrite Vx in Vx'. apply (f_equal this) in Vx'. vm_compute in Vx'. discriminate Vx'.
Qed.

(** a' = 5. *)
Definition prog_line : icaller (T:=Qc) nat := fun u st dt =>
  (S u,
   match dget "a" st with
   | Some (VDA x) => if has_units x "kg" then Ok ([("a", tend_of x (fun _ => cz 5) "kg s^-1")], []) else Err EValue
   | _ => Err EKey
   end).

Definition line_run (nu alpha : Qc) : option (list (lentry Qc) * (leap Qc * nat)) :=
  ldrive cfg_0 prog_line 1000000 (at_times clock_times) (new_leap nu alpha) 0 st_clock.

Definition line_entryb (e : lentry Qc) : bool :=
  (proper_stateb (l_st e) && properb (l_tend e) &&
   match dget "a" (l_st e) with Some (VDA x) => in_gridb x (fun _ => 0) | _ => false end)%bool.

Lemma line_linear : forall alpha, alpha = half \/ alpha = 1%Qc -> exists e0 log s,
  lhistory cfg_0 prog_line 1000000 (new_leap nu_e alpha, 0) (e0 :: log) s /\ wf_llog (e0 :: log) /\
  length log = 3 /\ carried "a" (e0 :: log) /\ is_value (l_st e0) "a" (fun _ => 0) (peval [0%Qc; cz 5] 0%Qc) /\
  rates_are (e0 :: log) "a" (fun _ => 0) [0%Qc; cz 5] 0%Qc 1%Qc.
Proof.
  intros alpha Ha.
  assert (H : match line_run nu_e alpha with Some (log, _) => forallb line_entryb log | None => false end = true).
  { destruct Ha as [-> | ->]; vm_compute; reflexivity. }
  destruct (line_run nu_e alpha) as [[log s]|] eqn:E; [|discriminate H].
  unfold line_run in E. destruct (ldrive_times _ _ _ _ _ _ _ _ _ E) as (I1 & I2 & I3).
  destruct (ldrive_ok _ _ _ _ _ _ _ _ _ E) as (Hh & Hl).
  assert (Hb := proj1 (forallb_forall line_entryb log) H).
  destruct log as [|e0 log]; [discriminate Hl|]. exists e0, log, s.
  assert (He : forall e, In e (e0 :: log) -> proper_state (l_st e) /\ proper (l_tend e) /\
            exists x, dget "a" (l_st e) = Some (VDA x) /\ in_grid x (fun _ => 0)).
  { intros e Hin. specialize (Hb e Hin). unfold line_entryb in Hb.
    apply andb_true_iff in Hb as [Hb B3]. apply andb_true_iff in Hb as [B1 B2].
    split; [apply proper_stateb_ok; exact B1|]. split; [apply properb_ok; exact B2|].
    destruct (dget "a" (l_st e)) as [[x|]|]; try discriminate B3. exists x. split; [reflexivity|apply in_gridb_ok; exact B3]. }
  split; [exact Hh|]. split; [intros e Hin; split; apply (He e Hin)|]. split; [cbn in Hl; lia|].
  split; [apply I2; discriminate|]. split.
  - destruct (He e0 (or_introl eq_refl)) as (_ & _ & x & Ex & Gx).
    exists x. split; auto. split; auto. rewrite (I3 "a" e0 log ltac:(discriminate) eq_refl) in Ex. injection Ex as <-. apply Qc_is_canon; reflexivity.
  - intros k e Hk. assert (Hin : In e (e0 :: log)) by (eapply nth_error_In; eauto).
    destruct (lhistory_prog _ _ _ _ _ _ Hh e Hin) as (u & u' & pdiag & Hp).
    destruct (He e Hin) as (_ & _ & x & Ex & Gx). unfold prog_line in Hp. rewrite Ex in Hp. injection Hp as _ Hp.
    destruct (has_units x "kg") eqn:Eu; [|discriminate Hp]. injection Hp as Hp _. apply has_units_ok in Eu as (Wx & Ux).
    exists (tend_of x (fun _ => cz 5) "kg s^-1"). rewrite <- Hp. split; [reflexivity|]. split; [apply in_grid_map; auto|].
    exists x, "kg". split; auto. split; auto. unfold tend_of. rewrite da_at_map by auto.
    replace (peval (pderiv [0%Qc; cz 5]) (time_after 0 1 k)) with (cz 5) by (cbn [pderiv pderiv_from peval]; ring).
    eapply conv_same. reflexivity.
Qed.
