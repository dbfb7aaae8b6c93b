(** Concrete cases for C95. *)
From Coq Require Import String Ascii List Bool Arith ZArith QArith Qcanon Lia Lqa.
From Verif Require Import Prelude PreludeFacts ArithM NdArray NdFacts Units DataArrayM GetNp SpecUnits UnitsFacts ExampleRegistry Checks
  SpecDa DaFacts Components Composite SpecComposite Steppers SpecSteppers SteppersFacts RKFacts StepAlgebra StepRuns StepExact StepSteady
  Ex_Components Ex_Composite Ex_Steppers SpecOrder OrderMain Ex_Order SpecLeapOrder LeapOrder Ex_LeapOrder SpecConverge ConvergeAlg ConvergeMain ConvergeRate.
Import ListNotations.
Open Scope string_scope.
Open Scope nat_scope.
Open Scope list_scope.

#[local] Existing Instance ex_registry | 5.

(** a' = 2 b, b' = a + 1 - time^2, at every point of x. *)
Definition prog_par : icaller (T:=Qc) nat := fun u st dt =>
  (S u,
   match dget "time" st, dget "a" st, dget "b" st with
   | Some (VTime now), Some (VDA x), Some (VDA y) =>
       if (has_units x "kg" && has_units y "kg")%bool then
         Ok ([("a", tend_of y (fun v => (Q2Qc (2 # 1) * v)%Qc) "kg s^-1");
              ("b", tend_of x (fun v => (v + (1 - seconds now * seconds now))%Qc) "kg s^-1")], [])
       else Err EValue
   | _, _, _ => Err EKey
   end).

Definition par_operator : operator := fun X c =>
  if String.eqb X "a" then [("b", c, Q2Qc (2 # 1))] else if String.eqb X "b" then [("a", c, 1%Qc)] else [].

Definition par_forcing (now : Z) : field := fun X c => if String.eqb X "b" then (1 - seconds now * seconds now)%Qc else 0%Qc.

Definition par_rhs : rhs := fun now v X c => (par_forcing now X c + apply par_operator v X c)%Qc.

(** The solution a = time^2, b = time. *)
Definition par_curve (now : Z) : field := fun X c =>
  if String.eqb X "a" then (seconds now * seconds now)%Qc else if String.eqb X "b" then seconds now else 0%Qc.

Lemma par_closed : forall n, closed (at_x n) par_operator.
Proof.
  intros n X c ([->| ->] & Hc); (split; [discriminate|]); intros X' c' w [E|[]]; injection E as <- <- _; split; auto.
Qed.

Lemma prog_par_ok : forall u st dt u' tend diag, prog_par u st dt = (u', Ok (tend, diag)) ->
  exists now x y, dget "time" st = Some (VTime now) /\ dget "a" st = Some (VDA x) /\ dget "b" st = Some (VDA y) /\
    (wf_da x /\ units_of x = Some "kg") /\ (wf_da y /\ units_of y = Some "kg") /\
    tend = [("a", tend_of y (fun v => (Q2Qc (2 # 1) * v)%Qc) "kg s^-1"); ("b", tend_of x (fun v => (v + (1 - seconds now * seconds now))%Qc) "kg s^-1")].
Proof.
  intros u st dt u' tend diag H. unfold prog_par in H. injection H as _ H.
  destruct (dget "time" st) as [[|now]|]; try discriminate. destruct (dget "a" st) as [[x|]|]; try discriminate.
  destruct (dget "b" st) as [[y|]|]; try discriminate.
  destruct (has_units x "kg" && has_units y "kg")%bool eqn:E; [|discriminate].
  apply andb_true_iff in E as [E1 E2]. apply has_units_ok in E1, E2. injection H as <- _.
  exists now, x, y. repeat match goal with |- _ /\ _ => split end; tauto.
Qed.

Lemma par_proper : proper_components prog_par.
Proof.
  intros u st dt u' tend diag H. apply prog_par_ok in H as (now & x & y & _ & _ & _ & [Wx _] & [Wy _] & ->).
  split; [apply nodupb_ok; vm_compute; reflexivity|]. intros X a Ha. apply dget_In in Ha.
  destruct Ha as [Ha|[Ha|[]]]; injection Ha as _ <-; apply wf_da_map; auto.
Qed.

Lemma par_linear : forall n dt, linear_rates (at_x n) par_forcing par_operator dt prog_par.
Proof.
  intros n dt u st u' tend diag now H Hh Ht X c HG.
  apply prog_par_ok in H as (now' & x & y & Ht' & Ex & Ey & [Wx Ux] & [Wy Uy] & ->).
  rewrite Ht in Ht'. injection Ht' as <-. destruct HG as (HX & Hc).
  destruct (Hh "a" c (conj (or_introl eq_refl) Hc)) as (x' & Ex' & Gx). rewrite Ex in Ex'. injection Ex' as <-.
  destruct (Hh "b" c (conj (or_intror eq_refl) Hc)) as (y' & Ey' & Gy). rewrite Ey in Ey'. injection Ey' as <-.
  destruct HX as [-> | ->].
  - eexists. split; [reflexivity|]. split; [apply in_grid_map; auto|]. exists x, "kg". split; auto. split; auto.
    unfold tend_of. rewrite da_at_map by auto.
    replace (par_forcing now "a" c + apply par_operator (value st) "a" c)%Qc with (Q2Qc (2 # 1) * da_at y c)%Qc.
    + eapply conv_same. reflexivity.
    + unfold par_forcing, apply, par_operator, weighted, value. cbn [String.eqb Ascii.eqb Bool.eqb fold_right]. rewrite Ey. ring.
  - eexists. split; [reflexivity|]. split; [apply in_grid_map; auto|]. exists y, "kg". split; auto. split; auto.
    unfold tend_of. rewrite da_at_map by auto.
    replace (par_forcing now "b" c + apply par_operator (value st) "b" c)%Qc with (da_at x c + (1 - seconds now * seconds now))%Qc.
    + eapply conv_same. reflexivity.
    + unfold par_forcing, apply, par_operator, weighted, value. cbn [String.eqb Ascii.eqb Bool.eqb fold_right]. rewrite Ex. ring.
Qed.

Lemma par_rates : forall n dt, rates_by (at_x n) par_rhs dt prog_par.
Proof. intros n dt. exact (linear_has_rates _ _ _ _ _ (par_closed n) (par_linear n dt)). Qed.

Lemma par_rows : forall n X c, at_x n X c -> (row_size (par_operator X c) <= Q2Qc (2 # 1))%Qc.
Proof. intros n X c ([-> | ->] & _); vm_compute; discriminate. Qed.

Lemma par_lipschitz : forall n, lipschitz (at_x n) (Q2Qc (2 # 1)) par_rhs.
Proof. intros n. exact (linear_is_lipschitz _ _ _ _ (par_closed n) (par_rows n)). Qed.

Lemma seconds_add : forall t s, seconds (t + s) = (seconds t + seconds s)%Qc.
Proof. intros t s. unfold seconds. apply Qc_is_canon. rewrite this_plus, !this_Q2Qc. unfold Qeq, Qplus. simpl. ring. Qed.

Lemma seconds_pos : forall t, (0 <= t)%Z -> (0 <= seconds t)%Qc.
Proof. intros t H. apply secs_nonneg. exact H. Qed.

Lemma par_rhs_a : forall t c, par_rhs t (par_curve t) "a" c = (Q2Qc (2 # 1) * seconds t)%Qc.
Proof. intros t c. unfold par_rhs, par_forcing, apply, par_operator, weighted, par_curve. cbn [String.eqb Ascii.eqb Bool.eqb fold_right]. ring. Qed.

Lemma par_rhs_b : forall t c, par_rhs t (par_curve t) "b" c = 1%Qc.
Proof. intros t c. unfold par_rhs, par_forcing, apply, par_operator, weighted, par_curve. cbn [String.eqb Ascii.eqb Bool.eqb fold_right]. ring. Qed.

Lemma par_smooth : forall n t0 t1, smooth_solution (at_x n) par_rhs 1%Qc t0 t1 par_curve.
Proof.
  intros n t0 t1 t s _ Hs _ h. assert (Hh : (0 <= h)%Qc) by (apply secs_nonneg; exact Hs).
  assert (HS : seconds s = h) by reflexivity. assert (Hq := mul_pos _ _ Hh Hh).
  split; intros X c ([-> | ->] & _); rewrite ?par_rhs_a, ?par_rhs_b; unfold par_curve; cbn [String.eqb Ascii.eqb Bool.eqb];
    rewrite ?seconds_add, ?HS; generalize (seconds t); intros q.
  - replace ((q + h) * (q + h) - (q * q + h * (Q2Qc (2 # 1) * q)))%Qc with (h * h)%Qc by qc_ring.
    replace (q * q + h * (Q2Qc (2 # 1) * q) - (q + h) * (q + h))%Qc with (- (h * h))%Qc by qc_ring. generalize dependent (h * h)%Qc. intros. split; qc_lra.
  - replace (q + h - (q + h * 1))%Qc with 0%Qc by ring. replace (q + h * 1 - (q + h))%Qc with 0%Qc by ring.
    generalize dependent (h * h)%Qc. intros. split; qc_lra.
  - clearbody h. split; qc_lra.
  - clearbody h. split; qc_lra.
Qed.

Lemma par_bounded : forall n, bounded_rates (at_x n) par_rhs (Q2Qc (4 # 1)) 0 2000000 par_curve.
Proof.
  intros n t X c H0 H1 ([-> | ->] & _); rewrite ?par_rhs_a, ?par_rhs_b.
  - assert (S0 := seconds_pos t H0). assert (S1 := seconds_pos (2000000 - t) ltac:(lia)).
    assert (E : (seconds t + seconds (2000000 - t) = Q2Qc (2 # 1))%Qc) by (rewrite <- seconds_add; replace (t + (2000000 - t))%Z with 2000000%Z by ring; apply Qc_is_canon; reflexivity).
    generalize dependent (seconds (2000000 - t)). generalize dependent (seconds t). intros a A b B E.
    assert (Eb : b = (Q2Qc (2 # 1) - a)%Qc) by (rewrite <- E; ring). subst b. split; qc_lra.
  - split; qc_lra.
Qed.

(** Near the solution at the start, by a tenth. *)
Definition st_par : state Qc :=
  [ ("time", VTime 0);
    ("a", VDA (mkda ["x"] (mknd [2] [cz 0; Q2Qc (1 # 10)]) [("units", "kg")]));
    ("b", VDA (mkda ["x"] (mknd [2] [Q2Qc (1 # 20); cz 0]) [("units", "kg")])) ].

Lemma par_state : proper_state st_par /\ holds_points (at_x 2) st_par /\ near (at_x 2) (Q2Qc (1 # 10)) (value st_par) (par_curve 0).
Proof.
  split; [split|split].
  - apply nodupb_ok. vm_compute. reflexivity.
  - intros X a Ha. apply dget_In in Ha.
    destruct Ha as [Ha|[Ha|[Ha|[]]]]; [discriminate Ha|injection Ha as _ <-|injection Ha as _ <-]; apply wf_dab_ok; vm_compute; reflexivity.
  - intros X c ([-> | ->] & Hc); (eexists; split; [reflexivity|]); intros d k Hd; vm_compute in Hd;
      destruct d as [|[[] [] [] [] [] [] [] []] [|]]; try discriminate Hd; injection Hd as <-; exact Hc.
  - intros X c ([-> | ->] & Hc).
    + assert (E : value st_par "a" c = nth (c "x") [cz 0; Q2Qc (1 # 10)] 0%Qc) by (unfold value; cbn; destruct (c "x") as [|[|k]]; [reflexivity|reflexivity|lia]).
      rewrite E. destruct (c "x") as [|[|k]]; [| |lia]; vm_compute; split; discriminate.
    + assert (E : value st_par "b" c = nth (c "x") [Q2Qc (1 # 20); cz 0] 0%Qc) by (unfold value; cbn; destruct (c "x") as [|[|k]]; [reflexivity|reflexivity|lia]).
      rewrite E. destruct (c "x") as [|[|k]]; [| |lia]; vm_compute; split; discriminate.
Qed.

Definition par_times : list Z := [0; 250000; 500000; 750000]%Z.

Lemma drive_times : forall {S : Type} (call : S * nat -> state Qc -> Z -> (S * nat) * res (stepped Qc)) prog dt ts s u st log sf,
  drive call prog dt (at_times ts) s u st = Some (log, sf) ->
  (forall k e, nth_error log k = Some e -> exists t, nth_error ts k = Some t /\ dget "time" (e_st e) = Some (VTime t)) /\
  (forall X, X <> "time" -> forall pre p e post, log = pre ++ p :: e :: post -> dget X (e_st e) = dget X (e_new p)) /\
  forall X e r, X <> "time" -> log = e :: r -> dget X (e_st e) = dget X st.
Proof.
  intros S call prog dt ts. induction ts as [|t ts IH]; intros s u st log sf H; cbn [at_times map drive] in H.
  - injection H as <- <-. split; [intros [|k] e He; discriminate He|]. split; [intros X _ pre p e post E; destruct pre; discriminate|discriminate].
  - destruct (prog u (dset "time" (VTime t) st) dt) as [u1 [[tend pdiag]|e]]; [|discriminate H].
    destruct (call (s, u) (dset "time" (VTime t) st) dt) as [[s' u2] [[diag new]|e]]; [|discriminate H].
    destruct (Nat.eqb u1 u2); [|discriminate H].
    fold (at_times ts) in H. destruct (drive call prog dt (at_times ts) s' u2 new) as [[log1 sf1]|] eqn:Ed; [|discriminate H].
    injection H as <- <-. destruct (IH _ _ _ _ _ Ed) as (I1 & I2 & I3). split; [|split].
    + intros [|k] e He; [|apply I1; exact He]. injection He as <-. exists t. split; [reflexivity|]. apply dget_dset_eq.
    + intros X HX [|e0 pre] p e post E; injection E as <- E; [|eapply (I2 X HX); exact E]. cbn [e_new]. eapply I3; eauto.
    + intros X e r HX E. injection E as <- _. cbn [e_st]. apply dget_dset_neq. exact HX.
Qed.

Lemma par_clock : forall k t, nth_error par_times k = Some t -> t = clock 0 250000 k.
Proof. intros [|[|[|[|k]]]] t H; [..|destruct k; discriminate H]; injection H as <-; reflexivity. Qed.

Lemma at_x_time : forall n X c, at_x n X c -> X <> "time".
Proof. intros n X c ([-> | ->] & _); discriminate. Qed.

(** What a run near the solution has to satisfy. *)
Definition start_ok (st : state Qc) : Prop := holds_points (at_x 2) st /\ near (at_x 2) (Q2Qc (1 # 10)) (value st) (par_curve 0).

Lemma start_same : forall st, (forall X, X <> "time" -> dget X st = dget X st_par) -> start_ok st.
Proof.
  intros st H. destruct par_state as (_ & P1 & P2). split.
  - intros X c HG. destruct (P1 X c HG) as (x & Hx & Hg). exists x. split; auto. rewrite H; auto. eapply at_x_time; eauto.
  - intros X c HG. unfold value. rewrite (H X (at_x_time _ _ _ HG)). exact (P2 X c HG).
Qed.

Lemma par_ab_case : exists log s,
  history (adams_bashforth cfg_0 prog_par) prog_par 250000 (mkab 3 None [], 0) log s /\ wf_log log /\ length log = 4 /\
  new_ab (T:=Qc) (OInt 3) = Ok (mkab 3 None []) /\ is_order (OInt 3) 3 /\
  handed_on (at_x 2) log /\ (forall k e, nth_error log k = Some e -> dget "time" (e_st e) = Some (VTime (clock 0 250000 k))) /\
  rates_by (at_x 2) par_rhs 250000 prog_par /\ lipschitz (at_x 2) (Q2Qc (2 # 1)) par_rhs /\ smooth_solution (at_x 2) par_rhs 1%Qc 0 1000000 par_curve /\
  (clock 0 250000 (length log) <= 1000000)%Z /\ (forall e post, log = e :: post -> start_ok (e_st e)) /\
  (elapsed 250000 4 * (Q2Qc (2 # 1) * ab_size 3) <= of_nat 8)%Qc.
Proof.
  assert (H : match drive (adams_bashforth cfg_0 prog_par) prog_par 250000 (at_times par_times) (mkab 3 None []) 0 st_par with
              | Some (log, _) => forallb (fun e => proper_stateb (e_st e) && properb (e_tend e))%bool log | None => false end = true) by (vm_compute; reflexivity).
  destruct (drive (adams_bashforth cfg_0 prog_par) prog_par 250000 (at_times par_times) (mkab 3 None []) 0 st_par) as [[log s]|] eqn:E; [|discriminate H].
  destruct (drive_times _ _ _ _ _ _ _ _ _ E) as (I1 & I2 & I3). destruct (drive_ok _ _ _ _ _ _ _ _ _ E) as (Hh & Hl).
  assert (Hb := proj1 (forallb_forall _ log) H). clear H E. exists log, s. split; [exact Hh|]. split.
  { intros e Hin. specialize (Hb e Hin). apply andb_true_iff in Hb as [B1 B2]. split; [apply proper_stateb_ok; exact B1|apply properb_ok; exact B2]. }
  split; [exact Hl|]. split; [reflexivity|]. split; [cbn; lia|].
  split; [intros pre p e post Ee X c HG; eapply I2; [eapply at_x_time; eauto|exact Ee]|].
  split; [intros k e He; destruct (I1 k e He) as (t & Ht & Hd); rewrite Hd, (par_clock k t Ht); reflexivity|].
  split; [apply par_rates|]. split; [apply par_lipschitz|]. split; [apply par_smooth|].
  split; [rewrite Hl; vm_compute; discriminate|]. split; [|vm_compute; discriminate].
  intros e post Ee. apply start_same. intros X HX. eapply I3; eauto.
Qed.

Lemma par_leap_case : forall nu, nu = Q2Qc (1 # 2) \/ nu = 0%Qc -> exists log s,
  lhistory cfg_0 prog_par 250000 (new_leap nu (Q2Qc (1 # 2)), 0) log s /\ wf_llog log /\ length log = 4 /\
  lhanded_on (at_x 2) log /\ (forall k e, nth_error log k = Some e -> dget "time" (l_st e) = Some (VTime (clock 0 250000 k))) /\
  rates_by (at_x 2) par_rhs 250000 prog_par /\ lipschitz (at_x 2) (Q2Qc (2 # 1)) par_rhs /\ smooth_solution (at_x 2) par_rhs 1%Qc 0 1000000 par_curve /\
  (clock 0 250000 (length log) <= 1000000)%Z /\ (forall e post, log = e :: post -> start_ok (l_st e)) /\
  (elapsed 250000 4 * (Q2Qc (2 # 1) * Q2Qc (2 # 1) * / Q2Qc (1 # 2)) <= of_nat 8)%Qc.
Proof.
  intros nu Hnu.
  assert (H : match ldrive cfg_0 prog_par 250000 (at_times par_times) (new_leap nu (Q2Qc (1 # 2))) 0 st_par with
              | Some (log, _) => forallb (fun e => proper_stateb (l_st e) && properb (l_tend e))%bool log | None => false end = true)
    by (destruct Hnu as [-> | ->]; vm_compute; reflexivity).
  destruct (ldrive cfg_0 prog_par 250000 (at_times par_times) (new_leap nu (Q2Qc (1 # 2))) 0 st_par) as [[log s]|] eqn:E; [|discriminate H].
  destruct (ldrive_times _ _ _ _ _ _ _ _ _ E) as (I1 & I2 & I3). destruct (ldrive_ok _ _ _ _ _ _ _ _ _ E) as (Hh & Hl).
  assert (Hb := proj1 (forallb_forall _ log) H). clear H E. exists log, s. split; [exact Hh|]. split.
  { intros e Hin. specialize (Hb e Hin). apply andb_true_iff in Hb as [B1 B2]. split; [apply proper_stateb_ok; exact B1|apply properb_ok; exact B2]. }
  split; [exact Hl|].
  split; [intros pre p e post Ee X c HG; eapply (I2 X (at_x_time _ _ _ HG)); exact Ee|].
  split; [intros k e He; destruct (I1 k e He) as (t & Ht & Hd); rewrite Hd, (par_clock k t Ht); reflexivity|].
  split; [apply par_rates|]. split; [apply par_lipschitz|]. split; [apply par_smooth|].
  split; [rewrite Hl; vm_compute; discriminate|]. split; [|vm_compute; discriminate].
  intros e post Ee. apply start_same. intros X HX. eapply I3; eauto.
Qed.

Lemma par_rk_case : exists k0 s' st', new_rk (T:=Qc) 3 = Ok k0 /\ after (ssp_rk cfg_0 prog_par) [] (k0, 0) = (k0, 0) /\
  proper_components prog_par /\ proper_state st_par /\
  in_a_row (ssp_rk cfg_0 prog_par) 250000 (k0, 0) st_par (times 0 250000 2) s' st' /\
  rates_by (at_x 2) par_rhs 250000 prog_par /\ lipschitz (at_x 2) (Q2Qc (2 # 1)) par_rhs /\
  smooth_solution (at_x 2) par_rhs 1%Qc 0 2000000 par_curve /\ bounded_rates (at_x 2) par_rhs (Q2Qc (4 # 1)) 0 2000000 par_curve /\
  (clock 0 250000 2 <= 2000000)%Z /\ (Q2Qc (250000 # 1000000) * Q2Qc (2 # 1) <= 1)%Qc /\ start_ok st_par /\
  (elapsed 250000 2 * (Q2Qc (2 # 1) * Q2Qc (2 # 1)) <= of_nat 2)%Qc.
Proof.
  assert (E : match ssp_rk cfg_0 prog_par (mkrk 3 (mkab 1 None []), 0) st_par 250000 with
              | (s1, Ok (_, new)) => let next := dset "time" (VTime 250000) new in
                  proper_stateb next && match ssp_rk cfg_0 prog_par s1 next 250000 with (_, Ok (_, new2)) => proper_stateb new2 | _ => false end
              | _ => false end = true) by (vm_compute; reflexivity).
  exists (mkrk 3 (mkab 1 None [])).
  destruct (ssp_rk cfg_0 prog_par (mkrk 3 (mkab 1 None []), 0) st_par 250000) as [s1 [[d1 new1]|e]] eqn:E1; [|discriminate E].
  cbv zeta in E. apply andb_true_iff in E as (P1 & E).
  destruct (ssp_rk cfg_0 prog_par s1 (dset "time" (VTime 250000) new1) 250000) as [s2 [[d2 new2]|e]] eqn:E2; [|discriminate E].
  exists s2, new2. split; [reflexivity|]. split; [reflexivity|]. split; [exact par_proper|]. split; [apply par_state|]. split.
  { change (times 0 250000 2) with [0%Z; 250000%Z]. cbn [in_a_row]. exists s1, d1, new1. split; [reflexivity|]. split; [exact E1|].
    exists (dset "time" (VTime 250000) new1). split; [intros X HX; apply dget_dset_neq; auto|].
    split; [apply proper_stateb_ok; exact P1|]. exists s2, d2, new2. split; [apply dget_dset_eq|]. split; [exact E2|].
    exists new2. split; auto. split; auto. apply proper_stateb_ok. exact E. }
  split; [apply par_rates|]. split; [apply par_lipschitz|]. split; [apply par_smooth|]. split; [apply par_bounded|].
  split; [vm_compute; discriminate|]. split; [vm_compute; discriminate|]. split; [apply start_same; auto|]. vm_compute. discriminate.
Qed.

Lemma par_linear_case : closed (at_x 2) par_operator /\ linear_rates (at_x 2) par_forcing par_operator 250000 prog_par /\
  forall X c, at_x 2 X c -> (row_size (par_operator X c) <= Q2Qc (2 # 1))%Qc.
Proof. split; [apply par_closed|]. split; [apply par_linear|apply par_rows]. Qed.
