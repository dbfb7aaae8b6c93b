(** Concrete cases for C90. *)
From Coq Require Import String Ascii List Bool Arith ZArith QArith Qcanon Lia.
From Verif Require Import Prelude PreludeFacts ArithM NdArray NdFacts Units DataArrayM GetNp SpecUnits UnitsFacts ExampleRegistry Checks
  SpecDa DaFacts Components Composite SpecComposite Steppers SpecSteppers SteppersFacts RKFacts StepAlgebra StepRuns StepExact StepSteady
  Ex_Components Ex_Composite Ex_Steppers SpecOrder OrderMain.
Import ListNotations.
Open Scope string_scope.
Open Scope nat_scope.
Open Scope list_scope.

#[local] Existing Instance ex_registry | 5.

Definition seconds (now : Z) : Qc := Q2Qc (now # 1000000).

(** A forced oscillator: a' = b + time, b' = - a, at every point of x. *)
Definition prog_osc : icaller (T:=Qc) nat := fun u st dt =>
  (S u,
   match dget "time" st, dget "a" st, dget "b" st with
   | Some (VTime now), Some (VDA x), Some (VDA y) =>
       if (has_units x "kg" && has_units y "kg")%bool then
         Ok ([("a", tend_of y (fun v => (v + seconds now)%Qc) "kg s^-1");
              ("b", tend_of x (fun v => (- v)%Qc) "kg s^-1")], [])
       else Err EValue
   | _, _, _ => Err EKey
   end).

Definition osc_operator : operator := fun X c =>
  if String.eqb X "a" then [("b", c, 1%Qc)] else if String.eqb X "b" then [("a", c, (- (1))%Qc)] else [].

Definition osc_forcing (now : Z) : field := fun X c => if String.eqb X "a" then seconds now else 0%Qc.

Definition at_x (n : nat) : points := fun X c => (X = "a" \/ X = "b") /\ c "x" < n.

Lemma osc_closed : forall n, closed (at_x n) osc_operator.
Proof.
  intros n X c ([->| ->] & Hc); (split; [discriminate|]); intros X' c' w [E|[]]; injection E as <- <- _; split; auto.
Qed.

Lemma prog_osc_ok : forall u st dt u' tend diag, prog_osc u st dt = (u', Ok (tend, diag)) ->
  exists now x y, dget "time" st = Some (VTime now) /\ dget "a" st = Some (VDA x) /\ dget "b" st = Some (VDA y) /\
    (wf_da x /\ units_of x = Some "kg") /\ (wf_da y /\ units_of y = Some "kg") /\
    tend = [("a", tend_of y (fun v => (v + seconds now)%Qc) "kg s^-1"); ("b", tend_of x (fun v => (- v)%Qc) "kg s^-1")].
Proof.
  intros u st dt u' tend diag H. unfold prog_osc in H. injection H as _ H.
  destruct (dget "time" st) as [[|now]|]; try discriminate. destruct (dget "a" st) as [[x|]|]; try discriminate.
  destruct (dget "b" st) as [[y|]|]; try discriminate.
  destruct (has_units x "kg" && has_units y "kg")%bool eqn:E; [|discriminate].
  apply andb_true_iff in E as [E1 E2]. apply has_units_ok in E1, E2. injection H as <- _.
  exists now, x, y. repeat match goal with |- _ /\ _ => split end; tauto.
Qed.

Lemma osc_proper : proper_components prog_osc.
Proof.
  intros u st dt u' tend diag H. apply prog_osc_ok in H as (now & x & y & _ & _ & _ & [Wx _] & [Wy _] & ->).
  split; [apply nodupb_ok; vm_compute; reflexivity|]. intros X a Ha. apply dget_In in Ha.
  destruct Ha as [Ha|[Ha|[]]]; injection Ha as _ <-; apply wf_da_map; auto.
Qed.

Lemma osc_linear : forall n dt, linear_rates (at_x n) osc_forcing osc_operator dt prog_osc.
Proof.
  intros n dt u st u' tend diag now H Hh Ht X c HG.
  apply prog_osc_ok in H as (now' & x & y & Ht' & Ex & Ey & [Wx Ux] & [Wy Uy] & ->).
  rewrite Ht in Ht'. injection Ht' as <-. destruct HG as (HX & Hc).
  destruct (Hh "a" c (conj (or_introl eq_refl) Hc)) as (x' & Ex' & Gx). rewrite Ex in Ex'. injection Ex' as <-.
  destruct (Hh "b" c (conj (or_intror eq_refl) Hc)) as (y' & Ey' & Gy). rewrite Ey in Ey'. injection Ey' as <-.
  destruct HX as [-> | ->].
  - eexists. split; [reflexivity|]. split; [apply in_grid_map; auto|]. exists x, "kg". split; auto. split; auto.
    unfold tend_of. rewrite da_at_map by auto.
    replace (osc_forcing now "a" c + apply osc_operator (value st) "a" c)%Qc with (da_at y c + seconds now)%Qc.
    + eapply conv_same. reflexivity.
    + unfold osc_forcing, apply, osc_operator, weighted, value. cbn [String.eqb Ascii.eqb Bool.eqb fold_right]. rewrite Ey. ring.
  - eexists. split; [reflexivity|]. split; [apply in_grid_map; auto|]. exists y, "kg". split; auto. split; auto.
    unfold tend_of. rewrite da_at_map by auto.
    replace (osc_forcing now "b" c + apply osc_operator (value st) "b" c)%Qc with (- da_at x c)%Qc.
    + eapply conv_same. reflexivity.
    + unfold osc_forcing, apply, osc_operator, weighted, value. cbn [String.eqb Ascii.eqb Bool.eqb fold_right]. rewrite Ex. ring.
Qed.

Definition st_osc (now : Z) : state Qc :=
  [ ("time", VTime now);
    ("a", VDA (mkda ["x"] (mknd [2] [cz 7; cz 11]) [("units", "kg")]));
    ("b", VDA (mkda ["x"] (mknd [2] [cz 3; cz 5]) [("units", "kg")])) ].

Lemma osc_state : forall now, proper_state (st_osc now) /\ holds_points (at_x 2) (st_osc now) /\
  dget "time" (st_osc now) = Some (VTime now).
Proof.
  intros now. split; [split|split; [|reflexivity]].
  - apply nodupb_ok. vm_compute. reflexivity.
  - intros X a Ha. apply dget_In in Ha.
    destruct Ha as [Ha|[Ha|[Ha|[]]]]; [discriminate Ha|injection Ha as _ <-|injection Ha as _ <-]; apply wf_dab_ok; vm_compute; reflexivity.
  - intros X c ([-> | ->] & Hc); (eexists; split; [reflexivity|]); intros d k Hd; vm_compute in Hd;
      destruct d as [|[[] [] [] [] [] [] [] []] [|]]; try discriminate Hd; injection Hd as <-; exact Hc.
Qed.

(** One step of half a second at two seconds: the values of the theorem, computed by hand at the first point. *)
Lemma osc_hyps : forall z, z = 2%Z \/ z = 3%Z -> exists k0 s' diag new,
  new_rk (T:=Qc) z = Ok k0 /\ after (ssp_rk cfg_0 prog_osc) [] (k0, 0) = (k0, 0) /\
  proper_components prog_osc /\ proper_state (st_osc 2000000) /\
  ssp_rk cfg_0 prog_osc (k0, 0) (st_osc 2000000) 500000 = (s', Ok (diag, new)) /\
  closed (at_x 2) osc_operator /\ linear_rates (at_x 2) osc_forcing osc_operator 500000 prog_osc /\
  holds_points (at_x 2) (st_osc 2000000) /\ dget "time" (st_osc 2000000) = Some (VTime 2000000) /\ at_x 2 "a" (fun _ => 0) /\
  value new "a" (fun _ => 0) = (cz 7 + Q2Qc (1 # 2) * cz 5 - Q2Qc (1 # 8) * cz 7 - match z with 3%Z => Q2Qc (1 # 48) * cz 5 | _ => 0 end)%Qc.
Proof.
  intros z Hz.
  assert (K : exists k0, new_rk (T:=Qc) z = Ok k0) by (destruct Hz as [-> | ->]; eexists; reflexivity). destruct K as (k0 & K).
  assert (E : match ssp_rk cfg_0 prog_osc (k0, 0) (st_osc 2000000) 500000 with
              | (_, Ok (_, new)) => Qc_eqb (value new "a" (fun _ => 0))
                  (cz 7 + Q2Qc (1 # 2) * cz 5 - Q2Qc (1 # 8) * cz 7 - match z with 3%Z => Q2Qc (1 # 48) * cz 5 | _ => 0 end)%Qc
              | _ => false end = true).
  { destruct Hz as [-> | ->]; injection K as <-; vm_compute; reflexivity. }
  destruct (ssp_rk cfg_0 prog_osc (k0, 0) (st_osc 2000000) 500000) as [s' [[diag new]|e]] eqn:E1; [|discriminate E].
  exists k0, s', diag, new. destruct (osc_state 2000000) as (S1 & S2 & S3).
  split; auto. split; [reflexivity|]. split; [exact osc_proper|]. split; auto. split; auto. split; [apply osc_closed|].
  split; [apply osc_linear|]. split; auto. split; auto. split; [split; [auto|apply Nat.lt_0_succ]|].
  apply Qc_eq_bool_correct. exact E.
Qed.

(** Two steps, the caller setting the time between them. *)
Lemma osc_run : exists k0 s' st', new_rk (T:=Qc) 3 = Ok k0 /\
  in_a_row (ssp_rk cfg_0 prog_osc) 500000 (k0, 0) (st_osc 2000000) [2000000%Z; 2500000%Z] s' st'.
Proof.
  assert (E : match ssp_rk cfg_0 prog_osc (mkrk 3 (mkab 1 None []), 0) (st_osc 2000000) 500000 with
              | (s1, Ok (_, new)) => let next := dset "time" (VTime 2500000) new in
                  proper_stateb next && match ssp_rk cfg_0 prog_osc s1 next 500000 with (_, Ok (_, new2)) => proper_stateb new2 | _ => false end
              | _ => false end = true) by (vm_compute; reflexivity).
  exists (mkrk 3 (mkab 1 None [])).
  destruct (ssp_rk cfg_0 prog_osc (mkrk 3 (mkab 1 None []), 0) (st_osc 2000000) 500000) as [s1 [[d1 new1]|e]] eqn:E1; [|discriminate E].
  cbv zeta in E. apply andb_true_iff in E as (P1 & E).
  destruct (ssp_rk cfg_0 prog_osc s1 (dset "time" (VTime 2500000) new1) 500000) as [s2 [[d2 new2]|e]] eqn:E2; [|discriminate E].
  exists s2, new2. split; [reflexivity|]. cbn [in_a_row]. exists s1, d1, new1. split; [reflexivity|]. split; [exact E1|].
  exists (dset "time" (VTime 2500000) new1). split; [intros X HX; apply dget_dset_neq; auto|].
  split; [apply proper_stateb_ok; exact P1|]. exists s2, d2, new2. split; [apply dget_dset_eq|]. split; [exact E2|].
  exists new2. split; auto. split; auto. apply proper_stateb_ok. exact E.
Qed.

(** a' = time. *)
Definition prog_clock : icaller (T:=Qc) nat := fun u st dt =>
  (S u,
   match dget "time" st, dget "a" st with
   | Some (VTime now), Some (VDA x) =>
       if has_units x "kg" then Ok ([("a", tend_of x (fun _ => seconds now) "kg s^-1")], []) else Err EValue
   | _, _ => Err EKey
   end).

Definition at_a : points := fun X c => X = "a" /\ c "x" < 2.

Lemma clock_linear : forall p dt, (forall now, peval (pderiv p) (seconds now) = seconds now) ->
  linear_rates at_a (fun now _ _ => peval (pderiv p) (seconds now)) (fun _ _ => []) dt prog_clock.
Proof.
  intros p dt Hp u st u' tend diag now H Hh Ht X c HG. rewrite Hp. unfold prog_clock in H. injection H as _ H. rewrite Ht in H.
  destruct (Hh X c HG) as (x & Ex & Gx). destruct HG as (-> & Hc). rewrite Ex in H.
  destruct (has_units x "kg") eqn:E; [|discriminate H]. apply has_units_ok in E as (Wx & Ux). injection H as <- _.
  eexists. split; [reflexivity|]. split; [apply in_grid_map; auto|]. exists x, "kg". split; auto. split; auto.
  unfold tend_of. rewrite da_at_map by auto. rewrite no_operator.
  replace (seconds now + 0)%Qc with (seconds now) by ring. eapply conv_same. reflexivity.
Qed.

Lemma clock_proper : proper_components prog_clock.
Proof.
  intros u st dt u' tend diag H. unfold prog_clock in H. injection H as _ H.
  destruct (dget "time" st) as [[|now]|]; try discriminate H. destruct (dget "a" st) as [[x|]|]; try discriminate H.
  destruct (has_units x "kg") eqn:E; [|discriminate H]. apply has_units_ok in E as (Wx & Ux). injection H as <- _.
  split; [apply nodupb_ok; vm_compute; reflexivity|]. intros X a Ha. apply dget_In in Ha.
  destruct Ha as [Ha|[]]; injection Ha as _ <-; apply wf_da_map; auto.
Qed.

Definition st_clock : state Qc :=
  [("time", VTime 0%Z); ("a", VDA (mkda ["x"] (mknd [2] [cz 0; cz 0]) [("units", "kg")]))].

Lemma clock_state : proper_state st_clock /\ holds_points at_a st_clock.
Proof.
  split.
  - apply proper_stateb_ok. vm_compute. reflexivity.
  - intros X c (-> & Hc). eexists. split; [reflexivity|]. intros d k Hd. vm_compute in Hd.
    destruct d as [|[[] [] [] [] [] [] [] []] [|]]; try discriminate Hd; injection Hd as <-; exact Hc.
Qed.

Lemma clock_runs : match ssp_rk cfg_0 prog_clock (mkrk 3 (mkab 1 None []), 0) st_clock 1000000 with
  | (_, Ok (_, new)) => Qc_eqb (value new "a" (fun _ => 0)) 0%Qc | _ => false end = true.
Proof. vm_compute. reflexivity. Qed.

Lemma clock_late : exists (prog : icaller (T:=Qc) nat) k st s' diag new X c p,
  new_rk (T:=Qc) 3 = Ok k /\ proper_components prog /\ proper_state st /\ X <> "time" /\
  (exists G, G X c /\ holds_points G st /\
     forall dt, linear_rates G (fun now _ _ => peval (pderiv p) (seconds now)) (fun _ _ => []) dt prog) /\
  dget "time" st = Some (VTime 0) /\ ssp_rk cfg_0 prog (k, 0) st 1000000 = (s', Ok (diag, new)) /\
  length p = 3 /\ value st X c = peval p (seconds 0) /\ value new X c <> peval p (seconds 1000000).
Proof.
  exists prog_clock, (mkrk 3 (mkab 1 None [])), st_clock. assert (E := clock_runs).
  destruct (ssp_rk cfg_0 prog_clock (mkrk 3 (mkab 1 None []), 0) st_clock 1000000) as [s' [[diag new]|e]] eqn:E1; [|discriminate E].
  exists s', diag, new, "a", (fun _ => 0), [0%Qc; 0%Qc; Q2Qc (1 # 2)].
  split; [reflexivity|]. split; [exact clock_proper|]. split; [apply clock_state|]. split; [discriminate|]. split.
  { exists at_a. split; [split; [reflexivity|apply Nat.lt_0_succ]|]. split; [apply clock_state|]. intros dt. apply clock_linear.
    intros now. cbn [pderiv pderiv_from peval]. generalize (seconds now). intros q. qc_ring. }
  split; [reflexivity|]. split; [reflexivity|]. split; [reflexivity|]. split; [apply Qc_is_canon; reflexivity|].
  apply Qc_eq_bool_correct in E. rewrite E. intros F. apply (f_equal this) in F. vm_compute in F. discriminate F.
Qed.
