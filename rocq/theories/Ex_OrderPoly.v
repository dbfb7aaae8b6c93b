(** Concrete cases for C90: a nonlinear system. *)
From Coq Require Import String Ascii List Bool Arith ZArith QArith Qcanon Lia.
From Verif Require Import Prelude PreludeFacts ArithM NdArray NdFacts Units DataArrayM GetNp SpecUnits UnitsFacts ExampleRegistry Checks
  SpecDa DaFacts Components Composite SpecComposite Steppers SpecSteppers SteppersFacts RKFacts StepAlgebra StepRuns StepExact StepSteady
  Ex_Components Ex_Composite Ex_Steppers SpecOrder SpecOrderPoly OrderMain OrderPoly Ex_Order.
Import ListNotations.
Open Scope string_scope.
Open Scope nat_scope.
Open Scope list_scope.

#[local] Existing Instance ex_registry | 5.

Definition number (q : Qc) (u : string) : da Qc := mkda [] (mknd [] [q]) [("units", u)].

Definition here : string -> nat := fun _ => 0.

(** Prey and predators: a' = a - a b + time, b' = a b - b. *)
Definition prog_prey : icaller (T:=Qc) nat := fun u st dt =>
  (S u,
   match dget "time" st, dget "a" st, dget "b" st with
   | Some (VTime now), Some (VDA x), Some (VDA y) =>
       if (has_units x "kg" && has_units y "kg" && Nat.eqb (length (dims x)) 0 && Nat.eqb (length (dims y)) 0)%bool then
         Ok ([("a", number (da_at x here - da_at x here * da_at y here + seconds now)%Qc "kg s^-1");
              ("b", number (da_at x here * da_at y here - da_at y here)%Qc "kg s^-1")], [])
       else Err EValue
   | _, _, _ => Err EKey
   end).

Definition both : points := fun X c => X = "a" \/ X = "b".

Definition minus_one : rhs := Const (- (1))%Qc.

Definition prey : system := fun now X c =>
  if String.eqb X "a"
  then Plus (Plus (Value "a" c) (Times minus_one (Times (Value "a" c) (Value "b" c)))) (Const (seconds now))
  else Plus (Times (Value "a" c) (Value "b" c)) (Times minus_one (Value "b" c)).

Lemma prey_closed : closed_system both prey.
Proof. intros now X c [->| ->]; (split; [discriminate|]); cbn; unfold both; tauto. Qed.

Lemma no_dims_at : forall (x : da Qc) c, dims x = [] -> da_at x c = da_at x here.
Proof. intros x c H. unfold da_at. rewrite H. reflexivity. Qed.

Lemma no_dims_grid : forall (x : da Qc) c, dims x = [] -> in_grid x c.
Proof. intros x c H d n Hd. unfold dim_len in Hd. rewrite H in Hd. discriminate Hd. Qed.

Lemma prey_ok : forall u st dt u' tend diag, prog_prey u st dt = (u', Ok (tend, diag)) ->
  exists now x y, dget "time" st = Some (VTime now) /\ dget "a" st = Some (VDA x) /\ dget "b" st = Some (VDA y) /\
    units_of x = Some "kg" /\ units_of y = Some "kg" /\ dims x = [] /\ dims y = [] /\
    tend = [("a", number (da_at x here - da_at x here * da_at y here + seconds now)%Qc "kg s^-1");
            ("b", number (da_at x here * da_at y here - da_at y here)%Qc "kg s^-1")].
Proof.
  intros u st dt u' tend diag H. unfold prog_prey in H. injection H as _ H.
  destruct (dget "time" st) as [[|now]|]; try discriminate H. destruct (dget "a" st) as [[x|]|]; try discriminate H.
  destruct (dget "b" st) as [[y|]|]; try discriminate H.
  destruct (has_units x "kg" && has_units y "kg" && Nat.eqb (length (dims x)) 0 && Nat.eqb (length (dims y)) 0)%bool eqn:E; [|discriminate H].
  apply andb_true_iff in E as [E E4]. apply andb_true_iff in E as [E E3]. apply andb_true_iff in E as [E1 E2].
  apply has_units_ok in E1 as (_ & E1), E2 as (_ & E2). apply Nat.eqb_eq, length_zero_iff_nil in E3, E4. injection H as <- _.
  exists now, x, y. repeat match goal with |- _ /\ _ => split end; auto.
Qed.

Lemma prey_proper : proper_components prog_prey.
Proof.
  intros u st dt u' tend diag H. apply prey_ok in H as (now & x & y & _ & _ & _ & _ & _ & _ & _ & ->).
  split; [apply nodupb_ok; vm_compute; reflexivity|]. intros X a Ha. apply dget_In in Ha.
  destruct Ha as [Ha|[Ha|[]]]; injection Ha as _ <-; apply wf_dab_ok; reflexivity.
Qed.

Lemma prey_rates : forall dt, rates_from both prey dt prog_prey.
Proof.
  intros dt u st u' tend diag now H Hh Ht X c HG.
  apply prey_ok in H as (now' & x & y & Ht' & Ex & Ey & Ux & Uy & Dx & Dy & ->).
  rewrite Ht in Ht'. injection Ht' as <-. destruct HG as [-> | ->].
  - eexists. split; [reflexivity|]. split; [apply no_dims_grid; reflexivity|]. exists x, "kg". split; auto. split; auto.
    change (da_at (number _ _) c) with (da_at x here - da_at x here * da_at y here + seconds now)%Qc.
    replace (eval (value st) (prey now "a" c)) with (da_at x here - da_at x here * da_at y here + seconds now)%Qc.
    + eapply conv_same. reflexivity.
    + unfold prey, minus_one, value. cbn [String.eqb Ascii.eqb Bool.eqb eval]. rewrite Ex, Ey, !(no_dims_at _ c) by assumption. ring.
  - eexists. split; [reflexivity|]. split; [apply no_dims_grid; reflexivity|]. exists y, "kg". split; auto. split; auto.
    change (da_at (number _ _) c) with (da_at x here * da_at y here - da_at y here)%Qc.
    replace (eval (value st) (prey now "b" c)) with (da_at x here * da_at y here - da_at y here)%Qc.
    + eapply conv_same. reflexivity.
    + unfold prey, minus_one, value. cbn [String.eqb Ascii.eqb Bool.eqb eval]. rewrite Ex, Ey, !(no_dims_at _ c) by assumption. ring.
Qed.

Definition st_prey : state Qc := [("time", VTime 1000000); ("a", VDA (number (cz 2) "kg")); ("b", VDA (number (cz 3) "kg"))].

Definition v_prey : field := fun X c => if String.eqb X "a" then cz 2 else cz 3.

Lemma prey_state : proper_state st_prey /\ holds_points both st_prey /\ dget "time" st_prey = Some (VTime 1000000) /\
  forall X c, both X c -> value st_prey X c = v_prey X c.
Proof.
  split; [apply proper_stateb_ok; reflexivity|]. split; [|split; [reflexivity|]].
  - intros X c [-> | ->]; (eexists; split; [reflexivity|]); apply no_dims_grid; reflexivity.
  - intros X c [-> | ->]; reflexivity.
Qed.

Lemma prey_hyps : forall z dt, (z = 2 /\ dt = 500000 \/ z = 3 /\ dt = 500000 \/ z = 3 /\ dt = 100000)%Z -> exists k0 s' diag new,
  closed_system both prey /\ new_rk (T:=Qc) z = Ok k0 /\ after (ssp_rk cfg_0 prog_prey) [] (k0, 0) = (k0, 0) /\
  proper_components prog_prey /\ proper_state st_prey /\ rates_from both prey dt prog_prey /\
  holds_points both st_prey /\ dget "time" st_prey = Some (VTime 1000000) /\
  (forall X c, both X c -> value st_prey X c = v_prey X c) /\
  ssp_rk cfg_0 prog_prey (k0, 0) st_prey dt = (s', Ok (diag, new)).
Proof.
  intros z dt Hz. assert (K : exists k0, new_rk (T:=Qc) z = Ok k0) by (destruct Hz as [[-> _]|[[-> _]|[-> _]]]; eexists; reflexivity).
  destruct K as (k0 & K).
  assert (E : match ssp_rk cfg_0 prog_prey (k0, 0) st_prey dt with (_, Ok _) => true | _ => false end = true).
  { destruct Hz as [[-> ->]|[[-> ->]|[-> ->]]]; injection K as <-; vm_compute; reflexivity. }
  destruct (ssp_rk cfg_0 prog_prey (k0, 0) st_prey dt) as [s' [[diag new]|e]] eqn:E1; [|discriminate E].
  exists k0, s', diag, new. destruct prey_state as (S1 & S2 & S3 & S4).
  split; [exact prey_closed|]. split; auto. split; [reflexivity|]. split; [exact prey_proper|]. split; auto.
  split; [apply prey_rates|]. split; auto.
Qed.

(** The solution from these values: a = 2 - 3 t - 3 t^2 + ..., by hand: a' = 2 - 6 + 1 = -3,
    a'' = a' - a' b - a b' = -3 + 9 - 2 * 3 = 0 with b' = 6 - 3 = 3, b'' = a' b + a b' - b' = -9 + 6 - 3 = -6. *)
Lemma prey_curve : forall P, solves 2 both prey 1000000 v_prey P ->
  coef 0 (P "a" here) = cz 2 /\ coef 1 (P "a" here) = cz (-3) /\ coef 2 (P "a" here) = cz 0 /\
  coef 0 (P "b" here) = cz 3 /\ coef 1 (P "b" here) = cz 3 /\ coef 2 (P "b" here) = cz (-3).
Proof.
  intros P H. set (Q := rk2_curve (prey 1000000%Z) v_prey).
  assert (HQ : solves 2 both prey 1000000 v_prey Q) by (intros X c _; apply rk2_solves).
  assert (U := solves_unique 2 both prey 1000000 v_prey P Q prey_closed H HQ).
  rewrite !(U "a" here) by (try lia; left; reflexivity). rewrite !(U "b" here) by (try lia; right; reflexivity).
  repeat split; apply Qc_is_canon; vm_compute; reflexivity.
Qed.
