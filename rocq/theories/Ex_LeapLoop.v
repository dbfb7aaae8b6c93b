(** Concrete cases for the property theorems about the main loop with Leapfrog (C80). *)
From Coq Require Import String List Bool Arith ZArith QArith Qcanon Lia.
From Verif Require Import Prelude PreludeFacts ArithM NdArray Units DataArrayM UnitsFacts ExampleRegistry Checks Components Composite Steppers SpecSteppers Basic MainLoop
  SpecMainLoop LeapLoop SpecLeapLoop LeapLoopMain Ex_Components Ex_Steppers.
Import ListNotations.
Open Scope string_scope.
Open Scope nat_scope.
Open Scope list_scope.

#[local] Existing Instance ex_registry | 5.

(** A process after the Leapfrog object: it counts its calls, and sets c. *)
Definition after_l : process (T:=Qc) nat := fun v st dt =>
  (S v, Ok ([("calls", scalar (Z.of_nat v) "m")], dset "c" (VDA (scalar (Z.of_nat v) "km")) st)).
Definition store_l (v : nat) (st : state Qc) : nat * res unit := (v, Ok tt).
Definition prog_l : icaller (T:=Qc) nat := ex_prog "kg" "g".
Definition st_l : state Qc := st_e "kg" "g".

Definition run_l (stop : Z) : ((leap Qc * nat) * nat * list (state Qc)) * option (res (state Qc)) :=
  leap_main_loop 9 cfg_0 prog_l [after_l] store_l stop 1000000 (new_leap nu_e half, 0) 0 st_l.

Lemma ex_after_proper : Forall (preserves 1000000 proper_state) [after_l].
Proof.
  constructor; [|constructor]. intros v st v' d new (N & W) H. unfold after_l in H. injection H as _ _ <-.
  split; [apply NoDup_dset; auto|]. intros X a Ha. destruct (String.eqb_spec X "c") as [->|Hne].
  - rewrite dget_dset_eq in Ha. injection Ha as <-. apply wf_dab_ok. vm_compute. reflexivity.
  - rewrite dget_dset_neq in Ha by auto. eauto.
Qed.

Lemma ex_after_keeps : Forall keeps_quantities [after_l].
Proof. constructor; [|constructor]. intros v st dt v' d new H X HX. unfold after_l in H. injection H as _ _ <-. apply In_keys_dset. auto. Qed.

Lemma ex_after_time : Forall leaves_time [after_l].
Proof. constructor; [|constructor]. intros v st dt v' d new H K. unfold after_l in H. injection H as _ <- _. destruct K as [K|[]]. discriminate K. Qed.

Lemma ex_prog_time : forall u st u' t d, prog_l u st 1000000%Z = (u', Ok (t, d)) -> ~ In "time" (keys d).
Proof.
  intros u st u' t d H K. unfold prog_l, ex_prog in H.
  destruct (dget "T" st) as [[a|]|]; try discriminate. destruct (dget "a" st) as [[b|]|]; try discriminate.
  destruct (dget "b" st) as [[c|]|]; try discriminate. destruct (dget "w" st) as [[e|]|]; try discriminate.
  destruct (has_units a "K" && has_units b "kg" && has_units c "g" && has_units e "m")%bool; [|discriminate]. injection H as _ _ <-. destruct K as [K|[]]. discriminate K.
Qed.

Definition outcome_l (x : ((leap Qc * nat) * nat * list (state Qc)) * option (res (state Qc))) : nat * option bool :=
  (length (snd (fst x)), option_map is_ok (snd x)).

(** Four passes. *)
Lemma ex_leap_loop : has_time 0 st_l /\ proper_state st_l /\ proper_components prog_l /\ Forall (preserves 1000000 proper_state) [after_l] /\
  (forall u st u' t d, prog_l u st 1000000%Z = (u', Ok (t, d)) -> ~ In "time" (keys d)) /\ Forall leaves_time [after_l] /\ Forall keeps_quantities [after_l] /\
  outcome_l (run_l 4000000) = (4, Some true).
Proof.
  split; [vm_compute; reflexivity|]. split; [apply proper_stateb_ok; vm_compute; reflexivity|]. split; [apply ex_prog_proper|].
  split; [exact ex_after_proper|]. split; [exact ex_prog_time|]. split; [exact ex_after_time|]. split; [exact ex_after_keeps|]. vm_compute. reflexivity.
Qed.

(** The first value of [X] in a state. *)
Definition first_of (X : string) (st : state Qc) : option Qc :=
  match dget X st with Some (VDA a) => match data (arr a) with x :: _ => Some x | [] => None end | _ => None end.

Definition differ (x y : option Qc) : bool := match x, y with Some a, Some b => negb (Qc_eqb a b) | _, _ => false end.
Lemma differ_ok : forall x y, differ x y = true -> x <> y.
Proof. intros [a|] [b|] H E; try discriminate. injection E as ->. cbn in H. rewrite (proj2 (Qc_eqb_eq b b) eq_refl) in H. discriminate. Qed.

Lemma unfiltered_ok : forall (r : option (res (state Qc))) (o : option (state Qc)),
  match r, o with
  | Some (Ok fin), Some S1 => differ (first_of "b" fin) (first_of "b" S1) &&
      match dget "time" fin, dget "time" S1 with Some (VTime t), Some (VTime t') => Z.eqb t 2000000 && Z.eqb t' 2000000 | _, _ => false end
  | _, _ => false
  end = true ->
  exists fin S1, r = Some (Ok fin) /\ o = Some S1 /\ has_time 2000000 fin /\ has_time 2000000 S1 /\ first_of "b" fin <> first_of "b" S1.
Proof.
  intros [[fin|]|] [S1|] K; try discriminate. apply andb_true_iff in K as [K1 K2]. exists fin, S1. split; auto. split; auto. unfold has_time.
  destruct (dget "time" fin) as [[|t]|]; try discriminate. destruct (dget "time" S1) as [[|t']|]; try discriminate.
  apply andb_true_iff in K2 as [E1 E2]. apply Z.eqb_eq in E1. apply Z.eqb_eq in E2. subst t t'. split; auto. split; auto. apply differ_ok; auto.
Qed.

(** The run to 00:00:02 ends with a state that the run to 00:00:03 does not give to its
    monitor: there it has been filtered. *)
Lemma ex_unfiltered_end : exists fin S1,
  snd (run_l 2000000) = Some (Ok fin) /\ nth_error (snd (fst (run_l 3000000))) 2 = Some S1 /\
  has_time 2000000 fin /\ has_time 2000000 S1 /\ first_of "b" fin <> first_of "b" S1.
Proof.
  apply unfiltered_ok. vm_compute. reflexivity.
Qed.

(** Continuing with the same objects. *)
Lemma ex_continue : exists s1 v1 log1 st1 s2 v2 log2 r,
  leap_main_loop 9 cfg_0 prog_l [after_l] store_l 2000000 1000000 (new_leap nu_e half, 0) 0 st_l = ((s1, v1, log1), Some (Ok st1)) /\
  leap_main_loop 9 cfg_0 prog_l [after_l] store_l 4000000 1000000 s1 v1 st1 = ((s2, v2, log2), r) /\ length log1 = 2 /\ length log2 = 2.
Proof.
  assert (K : match run_l 2000000 with
              | ((s1, v1, log1), Some (Ok st1)) => Nat.eqb (length log1) 2 &&
                  Nat.eqb (length (snd (fst (leap_main_loop 9 cfg_0 prog_l [after_l] store_l 4000000 1000000 s1 v1 st1)))) 2
              | _ => false end = true) by (vm_compute; reflexivity).
  change (leap_main_loop 9 cfg_0 prog_l [after_l] store_l 2000000 1000000 (new_leap nu_e half, 0) 0 st_l) with (run_l 2000000).
  revert K. generalize (run_l 2000000). intros [[[s1 v1] log1] [[st1|]|]] K; try discriminate.
  apply andb_true_iff in K as [K1 K2]. apply Nat.eqb_eq in K1. exists s1, v1, log1, st1.
  revert K2. generalize (leap_main_loop 9 cfg_0 prog_l [after_l] store_l 4000000 1000000 s1 v1 st1). intros [[[s2 v2] log2] r] K2. cbn [fst snd] in K2. apply Nat.eqb_eq in K2.
  exists s2, v2, log2, r. auto.
Qed.
