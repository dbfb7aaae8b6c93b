(** Concrete cases for single calls on part of the grid that return (C98). *)
From Coq Require Import String List Bool Arith ZArith QArith Qcanon.
From Verif Require Import Prelude PreludeFacts ArithM NdArray Units DataArrayM ExampleRegistry Tracers Components Composite Steppers MainLoop Checks SpecColumns Ex_Columns SpecRegion RegionFacts RegionMain RegionCalls Ex_Region SpecFollow FollowFacts FollowMain Ex_Follow SpecServe FollowCalls.
Import ListNotations.
Open Scope string_scope.
Open Scope nat_scope.
Open Scope list_scope.

#[local] Existing Instance ex_registry | 5.

(** Heating that depends on the whole column, on a 2 by 3 grid of columns and on one of its columns. *)
Lemma fc_setting : plain_inputs inp_l /\ serves inp_l ac_r /\ serves inp_l ac_rs /\ part_state g_1 st_r st_1 /\ sized_state g_1 big_r small_1 st_r st_1.
Proof.
  split. { split; [ | apply input_dim_l; auto].
    intros name p ds [E|[E|[]]] Hd; injection E as <- <-; cbn in Hd; injection Hd as <-; apply nodupb_ok; reflexivity. }
  split; [ | split; [ | split; [exact (proj1 column_part) | exact column_sized]]];
    intros u dt raw raw' lens lens' o1 o2 _ _ _ E; injection E as <- <-; do 2 eexists; (split; [reflexivity | split; reflexivity]).
Qed.

(** The call on the column returns because the call on the grid does, and its outputs are the part of those. *)
Lemma fc_component : exists u' t d t' d', prog_r 0 st_r sec_r = (u', Ok (t, d)) /\ prog_r 0 st_1 sec_r = (u', Ok (t', d')) /\ part_dict g_1 t t' /\ length t' = 1 /\ length d' = 1.
Proof.
  destruct (heat_setting g_1 eq_refl eq_refl eq_refl (fun _ => eq_refl)) as (H0 & H1 & H2 & H3 & H4 & H5 & H6 & H7 & H8 & H9 & H10 & H11 & H12 & H13 & H14).
  destruct fc_setting as (P & S1 & _ & Hp & Hs).
  assert (X : match prog_r 0 st_r sec_r with (_, Ok (t, d)) => length t = 1 /\ length d = 1 | _ => False end) by (vm_compute; auto).
  destruct (prog_r 0 st_r sec_r) as [u' [[t d] | e]] eqn:E; [ | destruct X].
  destruct (follow_component g_1 big_r small_1 empty_treg c_r ac_r H0 H1 H2 P H3 H4 H5 H6 H7 H10 H11 H12 H14 S1 0 st_r st_1 sec_r u' (t, d) Hp Hs E) as ([t' d'] & E').
  destruct (proj1 (proj2 column_local) 0 0 st_r st_1 sec_r u' u' t d t' d' eq_refl Hp E E') as (_ & K1 & K2).
  exists u', t, d, t', d'. split; [reflexivity | split; [exact E' | split; [exact K1 | ]]].
  assert (L : forall (R : _ -> _ -> Prop) (a b : dict (da Qc)), Forall2 R a b -> length b = length a) by (intros R a b H; induction H; cbn [length]; congruence).
  split; [rewrite (L _ _ _ K1); apply X | rewrite (L _ _ _ K2); apply X].
Qed.

(** So for the stepper. *)
Lemma fc_stepper : exists u' d n d' n', stepper_call empty_treg s_r ac_rs 0 st_r sec_r = (u', Ok (d, n)) /\ stepper_call empty_treg s_r ac_rs 0 st_1 sec_r = (u', Ok (d', n')).
Proof.
  destruct (heat_setting g_1 eq_refl eq_refl eq_refl (fun _ => eq_refl)) as (H0 & H1 & H2 & H3 & H4 & H5 & H6 & H7 & H8 & H9 & H10 & _).
  destruct s_setting as (_ & _ & _ & _ & _ & _ & _ & _ & _ & _ & _ & _ & H11 & H12 & _ & H14 & _).
  destruct fc_setting as (P & _ & S1 & Hp & Hs).
  assert (X : match stepper_call empty_treg s_r ac_rs 0 st_r sec_r with (_, Ok _) => True | _ => False end) by (vm_compute; auto).
  destruct (stepper_call empty_treg s_r ac_rs 0 st_r sec_r) as [u' [[d n] | e]] eqn:E; [ | destruct X].
  destruct (follow_stepper g_1 big_r small_1 empty_treg s_r ac_rs H0 eq_refl eq_refl H2 P H3 H4 H5 H6 H7 H10 H11 H12 H14 S1 0 st_r st_1 sec_r u' (d, n) Hp Hs E) as ([d' n'] & E').
  exists u', d, n, d', n'. split; [reflexivity | exact E'].
Qed.
