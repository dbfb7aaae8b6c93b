(** Property theorems about single calls on part of the grid that return (C98). *)
From Coq Require Import String List Bool Arith ZArith QArith Qcanon.
From Verif Require Import Prelude ArithM NdArray Units DataArrayM ExampleRegistry SpecArrays Tracers Components SpecComponents SpecCalls SpecColumns Composite Steppers MainLoop LeapLoop Composite Steppers MainLoop SpecFollow Ex_Follow Ex_Columns Ex_Region SpecColumns SpecRegion SpecServe FollowCalls Ex_FollowCalls.
Import ListNotations.
Open Scope string_scope.
Open Scope nat_scope.
Open Scope list_scope.

#[local] Existing Instance ex_registry | 5.

(** C98: if array_call works column by column and returns on the small grid whenever it returns on the large one, then the call of the component on the part returns when the call on the whole state does. *)
Theorem c98_component_returns : forall {T : Type} {A : Arith T} {R : Registry} (g : cut) (big small : string -> nat) {U} tg c (ac : U -> dict (rval T) -> Z -> U * res (dict (nd T) * dict (nd T))),
  whole_kept g -> t_packer c = None -> proper_inputs (t_inp c) -> plain_inputs (t_inp c) ->
  NoDup (keys (t_tend c)) -> stars_ok (t_tend c) (t_inp c) -> NoDup (keys (t_diag c)) -> stars_ok (t_diag c) (t_inp c) ->
  column_physics g (t_inp c) (t_tend c) -> column_physics g (t_inp c) (t_diag c) ->
  (forall u dt, columnwise (t_inp c) (t_tend c) (fun raw out => exists v d, ac u raw dt = (v, Ok (out, d)))) ->
  (forall u dt, columnwise (t_inp c) (t_diag c) (fun raw out => exists v t, ac u raw dt = (v, Ok (t, out)))) ->
  (forall u raw raw' dt, fst (ac u raw dt) = fst (ac u raw' dt)) -> serves (t_inp c) ac ->
  forall u st st' dt u' x, part_state g st st' -> sized_state g big small st st' ->
  tendency_call tg c (fun u raw => ac u raw dt) u st = (u', Ok x) ->
  exists y, tendency_call tg c (fun u raw => ac u raw dt) u st' = (u', Ok y).
Proof. exact @follow_component. Qed.
Print Assumptions c98_component_returns.

(** C98: so for a stepper. *)
Theorem c98_stepper_returns : forall {T : Type} {A : Arith T} {R : Registry} (g : cut) (big small : string -> nat) {U} tg c (ac : U -> dict (rval T) -> Z -> U * res (dict (nd T) * dict (nd T))),
  whole_kept g -> s_packer c = None -> s_tid c = false -> proper_inputs (s_inp c) -> plain_inputs (s_inp c) ->
  NoDup (keys (s_out c)) -> stars_ok (s_out c) (s_inp c) -> NoDup (keys (s_diag c)) -> stars_ok (s_diag c) (s_inp c) ->
  column_physics g (s_inp c) (s_out c) -> column_physics g (s_inp c) (s_diag c) ->
  (forall u dt, columnwise (s_inp c) (s_out c) (fun raw out => exists v d, ac u raw dt = (v, Ok (d, out)))) ->
  (forall u dt, columnwise (s_inp c) (s_diag c) (fun raw out => exists v n, ac u raw dt = (v, Ok (out, n)))) ->
  (forall u raw raw' dt, fst (ac u raw dt) = fst (ac u raw' dt)) -> serves (s_inp c) ac ->
  forall u st st' dt u' x, part_state g st st' -> sized_state g big small st st' ->
  stepper_call tg c ac u st dt = (u', Ok x) ->
  exists y, stepper_call tg c ac u st' dt = (u', Ok y).
Proof. exact @follow_stepper. Qed.
Print Assumptions c98_stepper_returns.

(** Heating that depends on the whole column, on a 2 by 3 grid of columns and on one of its columns. *)
Example c98_calls_setting : plain_inputs inp_l /\ serves inp_l ac_r /\ serves inp_l ac_rs /\ part_state g_1 st_r st_1 /\ sized_state g_1 big_r small_1 st_r st_1.
Proof. exact fc_setting. Qed.

(** The call on the column returns because the call on the grid does, and its outputs are the part of those. *)
Example c98_component_returns_case : exists u' t d t' d', prog_r 0 st_r sec_r = (u', Ok (t, d)) /\ prog_r 0 st_1 sec_r = (u', Ok (t', d')) /\ part_dict g_1 t t' /\ length t' = 1 /\ length d' = 1.
Proof. exact fc_component. Qed.

(** So for the stepper. *)
Example c98_stepper_returns_case : exists u' d n d' n', stepper_call empty_treg s_r ac_rs 0 st_r sec_r = (u', Ok (d, n)) /\ stepper_call empty_treg s_r ac_rs 0 st_1 sec_r = (u', Ok (d', n')).
Proof. exact fc_stepper. Qed.
