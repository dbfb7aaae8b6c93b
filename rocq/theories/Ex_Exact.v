(** Concrete cases for the exact statements (C06, C07, C10, C15, C27, C47). *)
From Coq Require Import String List Bool Arith ZArith QArith Qcanon Lia Permutation.
From Verif Require Import Prelude PreludeFacts ArithM NdArray NdFacts Units DataArrayM SpecArrays Wildcard GetNp Restore InitNp
  ExampleRegistry Checks Tracers SpecTracers Components SpecComponents SpecCalls Composite Steppers SpecSteppers
  Ex_Arrays Ex_Components Ex_Steppers Ex_Tracers.
Import ListNotations.
Open Scope string_scope.
Open Scope nat_scope.
Open Scope list_scope.

#[local] Existing Instance ex_registry | 5.

(** The raw arrays of [raw_ex], temperature with its axes exchanged and column_mass split. *)
Definition raw_turned : dict (nd Qc) :=
  [ ("T", ramp [2; 6]); ("column_mass", ramp [2; 3]); ("profile", ramp [2]) ].

Lemma ex_shape_ignored : wf_state st_ex /\ NoDup (keys outp_ex) /\
  (forall name ds, declared_dims outp_ex pd_ex name ds ->
     dget (out_key outp_ex pd_ex name) raw_turned = dget (out_key outp_ex pd_ex name) raw_ex \/
     In "*" ds /\ dims_known st_ex pd_ex ds /\ exists ra ra', dget (out_key outp_ex pd_ex name) raw_ex = Some ra /\
       dget (out_key outp_ex pd_ex name) raw_turned = Some ra' /\ data ra' = data ra /\ prod (shape ra') = prod (shape ra)) /\
  is_ok (restore_data_arrays_with_properties raw_turned outp_ex st_ex pd_ex [] false) = true /\
  option_map (fun a => shape a) (dget "T" raw_ex) = Some [6; 2] /\ option_map (fun a => shape a) (dget "T" raw_turned) = Some [2; 6].
Proof.
  split; [apply wf_stateb_ok; reflexivity|]. split; [apply nodupb_ok; reflexivity|]. split; [|split; [vm_compute; reflexivity|split; reflexivity]].
  intros name ds (p & Hp & H). cbn [outp_ex dget] in Hp.
  destruct (String.eqb_spec name "temperature") as [->|N1].
  - injection Hp as <-. destruct H as [H|(_ & q & Hq & H)]; [discriminate|]. injection Hq as <-. injection H as <-. right.
    split; [left; reflexivity|]. split; [apply dims_knownb_ok; reflexivity|]. exists (ramp [6; 2]), (ramp [2; 6]). repeat split; reflexivity.
  - destruct (String.eqb_spec name "column_mass") as [->|N2].
    + injection Hp as <-. destruct H as [H|(H & _)]; [|discriminate]. injection H as <-. right.
      split; [left; reflexivity|]. split; [apply dims_knownb_ok; reflexivity|]. exists (ramp [6]), (ramp [2; 3]). repeat split; reflexivity.
    + destruct (String.eqb_spec name "profile") as [->|N3]; [|discriminate]. left. reflexivity.
Qed.

Lemma ex_row_major : exists out, restore_data_arrays_with_properties raw_turned outp_ex st_ex pd_ex [] false = Ok out /\
  exists q, dget "temperature" out = Some q /\ dims q = ["y"; "x"; "z"] /\ data (arr q) = data (ramp [2; 6]).
Proof.
  assert (H : match restore_data_arrays_with_properties raw_turned outp_ex st_ex pd_ex [] false with
              | Ok out => match dget "temperature" out with
                          | Some q => da_eqb q (mkda ["y"; "x"; "z"] (mknd [2; 3; 2] (data (ramp [2; 6]))) [("units", "degF")])
                          | None => false
                          end
              | Err _ => false
              end = true) by (vm_compute; reflexivity).
  destruct (restore_data_arrays_with_properties raw_turned outp_ex st_ex pd_ex [] false) as [out|]; [|discriminate H]. exists out. split; auto.
  destruct (dget "temperature" out) as [q|]; [|discriminate H]. exists q. split; auto.
  apply da_eqb_ok in H. subst q. split; reflexivity.
Qed.

Lemma ex_initialised : exists raw out, NoDup (keys outp_alias) /\ @get_numpy_arrays_with_properties Qc ArithQc table_registry st_ex pd_plain = Ok raw /\
  initialize_numpy_arrays_with_properties outp_alias raw pd_plain None [] = Ok out /\
  In "column_mass" (keys outp_alias) /\ ~ In (out_key outp_alias pd_plain "column_mass") (keys outp_alias).
Proof.
  destruct (is_ok_ex (@get_numpy_arrays_with_properties Qc ArithQc table_registry st_ex pd_plain)) as (raw & Hraw); [reflexivity|].
  destruct (is_ok_ex (initialize_numpy_arrays_with_properties outp_alias raw pd_plain None [])) as (out & Hout).
  { vm_compute in Hraw. injection Hraw as <-. vm_compute. reflexivity. }
  exists raw, out. split; [apply nodupb_ok; reflexivity|]. split; auto. split; auto. split; [left; reflexivity|]. intros [K|[]]. discriminate K.
Qed.

Lemma ex_accepted_otherwise : NoDup (keys diag_al) /\ check_outputs diag_al inp_c [] [("speed", cramp [3])] = Ok tt /\
  In "speed" (keys diag_al) /\ ~ In (out_key diag_al inp_c "speed") (keys [("speed", cramp [3])]).
Proof.
  split; [apply nodupb_ok; reflexivity|]. split; [vm_compute; reflexivity|]. split; [left; reflexivity|]. intros [K|[]]. discriminate K.
Qed.

Lemma ex_failed : let a := mkab (T:=Qc) 2 None [] in
  (exists a', adams_bashforth cfg_0 prog_fix (a, tt) st_bad 1000000%Z = ((a', tt), Err EValue) /\ length (ab_hist a') = 1) /\
  exists a', adams_bashforth cfg_0 prog_fix (mkab 1 None [], tt) st_bad 1000000%Z = ((a', tt), Err EValue) /\ ab_order a' <= length (ab_hist a').
Proof.
  split.
  - destruct (adams_bashforth cfg_0 prog_fix (mkab 2 None [], tt) st_bad 1000000%Z) as [[a' []] r] eqn:E.
    assert (H : (let '((a', _), r) := adams_bashforth cfg_0 prog_fix (mkab 2 None [], tt) st_bad 1000000%Z in
                 (Nat.eqb (length (ab_hist a')) 1, match r with Err EValue => true | _ => false end)) = (true, true)) by (vm_compute; reflexivity).
    rewrite E in H. injection H as H1 H2. exists a'. apply Nat.eqb_eq in H1. destruct r as [|[]]; try discriminate H2. auto.
  - destruct (adams_bashforth cfg_0 prog_fix (mkab 1 None [], tt) st_bad 1000000%Z) as [[a' []] r] eqn:E.
    assert (H : (let '((a', _), r) := adams_bashforth cfg_0 prog_fix (mkab 1 None [], tt) st_bad 1000000%Z in
                 (Nat.leb (ab_order a') (length (ab_hist a')), match r with Err EValue => true | _ => false end)) = (true, true)) by (vm_compute; reflexivity).
    rewrite E in H. injection H as H1 H2. exists a'. apply Nat.leb_le in H1. destruct r as [|[]]; try discriminate H2. auto.
Qed.

Lemma ex_recorded : SpecTracers.outcome (firstn 4 ops_h) (Register "ash" "g") = Err EInvalidProps.
Proof. vm_compute. reflexivity. Qed.

(** A Stepper with tendencies_in_diagnostics that returns. *)
Lemma ex_difference_returns : s_tid (c_s 1000000) = true /\ In "T" (keys (s_out (c_s 1000000))) /\
  exists u' d n, stepper_call empty_treg (c_s 1000000) ac_s 0 st_s 10000000%Z = (u', Ok (d, n)).
Proof.
  split; [reflexivity|]. split; [left; reflexivity|].
  assert (H : is_ok (snd (stepper_call empty_treg (c_s 1000000) ac_s 0 st_s 10000000%Z)) = true) by (vm_compute; reflexivity).
  destruct (stepper_call empty_treg (c_s 1000000) ac_s 0 st_s 10000000%Z) as [u' [[d n]|]]; [eauto|discriminate H].
Qed.
