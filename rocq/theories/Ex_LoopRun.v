(** Concrete cases for the property theorems about all that a main loop does (C76, C80). *)
From Coq Require Import String List Bool Arith ZArith QArith Qcanon.
From Verif Require Import Prelude ArithM NdArray Units DataArrayM ExampleRegistry Tracers Components SpecCalls Composite
  Steppers MainLoop SpecMainLoop LeapLoop SpecLoopRun LoopRunMain Ex_Components Ex_Steppers Ex_MainLoop Ex_LeapLoop.
Import ListNotations.
Open Scope string_scope.
Open Scope nat_scope.
Open Scope list_scope.

#[local] Existing Instance ex_registry | 5.

(** A monitor that counts the calls and fails the second time. *)
Definition store_fail (v : nat) (st : state Qc) : nat * res unit := (v + 10, if Nat.ltb v 10 then Ok tt else Err EIO).

Lemma ex_loop_run : exists w log, main_loop 9 [after_l] store_fail 4000000 1000000 0 st_l = ((w, log), Some (Err EIO)) /\ length log = 2 /\ w = 22.
Proof.
  assert (E : match main_loop 9 [after_l] store_fail 4000000 1000000 0 st_l with ((w, log), Some (Err e)) => w = 22 /\ length log = 2 /\ e = EIO | _ => False end)
    by (vm_compute; auto).
  destruct (main_loop 9 [after_l] store_fail 4000000 1000000 0 st_l) as ((w, log), [[?|e]|]); try destruct E. destruct H0 as (H0 & ->). eauto.
Qed.

Lemma ex_leap_loop_run : exists s v log, leap_main_loop 9 cfg_0 prog_l [after_l] store_fail 4000000 1000000 (new_leap nu_e half, 0) 0 st_l = ((s, v, log), Some (Err EIO)) /\
  length log = 2 /\ v = 22 /\ snd s = 2.
Proof.
  assert (E : match leap_main_loop 9 cfg_0 prog_l [after_l] store_fail 4000000 1000000 (new_leap nu_e half, 0) 0 st_l with
              | ((s, v, log), Some (Err e)) => v = 22 /\ length log = 2 /\ e = EIO /\ snd s = 2 | _ => False end)
    by (vm_compute; auto).
  destruct (leap_main_loop 9 cfg_0 prog_l [after_l] store_fail 4000000 1000000 (new_leap nu_e half, 0) 0 st_l) as (((s, v), log), [[?|e]|]); try destruct E.
  destruct H0 as (H0 & -> & H1). exists s, v, log. auto.
Qed.
