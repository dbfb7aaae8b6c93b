(** Specification for C91: Leapfrog runs on polynomials of the time. *)
From Coq Require Import String List Bool Arith ZArith QArith Qcanon.
From Verif Require Import Prelude ArithM NdArray Units DataArrayM SpecDa Components Composite Steppers SpecSteppers.
Import ListNotations.
Open Scope string_scope.
Open Scope nat_scope.
Open Scope list_scope.

(** The time [k] steps of [h] seconds after [t]. *)
Definition time_after (t h : Qc) (k : nat) : Qc := (t + Q2Qc (inject_Z (Z.of_nat k)) * h)%Qc.

(** In the [k]-th call of the run (from 0) the rate of change of [X] at [c] is the derivative of [p]
    at the time of the call. *)
Definition rates_are {R : Registry} (log : list (lentry Qc)) (X : string) (c : string -> nat) (p : list Qc) (t h : Qc) : Prop :=
  forall k e, nth_error log k = Some e ->
    exists td, dget X (l_tend e) = Some td /\ in_grid td c /\ rate (l_st e) X td c (peval (pderiv p) (time_after t h k)).

(** The value of [X] at [c] is [q]. *)
Definition is_value (st : state Qc) (X : string) (c : string -> nat) (q : Qc) : Prop :=
  exists x, dget X st = Some (VDA x) /\ in_grid x c /\ da_at x c = q.

(** Each call was given the value of [X] that the call before returned; the rest of the state, such as
    the time, may have been changed. *)
Definition carried (X : string) (log : list (lentry Qc)) : Prop :=
  forall pre p e post, log = pre ++ p :: e :: post -> dget X (l_st e) = dget X (l_new p).
