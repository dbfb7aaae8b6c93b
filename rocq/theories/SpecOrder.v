(** Specification for C90: what one SSPRungeKutta step does to a system whose
    tendencies are linear in the quantities.  Independent of the model of the stepper. *)
From Coq Require Import String List Bool Arith ZArith QArith Qcanon.
From Verif Require Import Prelude ArithM NdArray Units DataArrayM SpecDa Components Composite Steppers SpecSteppers.
Import ListNotations.
Open Scope string_scope.
Open Scope nat_scope.
Open Scope list_scope.

(** A value at every point of every quantity. *)
Definition field : Type := string -> (string -> nat) -> Qc.

(** A linear operator: the value at a point is a weighted sum of the values at some points. *)
Definition operator : Type := string -> (string -> nat) -> list term.

Definition weighted (tms : list term) (v : field) : Qc :=
  fold_right (fun (tm : term) s => let '(X, c, w) := tm in (w * v X c + s)%Qc) 0%Qc tms.

Definition apply (M : operator) (v : field) : field := fun X c => weighted (M X c) v.

(** Points of quantities (never of the time), and an operator that stays among them. *)
Definition points : Type := string -> (string -> nat) -> Prop.

Definition closed (G : points) (M : operator) : Prop :=
  forall X c, G X c -> X <> "time" /\ forall X' c' w, In (X', c', w) (M X c) -> G X' c'.

(** [st] has all the points of [G]. *)
Definition holds_points (G : points) (st : state Qc) : Prop :=
  forall X c, G X c -> exists x, dget X st = Some (VDA x) /\ in_grid x c.

(** Components whose rates of change at the points of [G] are [forcing time + M values]. *)
Definition linear_rates {R : Registry} {U} (G : points) (forcing : Z -> field) (M : operator) (dt : Z)
    (prog : icaller (T:=Qc) U) : Prop :=
  forall u st u' tend diag now, prog u st dt = (u', Ok (tend, diag)) ->
    holds_points G st -> dget "time" st = Some (VTime now) ->
    forall X c, G X c -> exists t, dget X tend = Some t /\ in_grid t c /\
      rate st X t c (forcing now X c + apply M (value st) X c)%Qc.

(** The rates of change of the values [v] at the time [now]. *)
Definition slope (forcing : Z -> field) (M : operator) (now : Z) (v : field) : field :=
  fun X c => (forcing now X c + apply M v X c)%Qc.

(** The exact solution of [v' = forcing now + M v] after [h] seconds is
    [v + h g + h^2/2 M g + h^3/6 M^2 g + ...] with [g] the slope at [v]: its first terms. *)
Definition taylor (stages : nat) (h : Qc) (forcing : Z -> field) (M : operator) (now : Z) (v : field) : field :=
  fun X c =>
  let g := slope forcing M now v in
  match stages with
  | 2 => (v X c + h * g X c + Q2Qc (1 # 2) * (h * h) * apply M g X c)%Qc
  | 3 => (v X c + h * g X c + Q2Qc (1 # 2) * (h * h) * apply M g X c
          + Q2Qc (1 # 6) * (h * h * h) * apply M (apply M g) X c)%Qc
  | _ => v X c
  end.

(** Successive steps, each of the state before, at the times the caller sets. *)
Fixpoint in_a_row {U} (call : U -> state Qc -> Z -> U * res (stepped Qc)) (dt : Z) (u : U) (st : state Qc)
    (nows : list Z) (u' : U) (st' : state Qc) : Prop :=
  match nows with
  | [] => u' = u /\ st' = st
  | now :: nows => exists u1 diag new, dget "time" st = Some (VTime now) /\ call u st dt = (u1, Ok (diag, new)) /\
      exists next, (forall X, X <> "time" -> dget X next = dget X new) /\ proper_state next /\
        in_a_row call dt u1 next nows u' st'
  end.

Fixpoint taylors (stages : nat) (h : Qc) (forcing : Z -> field) (M : operator) (nows : list Z) (v : field) : field :=
  match nows with
  | [] => v
  | now :: nows => taylors stages h forcing M nows (taylor stages h forcing M now v)
  end.
