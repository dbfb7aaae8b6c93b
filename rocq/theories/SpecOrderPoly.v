(** Specification for C90: systems whose right-hand sides are polynomials of the values of
    any quantities at any points, and curves that satisfy them to some order.
    Independent of the model of the stepper. *)
From Coq Require Import String List Bool Arith ZArith QArith Qcanon.
From Verif Require Import Prelude ArithM NdArray Units DataArrayM SpecDa Components Composite Steppers SpecSteppers SpecOrder.
Import ListNotations.
Open Scope string_scope.
Open Scope nat_scope.
Open Scope list_scope.

(** A polynomial of values at points. *)
Inductive rhs : Type :=
| Const (q : Qc)
| Value (X : string) (c : string -> nat)
| Plus (e f : rhs)
| Times (e f : rhs).

Fixpoint eval (v : field) (e : rhs) : Qc :=
  match e with
  | Const q => q
  | Value X c => v X c
  | Plus e f => (eval v e + eval v f)%Qc
  | Times e f => (eval v e * eval v f)%Qc
  end.

(** It is about points of [G] only. *)
Fixpoint about (G : points) (e : rhs) : Prop :=
  match e with
  | Const _ => True
  | Value X c => G X c
  | Plus e f => about G e /\ about G f
  | Times e f => about G e /\ about G f
  end.

(** The right-hand side at each point, at a given time. *)
Definition system : Type := Z -> string -> (string -> nat) -> rhs.

Definition closed_system (G : points) (F : system) : Prop :=
  forall now X c, G X c -> X <> "time" /\ about G (F now X c).

(** Components whose rates of change at the points of [G] are those of [F]. *)
Definition rates_from {R : Registry} {U} (G : points) (F : system) (dt : Z) (prog : icaller (T:=Qc) U) : Prop :=
  forall u st u' tend diag now, prog u st dt = (u', Ok (tend, diag)) ->
    holds_points G st -> dget "time" st = Some (VTime now) ->
    forall X c, G X c -> exists t, dget X tend = Some t /\ in_grid t c /\
      rate st X t c (eval (value st) (F now X c)).

(** Polynomials of one variable, the constant first, as [peval] and [pderiv] read them. *)
Fixpoint padd (p q : list Qc) : list Qc :=
  match p, q with
  | [], _ => q
  | _, [] => p
  | a :: p, b :: q => (a + b)%Qc :: padd p q
  end.

Fixpoint pmul (p q : list Qc) : list Qc :=
  match p with
  | [] => []
  | a :: p => padd (map (Qcmult a) q) (0%Qc :: pmul p q)
  end.

Definition coef (k : nat) (p : list Qc) : Qc := nth k p 0%Qc.

(** A curve: at each point, a polynomial of the time since the start. *)
Definition curve : Type := string -> (string -> nat) -> list Qc.

(** The right-hand side along the curve. *)
Fixpoint along (P : curve) (e : rhs) : list Qc :=
  match e with
  | Const q => [q]
  | Value X c => P X c
  | Plus e f => padd (along P e) (along P f)
  | Times e f => pmul (along P e) (along P f)
  end.

(** From the values [v], the curve [P] satisfies [P' = F now] up to terms of the [n]-th power:
    it begins as the exact solution does, including the [n]-th power. *)
Definition solves (n : nat) (G : points) (F : system) (now : Z) (v : field) (P : curve) : Prop :=
  forall X c, G X c -> coef 0 (P X c) = v X c /\
    forall k, k < n -> coef k (pderiv (P X c)) = coef k (along P (F now X c)).
