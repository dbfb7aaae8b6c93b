(** Specification for C97: runs of a single RelaxationTendencyComponent. *)
From Coq Require Import String List Bool Arith ZArith QArith Qcanon.
From Verif Require Import Prelude ArithM NdArray Units DataArrayM SpecDa Components Composite Steppers SpecSteppers SpecBasic.
Import ListNotations.
Open Scope string_scope.
Open Scope nat_scope.
Open Scope list_scope.

(** At the point [p] the quantity [q] of [st] is [v] in its own units, its equilibrium is [ve] in the
    same units, and its timescale is [vs] seconds. *)
Definition relaxing {R : Registry} (q : string) (p : string -> nat) (ve vs v : Qc) (st : state Qc) : Prop :=
  exists x e s ux, dget q st = Some (VDA x) /\ dget ("equilibrium_" ++ q) st = Some (VDA e) /\
    dget (q ++ "_relaxation_timescale") st = Some (VDA s) /\ in_grid x p /\ in_grid e p /\ in_grid s p /\
    units_of x = Some ux /\ da_at x p = v /\ value_in e ux p ve /\ value_in s "s" p vs.

(** What is left of the distance to the equilibrium after one step of [z] timescales: the first terms of
    the exponential function at [- z]. *)
Definition decay (terms : nat) (z : Qc) : Qc :=
  match terms with
  | 1 => (1 - z)%Qc
  | 2 => (1 - z + Q2Qc (1 # 2) * (z * z))%Qc
  | _ => (1 - z + Q2Qc (1 # 2) * (z * z) - Q2Qc (1 # 6) * (z * z * z))%Qc
  end.

(** The distance to the equilibrium after [k] steps of a Leapfrog run without a filter that starts at the
    distance [d]: an Euler step, then steps over two timesteps. *)
Fixpoint leap_two (z d : Qc) (k : nat) : Qc * Qc :=
  match k with
  | 0 => (d, ((1 - z) * d)%Qc)
  | S k => let (a, b) := leap_two z d k in (b, (a - Q2Qc (2 # 1) * z * b)%Qc)
  end.
Definition leap_off (z d : Qc) (k : nat) : Qc := fst (leap_two z d k).

(** The distances after [k] steps of AdamsBashforth of order [n], the latest first, from the distance [d]: each
    step goes by the weights of the textbook, of a lower order while there are too few calls. *)
Fixpoint ab_offs (n : nat) (z d : Qc) (k : nat) : list Qc :=
  match k with
  | 0 => [d]
  | S k => let l := ab_offs n z d k in
           let m := Nat.min n (length l) in
           (hd 0%Qc l - z * dot (ab_weights m) (firstn m l))%Qc :: l
  end.
Definition ab_off (n : nat) (z d : Qc) (k : nat) : Qc := hd 0%Qc (ab_offs n z d k).

(** The distances after call [k] of a Leapfrog run with the filter [nu] and [alpha], from the distance [d]: of the
    state of the call as the filter leaves it, and of the new state. The first call is an Euler step. *)
Fixpoint leap_pair (nu alpha z d : Qc) (k : nat) : Qc * Qc :=
  match k with
  | 0 => (d, ((1 - z) * d)%Qc)
  | S k => let (a, b) := leap_pair nu alpha z d k in
           let n := (a - Q2Qc (2 # 1) * z * b)%Qc in
           let w := (Q2Qc (1 # 2) * nu * (a - Q2Qc (2 # 1) * b + n))%Qc in
           ((b + alpha * w)%Qc, (n + (alpha - 1) * w)%Qc)
  end.

(** The distance of the state given to call [k]. *)
Definition leap_given (nu alpha z d : Qc) (k : nat) : Qc :=
  match k with 0 => d | S k => snd (leap_pair nu alpha z d k) end.
