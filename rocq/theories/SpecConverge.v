(** Specification for C95: how far a run can be from a curve that nearly satisfies the equations. *)
From Coq Require Import String List Bool Arith ZArith QArith Qcanon.
From Verif Require Import Prelude ArithM NdArray Units DataArrayM SpecDa Components Composite Steppers SpecSteppers SpecOrder.
Import ListNotations.
Open Scope string_scope.
Open Scope nat_scope.
Open Scope list_scope.

(** The values [v] and [w] differ by at most [e] at every point of [G]. *)
Definition near (G : points) (e : Qc) (v w : field) : Prop :=
  forall X c, G X c -> (v X c - w X c <= e)%Qc /\ (w X c - v X c <= e)%Qc.

(** Rates of change, from the time and the values. *)
Definition rhs : Type := Z -> field -> field.

(** Components whose rates of change at the points of [G] are [f]. *)
Definition rates_by {R : Registry} {U} (G : points) (f : rhs) (dt : Z) (prog : icaller (T:=Qc) U) : Prop :=
  (forall X c, G X c -> X <> "time") /\
  forall u st u' tend diag now, prog u st dt = (u', Ok (tend, diag)) ->
    holds_points G st -> dget "time" st = Some (VTime now) ->
    forall X c, G X c -> exists t, dget X tend = Some t /\ in_grid t c /\ rate st X t c (f now (value st) X c).

(** Values that differ by at most [e] have rates that differ by at most [L e]. *)
Definition lipschitz (G : points) (L : Qc) (f : rhs) : Prop :=
  forall now e v w, near G e v w -> near G (L * e)%Qc (f now v) (f now w).

(** The time of the [k]-th call (from 0). *)
Definition clock (t0 dt : Z) (k : nat) : Z := (t0 + Z.of_nat k * dt)%Z.

Definition times (t0 dt : Z) (n : nat) : list Z := map (clock t0 dt) (seq 0 n).

(** [k] timesteps, in seconds. *)
Definition elapsed (dt : Z) (k : nat) : Qc := Q2Qc (Z.of_nat k * dt # 1000000).

Definition of_nat (n : nat) : Qc := Q2Qc (inject_Z (Z.of_nat n)).

(** Successive states of a run: each is what the call before returned, with the time set by the caller. *)
Definition handed_on (G : points) (log : list (entry Qc)) : Prop :=
  forall pre p e post, log = pre ++ p :: e :: post -> forall X c, G X c -> dget X (e_st e) = dget X (e_new p).

Definition lhanded_on (G : points) (log : list (lentry Qc)) : Prop :=
  forall pre p e post, log = pre ++ p :: e :: post -> forall X c, G X c -> dget X (l_st e) = dget X (l_new p).

(** Errors [d k] are made in the steps, and each step multiplies what is there by at most [K]. *)
Fixpoint bound (K : Qc) (d : nat -> Qc) (e0 : Qc) (k : nat) : Qc :=
  match k with
  | 0 => e0
  | S k => (K * bound K d e0 k + d k)%Qc
  end.

Fixpoint total_error (d : nat -> Qc) (k : nat) : Qc :=
  match k with
  | 0 => 0%Qc
  | S k => (total_error d k + d k)%Qc
  end.

(** ** The schemes, for values *)

(** The Adams-Bashforth increment per second in the [k]-th call: of order [n], or less in the first calls. *)
Definition ab_slope (n : nat) (f : rhs) (t0 dt : Z) (y : nat -> field) (k : nat) : field :=
  fun X c => let m := Nat.min n (S k) in
    dot (ab_weights m) (map (fun j => f (clock t0 dt (k - j)) (y (k - j)) X c) (seq 0 m)).

(** The sum of the sizes of the weights. *)
Definition ab_size (n : nat) : Qc :=
  match n with
  | 1 => 1%Qc
  | 2 => Q2Qc (2 # 1)
  | 3 => Q2Qc (44 # 12)
  | _ => Q2Qc (160 # 24)
  end.

(** The Shu-Osher schemes, with the time of the start of the step in every stage. *)
Definition euler_of (h : Qc) (f : rhs) (now : Z) (v : field) : field := fun X c => (v X c + h * f now v X c)%Qc.

Definition mix (a b : Qc) (v w : field) : field := fun X c => (a * v X c + b * w X c)%Qc.

Definition shu_osher (stages : nat) (h : Qc) (f : rhs) (now : Z) (v : field) : field :=
  match stages with
  | 2 => mix (Q2Qc (1 # 2)) (Q2Qc (1 # 2)) v (euler_of h f now (euler_of h f now v))
  | 3 => mix (Q2Qc (1 # 3)) (Q2Qc (2 # 3)) v
           (euler_of h f now (mix (Q2Qc (3 # 4)) (Q2Qc (1 # 4)) v (euler_of h f now (euler_of h f now v))))
  | _ => v
  end.

(** The first terms of the exponential function. *)
Definition rk_growth (stages : nat) (z : Qc) : Qc :=
  match stages with
  | 2 => (1 + z + Q2Qc (1 # 2) * (z * z))%Qc
  | _ => (1 + z + Q2Qc (1 # 2) * (z * z) + Q2Qc (1 # 6) * (z * z * z))%Qc
  end.

(** ** Curves that satisfy the equations [Y' = f] from [t0] to [t1], with a second derivative of size at most [2 M] *)
Definition smooth_solution (G : points) (f : rhs) (M : Qc) (t0 t1 : Z) (Y : Z -> field) : Prop :=
  forall t s, (t0 <= t)%Z -> (0 <= s)%Z -> (t + s <= t1)%Z -> let h := Q2Qc (s # 1000000) in
    near G (M * (h * h))%Qc (Y (t + s)%Z) (fun X c => Y t X c + h * f t (Y t) X c)%Qc /\
    near G (Q2Qc (2 # 1) * M * h)%Qc (f (t + s)%Z (Y (t + s)%Z)) (f t (Y t)).

(** The rates along the curve are of size at most [F]. *)
Definition bounded_rates (G : points) (f : rhs) (F : Qc) (t0 t1 : Z) (Y : Z -> field) : Prop :=
  forall t X c, (t0 <= t)%Z -> (t <= t1)%Z -> G X c -> (- F <= f t (Y t) X c)%Qc /\ (f t (Y t) X c <= F)%Qc.

(** One and twice the sum of the sizes of the weights, each times its distance in calls. *)
Definition ab_defect (n : nat) : Qc :=
  match n with
  | 1 => 1%Qc
  | 2 => Q2Qc (2 # 1)
  | 3 => Q2Qc (64 # 12)
  | _ => Q2Qc (344 # 24)
  end.

(** The sum of the sizes of the coefficients of a linear combination. *)
Definition row_size (tms : list term) : Qc :=
  fold_right (fun (tm : term) s => let '(_, _, w) := tm in ((if Qclt_le_dec w 0%Qc then - w else w) + s)%Qc) 0%Qc tms.
