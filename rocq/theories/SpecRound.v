(** Specification for C96: time steppers in an arithmetic that rounds. *)
From Coq Require Import String List Bool Arith ZArith QArith Qcanon.
From Verif Require Import Prelude ArithM NdArray Units DataArrayM SpecDa Components Composite Steppers SpecSteppers SpecOrder SpecConverge.
Import ListNotations.
Open Scope string_scope.
Open Scope nat_scope.
Open Scope list_scope.

(** [a] and [b] differ by at most [e]. *)
Definition within (e a b : Qc) : Prop := (a - b <= e)%Qc /\ (b - a <= e)%Qc.

(** [num x] is the number that the machine number [x] stands for, when [x] is finite. Every operation on
    finite numbers whose exact result is of size [s], where [s] is at most [big], gives a finite number
    off by at most [u (s + tiny)]. *)
Record rounds {T} (A : Arith T) (num : T -> Qc) (fin : T -> Prop) (big u tiny : Qc) : Prop := {
  rounds_u : (0 <= u)%Qc;
  rounds_tiny : (0 <= tiny)%Qc;
  rounds_ofQ : forall q s, within s (Q2Qc q) 0%Qc -> (s <= big)%Qc ->
    fin (aofQ q) /\ within (u * (s + tiny))%Qc (num (aofQ q)) (Q2Qc q);
  rounds_add : forall a b s, fin a -> fin b -> within s (num a + num b)%Qc 0%Qc -> (s <= big)%Qc ->
    fin (aadd a b) /\ within (u * (s + tiny))%Qc (num (aadd a b)) (num a + num b)%Qc;
  rounds_sub : forall a b s, fin a -> fin b -> within s (num a - num b)%Qc 0%Qc -> (s <= big)%Qc ->
    fin (asub a b) /\ within (u * (s + tiny))%Qc (num (asub a b)) (num a - num b)%Qc;
  rounds_mul : forall a b s, fin a -> fin b -> within s (num a * num b)%Qc 0%Qc -> (s <= big)%Qc ->
    fin (amul a b) /\ within (u * (s + tiny))%Qc (num (amul a b)) (num a * num b)%Qc
}.

(** Sizes instead of numbers: every operation adds up the sizes, and [tiny]. *)
Definition sizes (tiny : Qc) : Arith Qc := {|
  azero := 0%Qc;
  aadd := fun x y => (x + y + tiny)%Qc;
  asub := fun x y => (x + y + tiny)%Qc;
  amul := fun x y => (x * y + tiny)%Qc;
  adiv := fun x y => (x / y + tiny)%Qc;
  aofQ := fun q => ((if Qclt_le_dec (Q2Qc q) 0%Qc then - Q2Qc q else Q2Qc q) + tiny)%Qc;
  aeqb := Qc_eq_bool
|}.

(** What rounding adds in one Adams-Bashforth step of order [m]: values of size [V], rates of size [F]. *)
Definition ab_size_of (tiny h V F : Qc) (m : nat) : Qc := @ab_formula Qc (sizes tiny) (h + tiny)%Qc V (repeat F m).

Definition ab_rounding (u tiny h V F : Qc) (m : nat) : Qc := (((1 + u) ^ 8 - 1) * ab_size_of tiny h V F m)%Qc.

(** No number that appears is too big. *)
Definition ab_fits (big u tiny h V F : Qc) (m : nat) : Prop :=
  ((1 + u) ^ 8 * @ab_formula Qc (sizes tiny) (1 + (h + tiny)) V (repeat F m) <= big)%Qc /\ (h + Q2Qc (3 # 1) <= big)%Qc.

(** The same for SSPRungeKutta. An Euler step is off by [eE] when rates are off by [rho], and a combination
    of two stages by [eM]; both carry over to the later stages. *)
Definition euler_error (u tiny h V F rho : Qc) : Qc := (h * rho + ab_rounding u tiny h V (F + rho) 1)%Qc.
Definition mix_error (u tiny V : Qc) : Qc := (((1 + u) ^ 8 - 1) * (V + tiny * (Q2Qc (2 # 1) * V + Q2Qc (3 # 1) + tiny)))%Qc.

Definition rk_rounding (stages : nat) (z eE eM : Qc) : Qc :=
  match stages with
  | 2 => (Q2Qc (1 # 2) * ((1 + z) * eE + eE) + eM)%Qc
  | _ => (Q2Qc (2 # 3) * ((1 + z) * (Q2Qc (1 # 4) * ((1 + z) * eE + eE) + eM) + eE) + eM)%Qc
  end.

(** States of size [W] have stages of size [V]. *)
Definition rk_fits (big u tiny h W V F rho : Qc) : Prop :=
  ab_fits big u tiny h V (F + rho) 1 /\
  ((1 + u) ^ 8 * (Q2Qc (2 # 1) * V + tiny * (Q2Qc (2 # 1) * V + Q2Qc (3 # 1) + tiny)) <= big)%Qc /\
  (W + Q2Qc (3 # 1) * (h * F + euler_error u tiny h V F rho) + mix_error u tiny V <= V)%Qc.

Section SpecRound.
  Context {T : Type} {A : Arith T} {R : Registry}.

  (** The numbers that the values of a state stand for. *)
  Definition reading (num : T -> Qc) (st : state T) : field := fun X c =>
    match dget X st with Some (VDA x) => num (da_at x c) | _ => 0%Qc end.

  Definition has_finite (fin : T -> Prop) (G : points) (st : state T) : Prop :=
    forall X c, G X c -> exists x, dget X st = Some (VDA x) /\ in_grid x c /\ fin (da_at x c).

  (** Components whose rates at the points of [G] are [f] up to errors of [rho], for values of size [V]. *)
  Definition rates_near {U} (num : T -> Qc) (fin : T -> Prop) (G : points) (f : rhs) (V rho : Qc) (dt : Z) (prog : icaller (T:=T) U) : Prop :=
    (forall X c, G X c -> X <> "time") /\
    forall u st u' tend diag now, prog u st dt = (u', Ok (tend, diag)) ->
      has_finite fin G st -> (forall X c, G X c -> within V (reading num st X c) 0%Qc) -> dget "time" st = Some (VTime now) ->
      forall X c, G X c -> exists t, dget X tend = Some t /\ in_grid t c /\
        forall y, rate st X t c y -> fin y /\ within rho (num y) (f now (reading num st) X c).

  (** One call after another; between the calls only the time is changed. *)
  Fixpoint one_by_one {U} (call : U -> state T -> Z -> U * res (stepped T)) (dt : Z) (u : U) (st : state T) (nows : list Z) (u' : U) (st' : state T) : Prop :=
    match nows with
    | [] => u' = u /\ st' = st
    | now :: nows => exists u1 diag new, dget "time" st = Some (VTime now) /\ call u st dt = (u1, Ok (diag, new)) /\
        exists next, (forall X, X <> "time" -> dget X next = dget X new) /\ proper_state next /\ one_by_one call dt u1 next nows u' st'
    end.

  Definition passed_on (G : points) (log : list (entry T)) : Prop :=
    forall pre p e post, log = pre ++ p :: e :: post -> forall X c, G X c -> dget X (e_st e) = dget X (e_new p).
End SpecRound.

(** Values of size [V] have rates of size [F]. *)
Definition bounded_on (G : points) (V F : Qc) (f : rhs) : Prop :=
  forall now v, (forall X c, G X c -> within V (v X c) 0%Qc) -> forall X c, G X c -> within F (f now v X c) 0%Qc.
