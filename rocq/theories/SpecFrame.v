(** Specification for C102: what can be seen of DataArrays, states and results without looking at the
    numbers in them.  The two sides may compute with different arithmetics, such as exact rationals and
    IEEE doubles. *)
From Coq Require Import String List Bool Arith ZArith QArith.
From Verif Require Import Prelude ArithM NdArray Units DataArrayM Tracers Components Composite Steppers Basic.
Import ListNotations.
Open Scope string_scope.
Open Scope nat_scope.
Open Scope list_scope.

(** Both return, and what they return is related; or both raise the same exception. *)
Definition same_outcome {A B} (P : A -> B -> Prop) (r : res A) (r' : res B) : Prop :=
  match r, r' with
  | Ok a, Ok b => P a b
  | Err e, Err f => e = f
  | _, _ => False
  end.

(** The same keys in the same order, with related values. *)
Definition same_keys {A B} (P : A -> B -> Prop) (d : dict A) (d' : dict B) : Prop :=
  Forall2 (fun x y => fst x = fst y /\ P (snd x) (snd y)) d d'.

Section Spec.
  Context {T T' : Type}.

  (** The same dims, shape and attributes (so the same units); any values. *)
  Definition alike (a : da T) (b : da T') : Prop :=
    dims a = dims b /\ shape (arr a) = shape (arr b) /\ attrs a = attrs b.

  Definition alike_val (v : pval T) (w : pval T') : Prop :=
    match v, w with
    | VDA a, VDA b => alike a b
    | VTime s, VTime t => s = t
    | _, _ => False
    end.

  Definition alike_state : state T -> state T' -> Prop := same_keys alike_val.
  Definition alike_dict : dict (da T) -> dict (da T') -> Prop := same_keys alike.

  (** What a component returns: tendencies and diagnostics. *)
  Definition alike_rates (x : dict (da T) * dict (da T)) (y : dict (da T') * dict (da T')) : Prop :=
    alike_dict (fst x) (fst y) /\ alike_dict (snd x) (snd y).
  (** What a stepper returns: diagnostics and the new state. *)
  Definition alike_step (x : dict (da T) * state T) (y : dict (da T') * state T') : Prop :=
    alike_dict (fst x) (fst y) /\ alike_state (snd x) (snd y).

  (** Two components (with what they remember) of which, on states that differ in the values only, either
      both return, with results that differ in the values only, or both raise the same exception. *)
  Definition blind {U V} (same : U -> V -> Prop) (p : U -> state T -> Z -> U * res (dict (da T) * dict (da T)))
      (q : V -> state T' -> Z -> V * res (dict (da T') * dict (da T'))) : Prop :=
    forall u v st st' dt, same u v -> alike_state st st' ->
      same (fst (p u st dt)) (fst (q v st' dt)) /\ same_outcome alike_rates (snd (p u st dt)) (snd (q v st' dt)).
  Definition blind_plain {U V} (same : U -> V -> Prop) (p : U -> state T -> U * res (dict (da T) * dict (da T)))
      (q : V -> state T' -> V * res (dict (da T') * dict (da T'))) : Prop :=
    forall u v st st', same u v -> alike_state st st' ->
      same (fst (p u st)) (fst (q v st')) /\ same_outcome alike_rates (snd (p u st)) (snd (q v st')).
  Definition blind_diagnostic {U V} (same : U -> V -> Prop) (p : U -> state T -> U * res (dict (da T)))
      (q : V -> state T' -> V * res (dict (da T'))) : Prop :=
    forall u v st st', same u v -> alike_state st st' ->
      same (fst (p u st)) (fst (q v st')) /\ same_outcome alike_dict (snd (p u st)) (snd (q v st')).

  (** The same of the members of an ImplicitTendencyComponentComposite, which may be of two kinds. *)
  Definition blind_any {U V} (same : U -> V -> Prop) (c : icaller (T:=T) U + caller (T:=T) U) (c' : icaller (T:=T') V + caller (T:=T') V) : Prop :=
    match c, c' with
    | inl f, inl h => blind same f h
    | inr f, inr h => blind_plain same f h
    | _, _ => False
    end.

  (** The same of something that takes a state to diagnostics and a state. *)
  Definition blind_step {U V} (same : U -> V -> Prop) (p : U -> state T -> Z -> U * res (dict (da T) * state T))
      (q : V -> state T' -> Z -> V * res (dict (da T') * state T')) : Prop :=
    forall u v st st' dt, same u v -> alike_state st st' ->
      same (fst (p u st dt)) (fst (q v st' dt)) /\ same_outcome alike_step (snd (p u st dt)) (snd (q v st' dt)).

  (** A monitor. *)
  Definition blind_store {U V} (same : U -> V -> Prop) (f : U -> state T -> U * res unit) (h : V -> state T' -> V * res unit) : Prop :=
    forall u v st st', same u v -> alike_state st st' ->
      same (fst (f u st)) (fst (h v st')) /\ snd (f u st) = snd (h v st').

  (** What array_call is given: arrays of the same shapes, and the same time. *)
  Definition alike_array (a : nd T) (b : nd T') : Prop := shape a = shape b.
  Definition alike_arrays : dict (nd T) -> dict (nd T') -> Prop := same_keys alike_array.
  Definition alike_raw : dict (rval T) -> dict (rval T') -> Prop :=
    same_keys (fun v w => match v, w with
                          | RArr a, RArr b => alike_array a b
                          | RTime s, RTime t => alike_val s t
                          | _, _ => False
                          end).
  Definition alike_two (x : dict (nd T) * dict (nd T)) (y : dict (nd T') * dict (nd T')) : Prop :=
    alike_arrays (fst x) (fst y) /\ alike_arrays (snd x) (snd y).

  (** Two array_calls: whether they raise, and the shapes they return, depend on the shapes only. *)
  Definition blind_arrays {U V O O'} (P : O -> O' -> Prop) (same : U -> V -> Prop)
      (f : U -> dict (rval T) -> U * res O) (h : V -> dict (rval T') -> V * res O') : Prop :=
    forall u v raw raw', same u v -> alike_raw raw raw' ->
      same (fst (f u raw)) (fst (h v raw')) /\ same_outcome P (snd (f u raw)) (snd (h v raw')).

  (** Stepper objects that have seen the same: as many past tendencies, which differ in the values only. *)
  Definition alike_ab (a : ab T) (b : ab T') : Prop :=
    ab_order a = ab_order b /\ ab_dt a = ab_dt b /\ Forall2 alike_dict (ab_hist a) (ab_hist b).
  Definition alike_rk (a : rk T) (b : rk T') : Prop :=
    rk_stages a = rk_stages b /\ alike_ab (rk_euler a) (rk_euler b).
  (** Whether alpha is 1 has to be the same on both sides: the new state is filtered otherwise. *)
  Definition alike_leap `{Arith T} `{Arith T'} (a : leap T) (b : leap T') : Prop :=
    aeqb (lf_alpha a) (aofQ 1) = aeqb (lf_alpha b) (aofQ 1) /\ lf_dt a = lf_dt b /\
    match lf_old a, lf_old b with
    | Some s, Some t => alike_state s t
    | None, None => True
    | _, _ => False
    end.

  (** How a main loop ended, if it did. *)
  Definition same_end (r : option (res (state T))) (r' : option (res (state T'))) : Prop :=
    match r, r' with
    | Some x, Some y => same_outcome alike_state x y
    | None, None => True
    | _, _ => False
    end.
End Spec.

(** Two things remembered side by side. *)
Definition both {A B C D} (P : A -> B -> Prop) (Q : C -> D -> Prop) (x : A * C) (y : B * D) : Prop :=
  P (fst x) (fst y) /\ Q (snd x) (snd y).

(** A component that may be called with a timestep or without, as UpdateFrequencyWrapper calls it; and what
    the wrapper remembers: the time of the last call, and its results. *)
Definition blind_maybe {T T' U V} (same : U -> V -> Prop) (p : U -> state T -> option Z -> U * res (dict (da T) * dict (da T)))
    (q : V -> state T' -> option Z -> V * res (dict (da T') * dict (da T'))) : Prop :=
  forall ts, blind_plain same (fun u st => p u st ts) (fun v st => q v st ts).
Definition alike_wrapper {T T'} (w : ufw (dict (da T) * dict (da T))) (x : ufw (dict (da T') * dict (da T'))) : Prop :=
  uf_last w = uf_last x /\
  match uf_cache w, uf_cache x with
  | Some a, Some b => alike_rates a b
  | None, None => True
  | _, _ => False
  end.
