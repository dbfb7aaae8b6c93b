(** Specification for C98: when the run on part of the grid returns. *)
From Coq Require Import String List Bool Arith ZArith.
From Verif Require Import Prelude ArithM NdArray Units DataArrayM Tracers Components Composite Steppers SpecRegion.
Import ListNotations.
Open Scope string_scope.
Open Scope nat_scope.
Open Scope list_scope.

(** If the first returns then so does the second, and what they return is related. *)
Definition returns_too {A B} (P : A -> B -> Prop) (r : res A) (r' : res B) : Prop :=
  forall a, r = Ok a -> exists b, r' = Ok b /\ P a b.

(** The same of calls of something that remembers. *)
Definition returns_with {U V A B} (same : U -> V -> Prop) (P : A -> B -> Prop) (x : U * res A) (y : V * res B) : Prop :=
  forall u a, x = (u, Ok a) -> exists v b, y = (v, Ok b) /\ same u v /\ P a b.

Definition pair_of {A B C D} (P : A -> B -> Prop) (Q : C -> D -> Prop) (x : A * C) (y : B * D) : Prop :=
  P (fst x) (fst y) /\ Q (snd x) (snd y).

Definition per_key {A B} (P : A -> B -> Prop) (d : dict A) (d' : dict B) : Prop :=
  Forall2 (fun x y => fst x = fst y /\ P (snd x) (snd y)) d d'.

Section Spec.
  Context {T : Type}.
  (** How many points the large grid ([big]) and the small one ([small]) have along each dim. *)
  Context (g : cut) (big small : string -> nat).

  (** An array on a grid of these sizes. *)
  Definition on_grid (size : string -> nat) (a : da T) : Prop :=
    length (dims a) = length (shape (arr a)) /\ forall d n, dim_len a d = Some n -> n = size d.

  (** Arrays on the two grids with the same attributes, and the same dims but for those that the small
      grid does not have. *)
  Definition sized (a b : da T) : Prop :=
    attrs a = attrs b /\ on_grid big a /\ on_grid small b /\ forall d, In d (dims b) <-> In d (dims a) /\ fixed g d = None.

  Definition sized_state : state T -> state T -> Prop :=
    per_key (fun v w => match v, w with
                        | VDA a, VDA b => sized a b
                        | VTime s, VTime t => s = t
                        | _, _ => False
                        end).
  Definition sized_dict : dict (da T) -> dict (da T) -> Prop := per_key sized.

  Definition sized_rates (x y : dict (da T) * dict (da T)) : Prop :=
    sized_dict (fst x) (fst y) /\ sized_dict (snd x) (snd y).
  Definition sized_step (x y : dict (da T) * state T) : Prop :=
    sized_dict (fst x) (fst y) /\ sized_state (snd x) (snd y).

  (** A component that returns for the small grid when the other returns for the large one. *)
  Definition follows {U V} (same : U -> V -> Prop) (p : icaller (T:=T) U) (q : icaller (T:=T) V) : Prop :=
    forall u v st st' dt, same u v -> sized_state st st' -> returns_with same sized_rates (p u st dt) (q v st' dt).
  Definition follows_plain {U V} (same : U -> V -> Prop) (p : caller (T:=T) U) (q : caller (T:=T) V) : Prop :=
    forall u v st st', same u v -> sized_state st st' -> returns_with same sized_rates (p u st) (q v st').
  Definition follows_any {U V} (same : U -> V -> Prop) (p : icaller (T:=T) U + caller (T:=T) U) (q : icaller (T:=T) V + caller (T:=T) V) : Prop :=
    match p, q with
    | inl f, inl h => follows same f h
    | inr f, inr h => follows_plain same f h
    | _, _ => False
    end.
  (** The same of what takes a state to diagnostics and a state, and of a monitor's store. *)
  Definition follows_step {U V} (same : U -> V -> Prop) (p : U -> state T -> Z -> U * res (dict (da T) * state T))
      (q : V -> state T -> Z -> V * res (dict (da T) * state T)) : Prop :=
    forall u v st st' dt, same u v -> sized_state st st' -> returns_with same sized_step (p u st dt) (q v st' dt).
  Definition follows_store {U V} (same : U -> V -> Prop) (f : U -> state T -> U * res unit) (h : V -> state T -> V * res unit) : Prop :=
    forall u v st st', same u v -> sized_state st st' -> returns_with same eq (f u st) (h v st').

  (** What the time steppers remember. *)
  Definition sized_ab (a b : ab T) : Prop :=
    ab_order a = ab_order b /\ ab_dt a = ab_dt b /\ Forall2 sized_dict (ab_hist a) (ab_hist b).
  Definition sized_rk (a b : rk T) : Prop :=
    rk_stages a = rk_stages b /\ sized_ab (rk_euler a) (rk_euler b).
  Definition sized_leap (a b : leap T) : Prop :=
    lf_alpha a = lf_alpha b /\ lf_dt a = lf_dt b /\
    match lf_old a, lf_old b with
    | Some s, Some t => sized_state s t
    | None, None => True
    | _, _ => False
    end.
End Spec.
