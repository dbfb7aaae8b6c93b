(** Specification vocabulary: reading DataArrays by named coordinates. *)
From Coq Require Import String List Bool Arith ZArith QArith Qcanon.
From Verif Require Import Prelude ArithM NdArray Units DataArrayM SpecUnits.
Import ListNotations.
Open Scope string_scope.
Open Scope nat_scope.
Open Scope list_scope.

Section Spec.
  Context {T : Type} {A : Arith T} {R : Registry}.

  (** [c] gives a valid coordinate for every dimension of [a]. *)
  Definition in_grid (a : da T) (c : string -> nat) : Prop :=
    forall d n, dim_len a d = Some n -> c d < n.

  (** Two quantities agree on the length of the dimensions they share. *)
  Definition sizes_match (a b : da T) : Prop :=
    forall d n m, dim_len a d = Some n -> dim_len b d = Some m -> n = m.

  Definition units_of (a : da T) : option string := dget "units" (attrs a).

  (** The number [x] of units [s1], as a number of units [s2]. *)
  Definition converted (s1 s2 : string) (x y : T) : Prop :=
    exists u1 u2, parse s1 = Some u1 /\ parse s2 = Some u2 /\ u_dim u1 = u_dim u2 /\
      (one_eqb u1 u2 = true /\ y = x \/ one_eqb u1 u2 = false /\ y = uconv u1 u2 x).

  (** [a] and [b] hold equal numbers at equal named coordinates, on the same grid. *)
  Definition same_field (a b : da T) : Prop :=
    (forall d, dim_len a d = dim_len b d) /\ forall c, in_grid a c -> da_at a c = da_at b c.
End Spec.

(** Physical amount at a point: the number times the size of the unit.  For units
    without offset, such as those of tendencies. *)
Definition amount {R : Registry} (a : da Qc) (c : string -> nat) : option Qc :=
  match dget "units" (attrs a) with
  | None => None
  | Some s => match parse s with None => None | Some u => Some (base_value u (da_at a c)) end
  end.

(** Same grid, same physical amounts. *)
Definition same_amounts {R : Registry} (a b : da Qc) : Prop :=
  (forall d, dim_len a d = dim_len b d) /\ forall c, in_grid a c -> amount a c = amount b c.
