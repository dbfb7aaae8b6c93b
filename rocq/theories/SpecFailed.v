(** Specification vocabulary for failed steps (C81). *)
From Coq Require Import String List Bool Arith ZArith QArith.
From Verif Require Import Prelude ArithM NdArray Units DataArrayM SpecDa GetNp Components Composite Steppers SpecComposite SpecSteppers.
Import ListNotations.
Open Scope string_scope.
Open Scope nat_scope.
Open Scope list_scope.

Section Spec.
  Context {T : Type} {A : Arith T} {R : Registry}.

  (** Quantity [X] of [st] has been filtered, giving that of [st']. *)
  Definition filtered (dt : Z) (nu alpha : T) (before st : state T) (tend : dict (da T)) (X : string) (st' : state T) : Prop :=
    exists t o x x', dget X tend = Some t /\ dget X before = Some (VDA o) /\ dget X st = Some (VDA x) /\ dget X st' = Some (VDA x') /\
      extends x [] x' /\
      forall c, in_grid x c -> exists y, rate st X t c y /\
        da_at x' c = fst (leapfrog_values (aofQ (dt # 1000000)) nu alpha (da_at o c) (da_at x c) y).

  (** The first of the quantities with a tendency have been filtered, all others are as
      they were. *)
  Definition filtered_in_part (dt : Z) (nu alpha : T) (before st : state T) (tend : dict (da T)) (st' : state T) : Prop :=
    exists pre post, keys tend = pre ++ post /\
      (forall X, In X pre -> filtered dt nu alpha before st tend X st') /\
      (forall X, ~ In X pre -> dget X st' = dget X st).
End Spec.
