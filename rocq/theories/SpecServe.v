(** Specification for C98: what array_call does on grids with different numbers of columns. *)
From Coq Require Import String List Bool Arith ZArith.
From Verif Require Import Prelude ArithM NdArray Units DataArrayM SpecArrays Tracers Components SpecColumns.
Import ListNotations.
Open Scope string_scope.
Open Scope nat_scope.
Open Scope list_scope.

(** If array_call returns for the arrays of one grid, then it returns for those of a grid with other columns
    and the same named dims, with the same names. *)
Definition serves {T : Type} {U} (inp : pdict) (ac : U -> dict (rval T) -> Z -> U * res (dict (nd T) * dict (nd T))) : Prop :=
  forall u dt raw raw' lens lens' out1 out2, on_grid inp lens raw -> on_grid inp lens' raw' ->
    (forall d, input_dim inp d -> d <> "*" -> lens d = lens' d) -> snd (ac u raw dt) = Ok (out1, out2) ->
    exists out1' out2', snd (ac u raw' dt) = Ok (out1', out2') /\ keys out1 = keys out1' /\ keys out2 = keys out2'.

(** No input is declared with a dim twice, and some input is declared with '*'. *)
Definition plain_inputs (inp : pdict) : Prop :=
  (forall name p ds, In (name, p) inp -> p_dims p = Some ds -> NoDup ds) /\ input_dim inp "*".
