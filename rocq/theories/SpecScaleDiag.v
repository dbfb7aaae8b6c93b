(** What C103 says of diagnostic components together. *)
From Coq Require Import String List Bool Arith ZArith QArith Qcanon.
From Verif Require Import Prelude ArithM NdArray Units DataArrayM Tracers Components Composite SpecScale.

(** A diagnostic component (with whatever it remembers) answers the rescaled [st] with the rescaled diagnostics, or
    raises what it raises for [st].  [f] has the factors of the state, [fd] those of the diagnostics. *)
Definition scales_diagnostic {R : Registry} {U} (f fd : string -> Qc) (st : state Qc) (c : dcaller (T:=Qc) U) : Prop :=
  forall u, c u (by_name times_value f st) = (fst (c u st), result_map (by_name times_da fd) (snd (c u st))).
