(** What C103 says of runs with several processes. *)
From Coq Require Import String List Bool Arith ZArith QArith Qcanon.
From Verif Require Import Prelude ArithM NdArray Units DataArrayM Tracers Components Composite Steppers MainLoop LeapLoop SpecScale.
Import ListNotations.
Open Scope string_scope.
Open Scope nat_scope.
Open Scope list_scope.

Section Spec.
  Context {R : Registry}.

  (** Two processes, whose memories are related by [rest]: the second answers the rescaled state with the rescaled
      diagnostics and the rescaled new state.  The new state again has units without offsets where it is rescaled. *)
  Definition scales_step {W W'} (f : string -> Qc) (rest : W -> W' -> Prop) (q : process (T:=Qc) W) (q' : process (T:=Qc) W') : Prop :=
    forall w w' st dt w1 w1' d n d' n', rest w w' -> linear_state f st ->
      q w st dt = (w1, Ok (d, n)) -> q' w' (by_name times_value f st) dt = (w1', Ok (d', n')) ->
      rest w1 w1' /\ d' = by_name times_da f d /\ n' = by_name times_value f n /\ linear_state f n.

  (** Two monitors. *)
  Definition scales_store {W W'} (f : string -> Qc) (rest : W -> W' -> Prop) (store : W -> state Qc -> W * res unit) (store' : W' -> state Qc -> W' * res unit) : Prop :=
    forall w w' st w1 w1', rest w w' -> store w st = (w1, Ok tt) -> store' w' (by_name times_value f st) = (w1', Ok tt) -> rest w1 w1'.

  (** A process whose memory stands before that of the stepper. *)
  Definition aside {V S} (q : process (T:=Qc) V) : process (T:=Qc) (V * S) :=
    fun w st dt => let (v, r) := q (fst w) st dt in ((v, snd w), r).
End Spec.
