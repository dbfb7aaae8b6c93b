(** Specification vocabulary for the main loop with a Leapfrog object (C80). *)
From Coq Require Import String List Bool Arith ZArith QArith.
From Verif Require Import Prelude ArithM NdArray Units DataArrayM GetNp Components Composite Steppers SpecSteppers MainLoop SpecMainLoop.
Import ListNotations.
Open Scope string_scope.
Open Scope nat_scope.
Open Scope list_scope.

Section Spec.
  Context {T : Type} {V : Type}.

  (** The passes of a loop from [st]: for each, the call [e] of the Leapfrog object (with the
      state [l_st e] it was given, which became [l_after e], and its results) and the state [S]
      that the monitor got.  The processes [qs] follow in turn; [S] is the filtered state
      with all diagnostics; the next pass starts from the last state returned, a timestep
      later.  [r]: how the loop ended. *)
  Definition passes (qs : list (process (T:=T) V)) (dt : Z) (st : state T) (es : list (lentry T)) (log : list (state T)) (r : option (res (state T))) : Prop :=
    length es = length log /\
    (forall e, nth_error es 0 = Some e -> l_st e = st) /\
    (forall k e S, nth_error es k = Some e -> nth_error log k = Some S ->
       exists ds next, in_turn dt qs (l_new e) ds next /\ completed (l_after e) (l_diag e :: ds) S /\
         forall s', (exists e', nth_error es (Datatypes.S k) = Some e' /\ s' = l_st e') \/ length log = Datatypes.S k /\ r = Some (Ok s') ->
           exists t, has_time t S /\ s' = dset "time" (VTime (t + dt)) next) /\
    (log = [] -> forall s', r = Some (Ok s') -> s' = st).
End Spec.
