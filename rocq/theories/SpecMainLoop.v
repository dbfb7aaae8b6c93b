(** Specification vocabulary for the main loop of a model (C75, C76). *)
From Coq Require Import String List Bool Arith ZArith QArith.
From Verif Require Import Prelude ArithM NdArray Units DataArrayM GetNp Components Composite Steppers MainLoop.
Import ListNotations.
Open Scope string_scope.
Open Scope nat_scope.
Open Scope list_scope.

Section Spec.
  Context {T : Type} {A : Arith T} {R : Registry}.

  (** The time of a state, in microseconds. *)
  Definition has_time (t : Z) (st : state T) : Prop := dget "time" st = Some (VTime t).

  (** [p] fails on states without [X]. *)
  Definition needs {W} (X : string) (p : process (T:=T) W) : Prop :=
    forall w st dt, ~ In X (keys st) -> exists w' e, p w st dt = (w', Err e).

  (** The new state has all that the state had. *)
  Definition keeps_quantities {W} (p : process (T:=T) W) : Prop :=
    forall w st dt w' d new, p w st dt = (w', Ok (d, new)) -> forall X, In X (keys st) -> In X (keys new).

  (** The new state has nothing but [names]. *)
  Definition returns_only {W} (names : list string) (p : process (T:=T) W) : Prop :=
    forall w st dt w' d new, p w st dt = (w', Ok (d, new)) -> forall X, In X (keys new) -> In X names.

  (** [p] calls none of its diagnostics 'time'. *)
  Definition leaves_time {W} (p : process (T:=T) W) : Prop :=
    forall w st dt w' d new, p w st dt = (w', Ok (d, new)) -> ~ In "time" (keys d).

  (** [P] holds of the new state whenever it holds of the state. *)
  Definition preserves {W} (dt : Z) (P : state T -> Prop) (p : process (T:=T) W) : Prop :=
    forall w st w' d new, P st -> p w st dt = (w', Ok (d, new)) -> P new.

  (** [S] is the state [s] with diagnostics [ds] added: each quantity is the one of the
      last dictionary that has it, or else the one of [s]. *)
  Definition completed (s : state T) (ds : list (dict (da T))) (S : state T) : Prop :=
    (forall X, In X (keys S) <-> In X (keys s) \/ exists d, In d ds /\ In X (keys d)) /\
    (forall X, (forall d, In d ds -> ~ In X (keys d)) -> dget X S = dget X s) /\
    (forall X pre d post a, ds = pre ++ d :: post -> dget X d = Some a -> NoDup (keys d) ->
       (forall d', In d' post -> ~ In X (keys d')) -> dget X S = Some (VDA a)).

  (** Diagnostics [ds] and next state [next]: the processes called in turn from [s]. *)
  Inductive in_turn {W} (dt : Z) : list (process (T:=T) W) -> state T -> list (dict (da T)) -> state T -> Prop :=
  | in_turn_nil : forall s, in_turn dt [] s [] s
  | in_turn_cons : forall p ps s w w' d s1 ds next,
      p w s dt = (w', Ok (d, s1)) -> in_turn dt ps s1 ds next -> in_turn dt (p :: ps) s (d :: ds) next.
End Spec.
