(** Specification vocabulary for resuming a run from a stored state (C78). *)
From Coq Require Import String List Bool Arith ZArith QArith.
From Verif Require Import Prelude ArithM NdArray Units DataArrayM GetNp Components Composite Steppers MainLoop.
Import ListNotations.
Open Scope string_scope.
Open Scope nat_scope.
Open Scope list_scope.

Section Spec.
  Context {T : Type} {A : Arith T} {R : Registry}.

  (** Dictionaries holding the same, perhaps in another order. *)
  Definition same_state (st st' : state T) : Prop :=
    NoDup (keys st) /\ NoDup (keys st') /\ forall X, dget X st = dget X st'.

  (** Both return the same, or both raise. *)
  Definition same_result (r r' : res (dict (da T) * state T)) : Prop :=
    match r, r' with
    | Ok (d, s), Ok (d', s') => d = d' /\ same_state s s'
    | Err _, Err _ => True
    | _, _ => False
    end.

  (** Components that look up quantities by name, and return dictionaries. *)
  Definition reads_by_name {U} (prog : icaller (T:=T) U) : Prop :=
    (forall u st st' dt, same_state st st' -> prog u st dt = prog u st' dt) /\
    forall u st dt u' t d, prog u st dt = (u', Ok (t, d)) -> NoDup (keys t).

  (** Called with timestep [dt], the process [p] does the same whether the program
      remembers [w] or anything related to it. *)
  Definition interchangeable {W} (Rel : W -> W -> Prop) (dt : Z) (p : process (T:=T) W) : Prop :=
    forall w w' st st', Rel w w' -> same_state st st' ->
      Rel (fst (p w st dt)) (fst (p w' st' dt)) /\ same_result (snd (p w st dt)) (snd (p w' st' dt)).

  (** The same for the monitor. *)
  Definition store_interchangeable {W} (Rel : W -> W -> Prop) (store : W -> state T -> W * res unit) : Prop :=
    forall w w' st st', Rel w w' -> same_state st st' ->
      Rel (fst (store w st)) (fst (store w' st')) /\
      match snd (store w st), snd (store w' st') with Ok _, Ok _ => True | Err _, Err _ => True | _, _ => False end.

  (** Both runs end with the same state, both end with an exception, or both go on. *)
  Definition same_outcome (r r' : option (res (state T))) : Prop :=
    match r, r' with
    | None, None => True
    | Some (Ok s), Some (Ok s') => same_state s s'
    | Some (Err _), Some (Err _) => True
    | _, _ => False
    end.

  (** A stepper of order one that has not been called, or only with timestep [dt]. *)
  Definition euler_object (dt : Z) (a : ab T) : Prop := ab_order a = 1 /\ (ab_dt a = None \/ ab_dt a = Some dt).

  (** Two AdamsBashforth objects of order one next to the same components. *)
  Definition euler_pair {U} (dt : Z) (w w' : ab T * U) : Prop :=
    snd w = snd w' /\ euler_object dt (fst w) /\ euler_object dt (fst w').

  (** Two SSPRungeKutta objects of as many stages next to the same components. *)
  Definition rk_pair {U} (dt : Z) (w w' : rk T * U) : Prop :=
    snd w = snd w' /\ rk_stages (fst w) = rk_stages (fst w') /\
    euler_object dt (rk_euler (fst w)) /\ euler_object dt (rk_euler (fst w')).
End Spec.
