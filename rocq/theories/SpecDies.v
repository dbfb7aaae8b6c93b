(** Specification vocabulary for taking up a run that died (C88). *)
From Coq Require Import String List Bool Arith ZArith QArith.
From Verif Require Import Prelude ArithM NdArray Units DataArrayM GetNp Components Composite Steppers MainLoop NetCDF SpecNetCDF SpecResume.
Import ListNotations.
Open Scope string_scope.
Open Scope nat_scope.
Open Scope list_scope.

Section Spec.
  Context {T : Type} {A : Arith T}.

  (** A dictionary in which the quantities [D], if there, are DataArrays. *)
  Definition tidy (D : list string) (st : state T) : Prop :=
    NoDup (keys st) /\ forall X t, In X D -> dget X st <> Some (VTime t).

  (** The same but for the quantities [D]. *)
  Definition agree_but (D : list string) (st st' : state T) : Prop :=
    tidy D st /\ tidy D st' /\ forall X, ~ In X D -> dget X st = dget X st'.

  (** The same diagnostics, and the same new state but for [D]; or both raise. *)
  Definition same_but (D : list string) (r r' : res (dict (da T) * state T)) : Prop :=
    match r, r' with
    | Ok (d, s), Ok (d', s') => d = d' /\ agree_but D s s'
    | Err _, Err _ => True
    | _, _ => False
    end.

  (** Called with timestep [dt], a process does the same with any objects that fit,
      whatever the quantities [D] of the state are. *)
  Definition memoryless {U} (Fit : U -> Prop) (D : list string) (dt : Z) (p : process (T:=T) U) : Prop :=
    forall u u' st st', Fit u -> Fit u' -> agree_but D st st' ->
      Fit (fst (p u st dt)) /\ Fit (fst (p u' st' dt)) /\ same_but D (snd (p u st dt)) (snd (p u' st' dt)).

  (** A process that always returns the diagnostics [D]. *)
  Definition diagnoses {U} (dt : Z) (p : process (T:=T) U) (D : list string) : Prop :=
    forall u st u' d new, p u st dt = (u', Ok (d, new)) -> NoDup (keys d) /\ forall X, In X (keys d) <-> In X D.

  (** No monitor. *)
  Definition quiet {U} (u : U) (st : state T) : U * res unit := (u, Ok tt).

  (** Two runs that end with the same state but for [D], both raise, or both go on. *)
  Definition same_end (D : list string) (r r' : option (res (state T))) : Prop :=
    match r, r' with
    | None, None => True
    | Some (Ok s), Some (Ok s') => agree_but D s s'
    | Some (Err _), Some (Err _) => True
    | _, _ => False
    end.

  (** Components that do the same with anything they may remember, whatever the
      quantities [D] of the state are, and that give no tendencies of those. *)
  Definition heedless {U} (Fit : U -> Prop) (D : list string) (prog : icaller (T:=T) U) : Prop :=
    (forall u u' st st' dt, Fit u -> Fit u' -> agree_but D st st' ->
       Fit (fst (prog u st dt)) /\ Fit (fst (prog u' st' dt)) /\ snd (prog u st dt) = snd (prog u' st' dt)) /\
    forall u st dt u' t d, prog u st dt = (u', Ok (t, d)) -> NoDup (keys t) /\ forall X, In X (keys t) -> ~ In X D.

  Context {N : NcLib T}.

  (** The store method of a RestartMonitor in a program with other objects [U]. *)
  Definition to_restart {U} (f : string) (w : files T * U) (st : state T) : (files T * U) * res unit :=
    let (r, fs) := restart_store f false st (fst w) in ((fs, snd w), r).

  (** A state that a RestartMonitor can store and load (C56). *)
  Definition restartable (L : string -> nat) (st : state T) : Prop :=
    grid_state L st /\ (exists n, n <> "time" /\ In n (keys st)) /\
    (forall n a n' a', dget n st = Some (VDA a) -> dget n' st = Some (VDA a') -> ~ In n (dims a')) /\
    (forall n a, dget n st = Some (VDA a) -> xr_decode (attrs a) (arr a) = Ok (attrs a, arr a)) /\
    (forall t z, dget "time" st = Some (VTime t) -> date_code "seconds" t t = Ok z -> date_decode "seconds" t z = Ok t).
End Spec.
