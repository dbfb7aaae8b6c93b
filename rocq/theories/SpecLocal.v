(** Specification vocabulary for runs with quantities that no component reads (C82). *)
From Coq Require Import String List Bool Arith ZArith QArith Qcanon.
From Verif Require Import Prelude ArithM NdArray Units DataArrayM Tracers Components Composite Steppers MainLoop SpecComponents SpecCalls.
Import ListNotations.
Open Scope string_scope.
Open Scope nat_scope.
Open Scope list_scope.

Section Spec.
  Context {T : Type} {A : Arith T} {R : Registry}.

  (** What [prog] does and returns depends on the quantities [names] of the state only. *)
  Definition reads {U} (names : list string) (prog : icaller (T:=T) U) : Prop :=
    forall u st st' dt, agree_on names st st' -> prog u st dt = prog u st' dt.

  (** [prog] returns tendencies of [names] only, in a dictionary. *)
  Definition changes {U} (names : list string) (prog : icaller (T:=T) U) : Prop :=
    forall u st dt u' tend diag, prog u st dt = (u', Ok (tend, diag)) -> incl (keys tend) names /\ NoDup (keys tend).

  (** All that component [c] reads or changes is among [names]. *)
  Definition uses (names : list string) (g : treg) (c : tcomp) : Prop :=
    In "time" names /\ incl (keys (t_inp c)) names /\ incl (keys (t_tend c)) names /\ incl (read_tracers g (t_packer c)) names.

  (** Components as the time steppers call them; array_call may take the timestep. *)
  Definition called {U} (g : treg) (cs : list (tcomp * (Z -> U -> dict (rval T) -> U * res (dict (nd T) * dict (nd T))))) : icaller (T:=T) U :=
    fun u st dt => implicit_composite_call (map (fun ca => inl (fun u st dt => tendency_call g (fst ca) (snd ca dt) u st)) cs) dt u st.

  (** The same exception, or the same diagnostics and new states that agree on [names]. *)
  Definition same_result (names : list string) (r r' : res (stepped T)) : Prop :=
    match r, r' with
    | Ok (d, new), Ok (d', new') => d = d' /\ agree_on names new new'
    | Err e, Err e' => e = e'
    | _, _ => False
    end.

  (** An object called with one state after the other, whatever the outcomes. *)
  Fixpoint trace {S O} (step : S -> state T -> Z -> S * O) (s : S) (calls : list (state T * Z)) : S * list O :=
    match calls with
    | [] => (s, [])
    | (st, dt) :: calls' =>
        let (s1, o) := step s st dt in
        let (s2, os) := trace step s1 calls' in (s2, o :: os)
    end.

  (** The same timesteps, and states that agree on [names]. *)
  Definition same_calls (names : list string) : list (state T * Z) -> list (state T * Z) -> Prop :=
    Forall2 (fun a b => agree_on names (fst a) (fst b) /\ snd a = snd b).

  (** No datetime but 'time', and proper DataArrays outside [names]. *)
  Definition plain (names : list string) (st : state T) : Prop :=
    NoDup (keys st) /\ (forall X t, dget X st = Some (VTime t) -> X = "time") /\
    (forall X a, ~ In X names -> dget X st = Some (VDA a) -> wf_da a).

  (** Called with states that agree on [names], in programs related by [rel], a process
      does the same. *)
  Definition respects {W} (P : state T -> Prop) (rel : W -> W -> Prop) (names : list string) (dt : Z) (p : process (T:=T) W) : Prop :=
    forall w w' st st', rel w w' -> P st -> P st' -> agree_on names st st' ->
      rel (fst (p w st dt)) (fst (p w' st' dt)) /\ same_result names (snd (p w st dt)) (snd (p w' st' dt)) /\
      forall d new, snd (p w st dt) = Ok (d, new) \/ snd (p w' st' dt) = Ok (d, new) -> P new.

  (** The same end of two runs. *)
  Definition same_end (names : list string) (r r' : option (res (state T))) : Prop :=
    match r, r' with
    | None, None => True
    | Some (Ok s), Some (Ok s') => agree_on names s s'
    | Some (Err e), Some (Err e') => e = e'
    | _, _ => False
    end.
End Spec.
