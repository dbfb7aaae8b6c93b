(** Specification vocabulary for MonitorComposite (C58). *)
From Coq Require Import String List Bool Arith ZArith.
From Verif Require Import Prelude ArithM NdArray DataArrayM NetCDF MonComp.
Import ListNotations.
Open Scope string_scope.
Open Scope nat_scope.
Open Scope list_scope.

Section Calls.
  Context {W St : Type}.

  (** A call of store: which monitor, with which state, and what came of it. *)
  Definition call : Type := nat * St * res unit.

  (** The i-th monitor, recording its calls in a common list. *)
  Definition recording (i : nat) (m : storer W St) : storer (W * list call) St :=
    fun w st => match m (fst w) st with (w', o) => ((w', snd w ++ [(i, st, o)]), o) end.

  Fixpoint recordings (i : nat) (ms : list (storer W St)) : list (storer (W * list call) St) :=
    match ms with
    | [] => []
    | m :: r => recording i m :: recordings (S i) r
    end.

  (** The calls made in one call of the composite with [n] monitors: each monitor once, in
      order, either all returning, or up to the first that raises. *)
  Definition each_once (n : nat) (st : St) (calls : list call) (o : res unit) : Prop :=
    (calls = map (fun i => (i, st, Ok tt)) (seq 0 n) /\ o = Ok tt) \/
    (exists k e, k < n /\ calls = map (fun i => (i, st, Ok tt)) (seq 0 k) ++ [(k, st, Err e)] /\ o = Err e).

  (** Making the calls one after another takes [w] to [w']. *)
  Fixpoint replays (ms : list (storer W St)) (w : W) (calls : list call) (w' : W) : Prop :=
    match calls with
    | [] => w' = w
    | (i, st, o) :: r => exists m w1, nth_error ms i = Some m /\ m w st = (w1, o) /\ replays ms w1 r w'
    end.
End Calls.
Arguments call : clear implicits.

Section Given.
  Context {St : Type}.

  (** For each call of the composite, the monitor that raised, if one did.  The calls that
      reached the i-th monitor. *)
  Definition reached (i : nat) (stop : option nat) : bool := match stop with None => true | Some j => i <=? j end.

  Fixpoint given (i : nat) (stops : list (option nat)) (sts : list St) : list St :=
    match stops, sts with
    | s :: ss, st :: r => if reached i s then st :: given i ss r else given i ss r
    | _, _ => []
    end.

  (** What these calls gave: the exception of the composite if this monitor raised it. *)
  Fixpoint gave (i : nat) (stops : list (option nat)) (os : list (res unit)) : list (res unit) :=
    match stops, os with
    | s :: ss, o :: r =>
        if reached i s then (match s with Some j => if Nat.eqb i j then o else Ok tt | None => Ok tt end) :: gave i ss r else gave i ss r
    | _, _ => []
    end.
End Given.
