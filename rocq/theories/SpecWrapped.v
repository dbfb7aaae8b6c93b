(** Specification vocabulary for wrapped components inside time steppers (C93). *)
From Coq Require Import String List Bool Arith ZArith.
From Verif Require Import Prelude ArithM NdArray Units DataArrayM GetNp Components Composite Steppers Basic Wrapped.
Import ListNotations.
Open Scope string_scope.
Open Scope nat_scope.
Open Scope list_scope.

Section Spec.
  Context {T : Type}.

  (** The replies to successive calls of an object. *)
  Fixpoint replies {S O : Type} (call : S -> state T -> Z -> S * O) (calls : list (state T * Z)) (s : S) : list O :=
    match calls with
    | [] => []
    | c :: calls' => let (s', o) := call s (fst c) (snd c) in o :: replies call calls' s'
    end.

  (** The object after them. *)
  Definition left_by {S O : Type} (call : S -> state T -> Z -> S * O) (calls : list (state T * Z)) (s : S) : S :=
    fold_left (fun s c => fst (call s (fst c) (snd c))) calls s.

  Definition at_time (c : state T * Z) (t : Z) : Prop := dget "time" (fst c) = Some (VTime t).

  (** The states have times, each at least [interval] after all those before it. *)
  Definition spaced (interval : Z) (calls : list (state T * Z)) : Prop :=
    Forall (fun c => exists t, at_time c t) calls /\
    ForallOrdPairs (fun c1 c2 => forall t1 t2, at_time c1 t1 -> at_time c2 t2 -> (t1 + interval <= t2)%Z) calls.

  (** Leapfrog also gives the caller's state a new value. *)
  Definition with_state {S O : Type} (call : S -> state T -> Z -> S * state T * O) (s : S) (st : state T) (dt : Z)
      : S * (state T * O) :=
    let '(s', st', o) := call s st dt in (s', (st', o)).

  (** The output kept by the wrapper is still in use at time [t]. *)
  Definition in_use {O : Type} (interval : Z) (w : ufw O) (t : Z) : Prop :=
    exists t0, uf_last w = Some t0 /\ (t < t0 + interval)%Z.

  (** [tried]: the calls made to have the component evaluated once, with the timestep if it
      takes one.  (A TypeError makes the wrapper try again without.) *)
  Definition evaluated_once {O : Type} (implicit : bool) (dt : Z) (tried : list (option Z * res O)) : Prop :=
    (exists r, tried = [(if implicit then Some dt else None, r)]) \/
    (implicit = true /\ exists r, tried = [(Some dt, Err EType); (None, r)]).

  (** A component whose calls are not recorded beside one whose calls are. *)
  Definition unrecorded {U L} (c : icaller (T:=T) U + caller (T:=T) U) : icaller (T:=T) (U * L) + caller (T:=T) (U * L) :=
    match c with
    | inl f => inl (fun ul st dt => let (u', r) := f (fst ul) st dt in ((u', snd ul), r))
    | inr f => inr (fun ul st => let (u', r) := f (fst ul) st in ((u', snd ul), r))
    end.
End Spec.
