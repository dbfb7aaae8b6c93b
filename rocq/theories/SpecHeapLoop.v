(** Specification vocabulary for a run of a model in memory (C99). *)
From Coq Require Import String List Bool Arith ZArith QArith.
From Verif Require Import Prelude ArithM NdArray Units DataArrayM Heap GetNp Components Composite Steppers SpecSteppers Basic Tracers StrFun NetCDF HeapNetCDF HeapCalls
  SpecHeap MainLoop HeapLoop.
Import ListNotations.
Open Scope string_scope.
Open Scope nat_scope.
Open Scope list_scope.

Section Spec.
  Context {T : Type} {A : Arith T} {R : Registry}.

  (** An object in memory does what the value-level object does, changes nothing that was
      in memory, and returns no array in [X], the memory others keep to themselves.  It may
      keep and return the arrays of the state it is given.  [J X h w v]: in memory [h] the
      objects [w] of the program stand for the values [v]. *)
  Definition process_like {WH WV} (J : invariant (T:=T) WH WV) (hp : hprocess T WH) (p : process (T:=T) WV) : Prop :=
    forall (X : cells) h w v st dt w' h' r,
      J X h w v -> (forall x, X x -> x < length h) -> state_in h st -> avoids (state_cells st) X ->
      hp w h st dt = ((w', h'), r) ->
      grown h h' /\
      (exists v', p v (load_state h st) dt = (v', load_stepped h' r) /\ J X h' w' v') /\
      step_out_in X h' r.

  (** A monitor; it may keep the arrays of the states it is given. *)
  Definition monitor_like {WH WV} (J : invariant (T:=T) WH WV) (hs : hmonitor T WH) (s : WV -> state T -> WV * res unit) : Prop :=
    forall (X : cells) h w v st w' h' r,
      J X h w v -> (forall x, X x -> x < length h) -> state_in h st -> avoids (state_cells st) X ->
      hs w h st = ((w', h'), r) ->
      grown h h' /\ exists v', s v (load_state h st) = (v', r) /\ J X h' w' v'.

  (** Two objects of a program. *)
  Definition both_inv {SH SV UH UV} (J : invariant (T:=T) SH SV) (I : invariant (T:=T) UH UV) : invariant (T:=T) (SH * UH) (SV * UV) :=
    fun X h w v => J X h (fst w) (fst v) /\ I X h (snd w) (snd v).

  (** The components of a Leapfrog object return tendencies for the quantities [K], in
      every call. *)
  Definition tendencies_of {U} (K : list string) (prog : icaller (T:=T) U) : Prop :=
    forall v st dt v' t d, proper_state st -> prog v st dt = (v', Ok (t, d)) -> forall k, In k (keys t) <-> In k K.

  (** What is left of a run, as values. *)
  Definition load_end (h : heap T) (r : option (res hstate)) : option (res (state T)) :=
    match r with
    | None => None
    | Some (Err e) => Some (Err e)
    | Some (Ok st) => Some (Ok (load_state h st))
    end.

  (** The state a Leapfrog object remembers has no array in common with the quantities
      [K] of [st]; so for a new object. *)
  Definition old_apart (l : hleap T) (st : hstate) (K : list string) : Prop :=
    match hlf_old l with
    | None => True
    | Some old => avoids (state_cells old) (named_cells st K)
    end.

  (** The last state exists and is not in [X]. *)
  Definition end_in (X : cells) (h : heap T) (r : option (res hstate)) : Prop :=
    forall st, r = Some (Ok st) -> state_in h st /\ avoids (state_cells st) X.

  (** The files of a NetCDF monitor and the arrays it keeps until they are written. *)
  Definition file_inv : invariant (T:=T) (files T * cache_t nat) (files T * cache_t T) :=
    fun X h w v => v = (fst w, load_cache h (snd w)) /\
      forall t s n a c, In (t, s) (snd w) -> In (n, VDA a) s -> In c (data (arr a)) -> c < length h /\ ~ X c.
End Spec.
