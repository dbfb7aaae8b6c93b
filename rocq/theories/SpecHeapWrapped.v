(** Specification vocabulary for UpdateFrequencyWrapper in memory (C94). *)
From Coq Require Import String List Bool Arith ZArith.
From Verif Require Import Prelude ArithM NdArray Units DataArrayM Heap GetNp Components Composite Steppers Basic Wrapped SpecHeap HeapWrapped.
Import ListNotations.
Open Scope string_scope.
Open Scope nat_scope.
Open Scope list_scope.

Section Spec.
  Context {T : Type} {A : Arith T} {R : Registry}.

  (** What the wrapper keeps, as values. *)
  Definition load_kept (h : heap T) (w : hufw) : ufw (tends T) :=
    mkufw (match hu_cache w with None => None | Some (t, d) => Some (load_dict h t, load_dict h d) end) (hu_last w).

  (** The kept arrays exist and none of them lies in [X], the memory others keep to
      themselves. *)
  Definition kept_apart (X : cells) (h : heap T) (w : hufw) : Prop :=
    forall t d, hu_cache w = Some (t, d) ->
      dict_in h t /\ dict_in h d /\ proper_dict h t /\ NoDup (keys d) /\ avoids (cells_of t) X /\ avoids (cells_of d) X.

  (** The wrapper and its component stand for their values. *)
  Definition wrapper_inv {UH UV} (I : invariant (T:=T) UH UV) : invariant (T:=T) (hufw * UH) (ufw (tends T) * UV) :=
    fun X h s v => fst v = load_kept h (fst s) /\ kept_apart X h (fst s) /\ I X h (snd s) (snd v).

  (** The component behaves, whether or not it is given a timestep. *)
  Definition behaves_stepping (P : Prop) {UH UV} (I : invariant (T:=T) UH UV) (hc : hstepping T UH)
      (c : UV -> state T -> option Z -> UV * res (tends T)) : Prop :=
    forall ts, behaves_if P I (fun u h st _ => hc u h st ts) (fun v st _ => c v st ts).
End Spec.
