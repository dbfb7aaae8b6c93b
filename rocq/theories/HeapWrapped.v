(** UpdateFrequencyWrapper (sympl/_core/wrappers.py 192-253) in memory: what it keeps are
    references to the arrays the component returned, and these it returns again.

    The dictionaries themselves are values here: that a caller may add entries to the kept
    dictionaries is not modelled (composites put what they get into dictionaries of their
    own, composite.py 157-167, 229-241). *)
From Coq Require Import String List Bool Arith ZArith.
From Verif Require Import Prelude ArithM NdArray Units DataArrayM Heap GetNp Components Composite Steppers Basic Wrapped.
Import ListNotations.
Open Scope string_scope.
Open Scope nat_scope.
Open Scope list_scope.

(** wrappers.py 216-219: _cached_output and _last_update_time *)
Record hufw : Type := mkhufw { hu_cache : option (dict hda * dict hda); hu_last : option Z }.
Definition new_hufw : hufw := mkhufw None None.

Section Wrapper.
  Context {T : Type} {A : Arith T} {R : Registry}.

  (** state['time'], used with + and >= *)
  Definition h_state_time (st : hstate) : res Z :=
    match dget "time" st with
    | None => Err EKey
    | Some (HTime t) => Ok t
    | Some (HDA _) => Err EType
    end.

  (** A component in memory that may be given a timestep. *)
  Definition hstepping (U : Type) : Type :=
    U -> heap T -> hstate -> option Z -> (U * heap T) * res (dict hda * dict hda).

  (** wrappers.py 243-250 *)
  Definition h_call_component {U} (component : hstepping U) (u : U) (h : heap T) (st : hstate) (ts : option Z)
      : (U * heap T) * res (dict hda * dict hda) :=
    match ts with
    | None => component u h st None
    | Some dt => match component u h st (Some dt) with
                 | ((u', h'), Err EType) => component u' h' st None
                 | r => r
                 end
    end.

  (** wrappers.py 240-253, unpacked by composite.py 233-236 *)
  Definition h_wrapper_call {U} (component : hstepping U) (interval : Z) (ts : option Z) : hcaller (T:=T) (hufw * U) :=
    fun s h st =>
      let (w, u) := s in
      match (match hu_last w with
             | None => Ok true
             | Some t0 => let* t := h_state_time st in Ok (Z.leb (t0 + interval) t)
             end) with
      | Err e => ((s, h), Err e)
      | Ok false => ((s, h), match hu_cache w with Some o => Ok o | None => Err EType end)
      | Ok true =>
          match h_call_component component u h st ts with
          | ((u', h'), Err e) => (((w, u'), h'), Err e)
          | ((u', h'), Ok o) =>
              match h_state_time st with
              | Err e => (((mkhufw (Some o) (hu_last w), u'), h'), Err e)
              | Ok t => (((mkhufw (Some o) (Some t), u'), h'), Ok o)
              end
          end
      end.

  (** Another component: it does not touch [W]. *)
  Definition h_beside {U W} (c : hicaller (T:=T) U + hcaller (T:=T) U) : hicaller (T:=T) (W * U) + hcaller (T:=T) (W * U) :=
    match c with
    | inl f => inl (fun s h st dt => let '((u', h'), r) := f (snd s) h st dt in (((fst s, u'), h'), r))
    | inr f => inr (fun s h st => let '((u', h'), r) := f (snd s) h st in (((fst s, u'), h'), r))
    end.

  (** composite.py 229-241 with a wrapped component among others, as [wrapped_among]. *)
  Definition h_wrapped_among {U} (component : hstepping U) (interval : Z) (implicit : bool)
      (pre post : list (hicaller (T:=T) U + hcaller (T:=T) U)) : hicaller (T:=T) (hufw * U) :=
    h_implicit_composite
      (map h_beside pre
       ++ (if implicit then inl (fun s h st dt => h_wrapper_call component interval (Some dt) s h st)
           else inr (h_wrapper_call component interval None))
       :: map h_beside post).
End Wrapper.
Arguments hstepping T U : clear implicits.
