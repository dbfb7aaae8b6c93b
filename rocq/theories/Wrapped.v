(** A component behind an UpdateFrequencyWrapper, among the components of a time
    stepper: sympl/_core/wrappers.py 192-253 called from sympl/_core/composite.py 229-241,
    which every time stepper calls (sympl/_core/tendencystepper.py 148).

    The wrapper's two attributes stand beside the state [U] of the rest of the program;
    nothing else writes them. *)
From Coq Require Import String List Bool Arith ZArith.
From Verif Require Import Prelude ArithM NdArray Units DataArrayM GetNp Components Composite Steppers Basic.
Import ListNotations.
Open Scope string_scope.
Open Scope nat_scope.
Open Scope list_scope.

Section Wrapped.
  Context {T : Type} {A : Arith T} {R : Registry}.

  (** What a component with tendencies returns. *)
  Definition tends : Type := (dict (da T) * dict (da T))%type.

  (** Another component: it does not touch [W]. *)
  Definition beside {U W} (c : icaller (T:=T) U + caller (T:=T) U) : icaller (T:=T) (W * U) + caller (T:=T) (W * U) :=
    match c with
    | inl f => inl (fun s st dt => let (u', r) := f (snd s) st dt in ((fst s, u'), r))
    | inr f => inr (fun s st => let (u', r) := f (snd s) st in ((fst s, u'), r))
    end.

  (** wrappers.py 223-253, with [tendencies, diagnostics = ...] of composite.py 233-236:
      None cannot be unpacked. *)
  Definition wrapper_call {U} (component : U -> state T -> option Z -> U * res tends) (interval : Z) (ts : option Z)
      : caller (T:=T) (ufw tends * U) :=
    fun s st => let (s', r) := uf_call component interval s st ts in
                (s', let* o := r in match o with Some td => Ok td | None => Err EType end).

  (** composite.py 229-241: the components [pre], the wrapped one and [post]; [implicit]
      tells whether the wrapped one is an ImplicitTendencyComponent, which the wrapper
      then passes for too. *)
  Definition wrapped_among {U} (component : U -> state T -> option Z -> U * res tends) (interval : Z) (implicit : bool)
      (pre post : list (icaller (T:=T) U + caller (T:=T) U)) : icaller (T:=T) (ufw tends * U) :=
    fun s st dt =>
      implicit_composite_call
        (map beside pre
         ++ (if implicit then inl (fun s st dt => wrapper_call component interval (Some dt) s st)
             else inr (wrapper_call component interval None))
         :: map beside post) dt s st.

  (** The same components without the wrapper. *)
  Definition plain_among {U} (component : U -> state T -> option Z -> U * res tends) (implicit : bool)
      (pre post : list (icaller (T:=T) U + caller (T:=T) U)) : icaller (T:=T) U :=
    fun u st dt =>
      implicit_composite_call
        (pre ++ (if implicit then inl (fun u st dt => component u st (Some dt))
                 else inr (fun u st => component u st None))
         :: post) dt u st.
End Wrapped.
Arguments tends T : clear implicits.
