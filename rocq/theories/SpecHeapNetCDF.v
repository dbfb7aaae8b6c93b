(** Specification vocabulary for the memory of cached states (C67). *)
From Coq Require Import String List Bool Arith ZArith.
From Verif Require Import Prelude ArithM NdArray DataArrayM Heap StrFun NetCDF HeapNetCDF.
Import ListNotations.
Open Scope string_scope.
Open Scope nat_scope.
Open Scope list_scope.

Section SpecHeapNetCDF.
  Context {T : Type} {A : Arith T} {N : NcLib T}.

  (** The program with each state as it is when it is stored. *)
  Fixpoint at_store (h : heap T) (ops : list (ref_op T)) : list (mon_op T) :=
    match ops with
    | [] => []
    | RStore st :: r => Store (load_refs h st) :: at_store h r
    | RWrite :: r => Write :: at_store h r
    | RMemory h' :: r => at_store h' r
    end.

  (** The cells of the arrays of a state. *)
  Definition cells_of (s : dict (pval nat)) : list nat := flat_map (fun nv => match snd nv with VDA a => data (arr a) | VTime _ => [] end) s.

  (** No array is changed from when it is stored until it has been written: [waiting] are
      the cells of those stored but not written. *)
  Fixpoint undisturbed (on_store : bool) (waiting : list nat) (h : heap T) (ops : list (ref_op T)) : Prop :=
    match ops with
    | [] => True
    | RStore st :: r => undisturbed on_store (if on_store then [] else cells_of st ++ waiting) h r
    | RWrite :: r => undisturbed on_store [] h r
    | RMemory h' :: r => (forall x, In x waiting -> cell h' x = cell h x) /\ undisturbed on_store waiting h' r
    end.
End SpecHeapNetCDF.
