(** Specification vocabulary for composites inside composites (C77). *)
From Coq Require Import String List Bool Arith ZArith QArith Qcanon.
From Verif Require Import Prelude ArithM NdArray Units DataArrayM SpecUnits SpecDa GetNp Tracers Components Composite SpecComposite.
Import ListNotations.
Open Scope string_scope.
Open Scope nat_scope.
Open Scope list_scope.

(** Proper DataArrays, the tendencies with known units without offset. *)
Definition fine {R : Registry} (td : dict (da Qc) * dict (da Qc)) : Prop :=
  proper (fst td) /\ (forall X a, dget X (fst td) = Some a -> plain_units a) /\ NoDup (keys (snd td)).

(** The component, called on [st], returns such results if it returns. *)
Definition returns_fine {R : Registry} {U : Type} (st : state Qc) (c : caller U) : Prop :=
  forall u u' td, c u st = (u', Ok td) -> fine td.

(** Composites of components and of other composites, nested in any way. *)
Inductive ctree (U : Type) : Type :=
| Component (c : caller (T:=Qc) U)
| CompositeOf (l : list (ctree U)).
Arguments Component {U}.
Arguments CompositeOf {U}.

(** Calling such an object calls TendencyComponentComposite.__call__ at every level. *)
Fixpoint tree_call {R : Registry} {U : Type} (t : ctree U) : caller U :=
  match t with
  | Component c => c
  | CompositeOf l => tendency_composite_call (map tree_call l)
  end.

(** The components in it, in order. *)
Fixpoint leaves {U : Type} (t : ctree U) : list (caller (T:=Qc) U) :=
  match t with
  | Component c => [c]
  | CompositeOf l => flat_map leaves l
  end.

(** The same with implicit components ([inl]), which also take a timestep. *)
Inductive itree (U : Type) : Type :=
| IComponent (c : icaller (T:=Qc) U + caller (T:=Qc) U)
| ICompositeOf (l : list (itree U)).
Arguments IComponent {U}.
Arguments ICompositeOf {U}.

Definition with_timestep {U : Type} (dt : Z) (c : icaller (T:=Qc) U + caller (T:=Qc) U) : caller U :=
  match c with
  | inl f => fun u st => f u st dt
  | inr f => f
  end.

Fixpoint itree_call {R : Registry} {U : Type} (t : itree U) : icaller U + caller U :=
  match t with
  | IComponent c => c
  | ICompositeOf l => inl (fun u st dt => implicit_composite_call (map itree_call l) dt u st)
  end.

Fixpoint ileaves {U : Type} (t : itree U) : list (icaller (T:=Qc) U + caller (T:=Qc) U) :=
  match t with
  | IComponent c => [c]
  | ICompositeOf l => flat_map ileaves l
  end.

(** Diagnostic components. *)
Section Diagnostics.
  Context {T : Type} {A : Arith T} {U : Type}.

  Inductive dtree : Type :=
  | DComponent (c : dcaller (T:=T) U)
  | DCompositeOf (l : list dtree).

  Fixpoint dtree_call (t : dtree) : dcaller U :=
    match t with
    | DComponent c => c
    | DCompositeOf l => diagnostic_composite_call (map dtree_call l)
    end.

  Fixpoint dleaves (t : dtree) : list (dcaller (T:=T) U) :=
    match t with
    | DComponent c => [c]
    | DCompositeOf l => flat_map dleaves l
    end.

  (** What a component returns is a dictionary. *)
  Definition returns_dict (st : state T) (c : dcaller (T:=T) U) : Prop :=
    forall u u' d, c u st = (u', Ok d) -> NoDup (keys d).
End Diagnostics.
Arguments dtree {T} U.

(** ** Declared properties *)

Definition declares (d : string) (p : props) : Prop := exists ds, p_dims p = Some ds /\ In d ds.

(** Either all of the entries have the wildcard, or none has. *)
Definition unmixed (l : list props) : Prop :=
  (forall p, In p l -> declares "*" p) \/ (forall p, In p l -> ~ declares "*" p).

(** Entries that say the same, dims in any order. *)
Definition same_entry (p q : props) : Prop :=
  p_units p = p_units q /\ p_alias p = p_alias q /\ p_tracer p = p_tracer q /\
  exists dp dq, p_dims p = Some dp /\ p_dims q = Some dq /\ same_set dp dq.

(** The units of quantities declared more than once are known. *)
Definition known {R : Registry} (l : list (string * props)) : Prop :=
  forall X, 2 <= length (entries X l) -> forall p, In p (entries X l) -> units_known R p.

(** An inner composite as the outer one sees it. *)
Definition seen_as (c : tcomp) : bool * cprops := (true, mkcprops (t_inp c) (t_tend c) (t_diag c) None).

Definition inputs_only (inp : pdict) : cprops := mkcprops inp [] [] None.
