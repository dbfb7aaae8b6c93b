(** Specification for C98: states that hold some points of another state. *)
From Coq Require Import String List Bool Arith ZArith.
From Verif Require Import Prelude ArithM NdArray Units DataArrayM SpecDa SpecArrays Tracers SpecComponents Components SpecCalls SpecColumns Composite Steppers.
Import ListNotations.
Open Scope string_scope.
Open Scope nat_scope.
Open Scope list_scope.

Section Spec.
  Context {T : Type} {A : Arith T}.
  (** How the points of a small grid are found in a large one: index [i] along a dim of the small grid is
      index [pick d i] of the large one (a region, a single column, every other point; or, on grids of
      the same size, a shift or a reflection).  A dim with [fixed d = Some i] is one the small grid does
      not have: its points are those with index [i].  The [whole] dims, such as the vertical one, have the
      same length on both grids; [may name d] says that quantity [name] may have the whole dim [d].  If
      [ordered], arrays hold their dims in the same order on both grids. *)
  Record cut := mkcut { pick : string -> nat -> nat; fixed : string -> option nat; ordered : Prop; whole : string -> Prop; may : string -> string -> Prop }.
  Context (g : cut).

  (** The point of the large grid for a point of the small one. *)
  Definition spot (p : string -> nat) (d : string) : nat := match fixed g d with Some i => i | None => pick g d (p d) end.

  Definition part_of (a b : da T) : Prop :=
    wf_da a /\ wf_da b /\ ~ In "*" (dims a) /\ attrs a = attrs b /\
    (forall d, In d (dims b) <-> In d (dims a) /\ fixed g d = None) /\ (ordered g -> dims a = dims b) /\
    (forall d n i, dim_len a d = Some n -> fixed g d = Some i -> i < n) /\
    (forall d n m, dim_len a d = Some n -> dim_len b d = Some m ->
      (forall i, i < m -> pick g d i < n) /\ (whole g d -> n = m)) /\
    forall p, in_grid b p -> da_at a (spot p) = da_at b p.

  Definition part_named (name : string) (a b : da T) : Prop :=
    name <> "time" /\ part_of a b /\ forall d, In d (dims a) -> whole g d -> may g name d.

  Definition part_value (name : string) (v w : pval T) : Prop :=
    match v, w with
    | VDA a, VDA b => part_named name a b
    | VTime s, VTime t => s = t
    | _, _ => False
    end.

  (** The same names in the same order, each value of the second dictionary a part of that of the first. *)
  Definition part_state (st st' : state T) : Prop :=
    Forall2 (fun x y => fst x = fst y /\ part_value (fst x) (snd x) (snd y)) st st'.
  Definition part_dict (d d' : dict (da T)) : Prop :=
    Forall2 (fun x y => fst x = fst y /\ part_named (fst x) (snd x) (snd y)) d d'.
  (** Diagnostics, and states with diagnostics in them: whatever dims and names they have. *)
  Definition part_diags (d d' : dict (da T)) : Prop :=
    Forall2 (fun x y => fst x = fst y /\ part_of (snd x) (snd y)) d d'.
  Definition part_record (st st' : state T) : Prop :=
    Forall2 (fun x y => fst x = fst y /\ match snd x, snd y with
                                         | VDA a, VDA b => part_of a b
                                         | VTime s, VTime t => s = t
                                         | _, _ => False
                                         end) st st'.

  (** A component (with whatever it remembers) called on part of a state returns the part of what the
      same component, or another, returns for the whole state. *)
  Definition local {U V} (same : U -> V -> Prop) (p : icaller (T:=T) U) (q : icaller (T:=T) V) : Prop :=
    forall u v st st' dt u' v' t d t' d', same u v -> part_state st st' ->
      p u st dt = (u', Ok (t, d)) -> q v st' dt = (v', Ok (t', d')) ->
      same u' v' /\ part_dict t t' /\ part_diags d d'.

  (** The same of something that takes a state to diagnostics and a state. *)
  Definition local_step {U V} (same : U -> V -> Prop) (p : U -> state T -> Z -> U * res (dict (da T) * state T))
      (q : V -> state T -> Z -> V * res (dict (da T) * state T)) : Prop :=
    forall u v st st' dt u' v' d n d' n', same u v -> part_state st st' ->
      p u st dt = (u', Ok (d, n)) -> q v st' dt = (v', Ok (d', n')) ->
      same u' v' /\ part_diags d d' /\ part_state n n'.

  (** The same of a component that is called without a timestep. *)
  Definition local_call {U V} (same : U -> V -> Prop) (p : caller (T:=T) U) (q : caller (T:=T) V) : Prop :=
    local same (fun u st _ => p u st) (fun v st _ => q v st).
End Spec.

(** Calls one after another, all of which return. *)
Fixpoint returned {T U X} (call : U -> state T -> Z -> U * res X) (u : U) (log : list (state T * Z * X)) : Prop :=
  match log with
  | [] => True
  | (st, dt, x) :: log => exists u', call u st dt = (u', Ok x) /\ returned call u' log
  end.

(** A Leapfrog object as something that returns the filtered state as well. *)
Definition with_filtered {T : Type} {A : Arith T} {R : Registry} {U : Type} (cfg : tstep) (prog : icaller (T:=T) U)
    : leap T * U -> state T -> Z -> (leap T * U) * res (state T * stepped T) :=
  fun s st dt => let '(s', st', r) := leapfrog cfg prog s st dt in (s', match r with Ok x => Ok (st', x) | Err e => Err e end).

(** The whole dims are those of the large grid, index by index. *)
Definition whole_kept (g : cut) : Prop := forall d, whole g d -> fixed g d = None /\ forall i, pick g d i = i.

(** Properties of a component that works on columns: the dims it names are whole, its inputs are declared
    with every whole dim they may have, and every output has '*' and, besides, dims of the inputs. *)
Definition column_physics (g : cut) (inp outp : pdict) : Prop :=
  (forall d, input_dim inp d -> d <> "*" -> whole g d) /\
  (forall name p ds d, In (name, p) inp -> p_dims p = Some ds -> whole g d -> may g name d -> In d ds) /\
  forall name ds, declared_dims outp inp name ds -> NoDup ds /\ In "*" ds /\ forall d, In d ds -> d <> "*" -> input_dim inp d.

(** The outputs may have the whole dims they are declared with. *)
Definition may_output (g : cut) (inp outp : pdict) : Prop :=
  forall name ds d, declared_dims outp inp name ds -> In d ds -> d <> "*" -> may g name d.

(** ** States that a reflection or a shift of the grid leaves as they are *)
(** Every point is moved to a point of the grid, and the values at the two are the same. *)
Definition unmoved {T : Type} {A : Arith T} (g : cut) (st : state T) : Prop :=
  forall name a, In (name, VDA a) st ->
    (forall d n i, dim_len a d = Some n -> i < n -> pick g d i < n) /\
    forall p, in_grid a p -> da_at a (fun d => pick g d (p d)) = da_at a p.

(** The value at every point depends only on the point's place along the whole dims. *)
Definition level {T : Type} {A : Arith T} (whole : string -> Prop) (st : state T) : Prop :=
  forall name a, In (name, VDA a) st -> forall p p', in_grid a p -> in_grid a p' -> (forall d, whole d -> p d = p' d) -> da_at a p = da_at a p'.

(** Every point to the first of its level. *)
Definition to_first (whole : string -> bool) (may : string -> string -> Prop) : cut :=
  mkcut (fun d i => if whole d then i else 0) (fun _ => None) True (fun d => whole d = true) may.

(** States with well-formed arrays, whose quantities have no whole dims but those they may have. *)
Definition proper_state {T : Type} (g : cut) (st : state T) : Prop :=
  forall name v, In (name, v) st -> match v with
    | VDA a => name <> "time" /\ wf_da a /\ ~ In "*" (dims a) /\ forall d, In d (dims a) -> whole g d -> may g name d
    | VTime _ => True
    end.
