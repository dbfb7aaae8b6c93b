(** Specification vocabulary for composites (C18-C22). *)
From Coq Require Import String List Bool Arith ZArith QArith Qcanon.
From Verif Require Import Prelude ArithM NdArray Units DataArrayM GetNp SpecUnits SpecDa.
Import ListNotations.
Open Scope string_scope.
Open Scope nat_scope.
Open Scope list_scope.

Section Spec.
  Context {T : Type} {A : Arith T} {R : Registry}.

  Definition outcome : Type := (dict (da T) * dict (da T))%type.

  (** The components [cs], called one after the other on [st], all return, with
      results [outs]. *)
  Inductive runs {U O : Type} (st : state T) : list (U -> state T -> U * res O) -> U -> U -> list O -> Prop :=
  | runs_nil : forall u, runs st [] u u []
  | runs_cons : forall c cs u u1 u2 td outs, c u st = (u1, Ok td) -> runs st cs u1 u2 outs ->
      runs st (c :: cs) u u2 (td :: outs).

  (** What the dictionaries [l] hold for [X], in order. *)
  Definition contributions (X : string) (l : list (dict (da T))) : list (da T) :=
    flat_map (fun d => match dget X d with Some a => [a] | None => [] end) l.

  (** Dictionaries of proper DataArrays. *)
  Definition proper (d : dict (da T)) : Prop :=
    NoDup (keys d) /\ forall X a, dget X d = Some a -> wf_da a.

  Fixpoint first_len (d : string) (l : list (da T)) : option nat :=
    match l with
    | [] => None
    | a :: r => match dim_len a d with Some n => Some n | None => first_len d r end
    end.

  (** [r] is the sum of [a] and [rest], in the units of [a]. *)
  Definition sum_of (a : da T) (rest : list (da T)) (r : da T) : Prop :=
    wf_da r /\ attrs r = attrs a /\ (exists extra, dims r = dims a ++ extra) /\
    (forall d, dim_len r d = first_len d (a :: rest)) /\
    forall c, in_grid r c -> exists ys,
      Forall2 (fun b y => exists ub ua, units_of b = Some ub /\ units_of a = Some ua /\
                          converted ub ua (da_at b c) y) rest ys /\
      da_at r c = fold_left aadd ys (da_at a c).

  (** Quantities that can be added: a single one, or all in units of one physical
      dimension and with equal lengths of shared dimensions. *)
  Definition addable (l : list (da T)) : Prop :=
    length l <= 1 \/
    ((exists dim, forall a, In a l -> exists s u, units_of a = Some s /\ parse s = Some u /\ u_dim u = dim) /\
     forall a b, In a l -> In b l -> sizes_match a b).
End Spec.

(** Sum of the physical amounts at a point; [None] if one has no known units. *)
Fixpoint sum_amounts {R : Registry} (l : list (da Qc)) (c : string -> nat) : option Qc :=
  match l with
  | [] => Some 0%Qc
  | a :: r => match amount a c, sum_amounts r c with
              | Some x, Some y => Some (x + y)%Qc
              | _, _ => None
              end
  end.

(** The unit of [a] is known and has no offset. *)
Definition plain_units {R : Registry} (a : da Qc) : Prop :=
  exists s u, dget "units" (attrs a) = Some s /\ parse s = Some u /\ u_off u = 0%Qc.

(** ** Properties *)

(** All the entries for [X], in order. *)
Definition entries {V : Type} (X : string) (l : list (string * V)) : list V :=
  flat_map (fun kv => if String.eqb X (fst kv) then [snd kv] else []) l.

(** The dims of an entry for [X]: its own, or those of the input [X]. *)
Definition dims_for (inp : pdict) (X : string) (p : props) : option (list string) :=
  match p_dims p with
  | Some ds => Some ds
  | None => match dget X inp with Some q => p_dims q | None => None end
  end.

(** Entry [p] has units compatible with the units of [p0]. *)
Definition units_compatible {R : Registry} (p p0 : props) : Prop :=
  exists s s0 u u0, p_units p = Some s /\ p_units p0 = Some s0 /\ parse s = Some u /\ parse s0 = Some u0 /\
    u_dim u = u_dim u0.

(** Both entries have units, and the registry knows them. *)
Definition units_known (R : Registry) (p : props) : Prop := exists s u, p_units p = Some s /\ parse s = Some u.

(** [d] is one of the named dims of the declarations [l]. *)
Definition named_in (l : list (list string)) (d : string) : Prop := d <> "*" /\ exists ds, In ds l /\ In d ds.

(** Whether dims [ds] can be added to the already combined declarations [seen],
    according to combine_dims. *)
Definition dims_joinable (seen : list (list string)) (ds : list string) : Prop :=
  (forall s, In s seen -> In "*" s) \/ (forall d, named_in seen d <-> named_in [ds] d).

(** The entries [ps] for [X] can be combined into one. *)
Definition combinable {R : Registry} (inp : pdict) (X : string) (ps : list props) : Prop :=
  (forall p, In p ps -> dims_for inp X p <> None) /\
  forall p0 mid p rest, ps = p0 :: mid ++ p :: rest ->
    units_compatible p p0 /\
    forall seen ds, Forall2 (fun q d => dims_for inp X q = Some d) (p0 :: mid) seen -> dims_for inp X p = Some ds ->
      dims_joinable seen ds.

(** [r] is what the entries [p0 :: rest] for [X] combine to: units, alias and kind
    of the first, all named dims, and '*' only if all have it. *)
Definition combined_entry (inp : pdict) (X : string) (p0 : props) (rest : list props) (r : props) : Prop :=
  p_units r = p_units p0 /\ p_alias r = p_alias p0 /\ p_tracer r = p_tracer p0 /\
  exists rd seen, p_dims r = Some rd /\ Forall2 (fun q d => dims_for inp X q = Some d) (p0 :: rest) seen /\
    (In "*" rd <-> forall s, In s seen -> In "*" s) /\ (forall d, d <> "*" -> (In d rd <-> named_in seen d)).

(** ** Dims specifications *)

(** A quantity with dims [q] fits the declaration [ds]: it has all named dims, and
    no others unless '*' is declared. *)
Definition fits (q ds : list string) : Prop :=
  (forall d, In d ds -> d <> "*" -> In d q) /\ (In "*" ds \/ forall d, In d q -> In d ds).

(** Lists with the same elements. *)
Definition same_set (l1 l2 : list string) : Prop := forall d, In d l1 <-> In d l2.

(** ** Diagnostics *)

(** The name [k] occurs in two different dictionaries of the list. *)
Definition shared_key {V : Type} (l : list (dict V)) (k : string) : Prop :=
  exists l1 d1 l2 d2 l3, l = l1 ++ d1 :: l2 ++ d2 :: l3 /\ In k (keys d1) /\ In k (keys d2).

(** [d] holds exactly what the dictionaries [l] hold. *)
Definition union_of {V : Type} (l : list (dict V)) (d : dict V) : Prop :=
  forall X v, dget X d = Some v <-> exists e, In e l /\ dget X e = Some v.

(** ** Comparing composites *)

(** A component whose result depends only on its argument. *)
Definition stateless {T O : Type} (f : state T -> res O) : unit -> state T -> unit * res O := fun u st => (u, f st).

(** Dictionaries holding the same names. *)
Definition agree {V W} (P : V -> W -> Prop) (d : dict V) (d' : dict W) : Prop :=
  forall X, match dget X d, dget X d' with
            | Some a, Some b => P a b
            | None, None => True
            | _, _ => False
            end.
