(** Specification vocabulary for moving quantities between a state and raw
    arrays (C01-C07).  Nothing here refers to the modelled algorithms. *)
From Coq Require Import String List Bool Arith ZArith.
From Verif Require Import Prelude ArithM NdArray Units DataArrayM.
Import ListNotations.
Open Scope string_scope.
Open Scope nat_scope.
Open Scope list_scope.

Section Spec.
  Context {T : Type} {A : Arith T} {R : Registry}.

  (** Every quantity of the state is a proper DataArray, and no dimension is
      literally called '*'. *)
  Definition wf_state (st : state T) : Prop :=
    forall name a, dget name st = Some (VDA a) -> wf_da a /\ ~ In "*" (dims a).

  (** '*' is listed at most once in a dims declaration. *)
  Definition one_star (ds : list string) : Prop :=
    ~ In "*" ds \/ exists pre post, ds = pre ++ "*" :: post /\ ~ In "*" (pre ++ post).

  Definition wf_pdict (pd : pdict) : Prop :=
    forall name p ds, In (name, p) pd -> p_dims p = Some ds -> one_star ds.

  (** Dimension [d] of [a] has length [n]. *)
  Definition has_dim (a : da T) (d : string) (n : nat) : Prop :=
    In (d, n) (combine (dims a) (shape (arr a))).

  (** [a] is the state's DataArray for entry [(name, p)], which declares dims [ds]. *)
  Definition listed (st : state T) (pd : pdict) (name : string) (p : props)
      (ds : list string) (a : da T) : Prop :=
    In (name, p) pd /\ p_dims p = Some ds /\ dget name st = Some (VDA a).

  (** Every entry is complete and its quantity is in the state. *)
  Definition complete (st : state T) (pd : pdict) : Prop :=
    forall name p, In (name, p) pd ->
      (exists ds, p_dims p = Some ds) /\ (exists u, p_units p = Some u) /\
      (exists a, dget name st = Some (VDA a)).

  (** Two listed quantities disagree about the length of a dimension. *)
  Definition length_conflict (st : state T) (pd : pdict) : Prop :=
    exists n1 p1 ds1 a1 n2 p2 ds2 a2 d l1 l2,
      listed st pd n1 p1 ds1 a1 /\ listed st pd n2 p2 ds2 a2 /\
      has_dim a1 d l1 /\ has_dim a2 d l2 /\ l1 <> l2.

  (** A listed quantity has a dimension it does not declare, and no '*'. *)
  Definition unexpected_dim (st : state T) (pd : pdict) : Prop :=
    exists name p ds a d,
      listed st pd name p ds a /\ In d (dims a) /\ ~ In d ds /\ ~ In "*" ds.

  (** Dims of one entry that are matched by its '*'. *)
  Definition undeclared (st : state T) (np : string * props) : list string :=
    match p_dims (snd np), dget (fst np) st with
    | Some ds, Some (VDA a) => filter (fun d => negb (mem d ds)) (dims a)
    | _, _ => []
    end.

  (** The dims '*' stands for: all undeclared dims, each once, first seen first. *)
  Definition wildcard_dims (st : state T) (pd : pdict) : list string :=
    dedup (flat_map (undeclared st) pd).

  (** [L] gives the length of every dimension of the listed quantities, and 1 for
      every other dimension. *)
  Definition common_lengths (st : state T) (pd : pdict) (L : string -> nat) : Prop :=
    (forall name p ds a d n, listed st pd name p ds a -> has_dim a d n -> L d = n) /\
    (forall d, (forall name p ds a, listed st pd name p ds a -> ~ In d (dims a)) -> L d = 1).

  (** Length of the axis for declared dim [d], given the wildcard dims [W]. *)
  Definition axis_len (W : list string) (L : string -> nat) (d : string) : nat :=
    if String.eqb d "*" then prod (map L W) else L d.

  (** Position along that axis of the point with named coordinates [c]: the
      coordinate itself, or the row-major number of the wildcard coordinates. *)
  Definition axis_pos (W : list string) (L c : string -> nat) (d : string) : nat :=
    if String.eqb d "*" then ravel (map L W) (map c W) else c d.

  (** [c] is a point of the grid spanned by dims [ds] (with '*' standing for [W]). *)
  Definition grid_point (W : list string) (L c : string -> nat) (ds : list string) : Prop :=
    forall d, In d ds -> if String.eqb d "*" then forall w, In w W -> c w < L w
                         else c d < L d.

  (** Declared dims with '*' replaced by [W]. *)
  Definition expand_dims (W ds : list string) : list string :=
    flat_map (fun d => if String.eqb d "*" then W else [d]) ds.
  (** Raw array [r] is what extraction must give for entry [(name, p)]: the
      declared shape, and at each grid point the unit-converted state value. *)
  Definition extracted (st : state T) (pd : pdict) (L : string -> nat)
      (name : string) (p : props) (r : nd T) : Prop :=
    exists ds u a q,
      p_dims p = Some ds /\ p_units p = Some u /\ dget name st = Some (VDA a) /\
      to_units a u = Ok q /\
      wf_nd r /\ shape r = map (axis_len (wildcard_dims st pd) L) ds /\
      forall c, grid_point (wildcard_dims st pd) L c ds ->
        at_ r (map (axis_pos (wildcard_dims st pd) L c) ds) = da_at q c.

  (** Names that restoring skips. *)
  Definition ignored (raw : dict (nd T)) (outp : pdict) (ignore_names : list string)
      (ignore_missing : bool) (name : string) : Prop :=
    In name ignore_names \/ (ignore_missing = true /\ In name (keys outp) /\ ~ In name (keys raw)).

  (** The dims an output is declared with: its own, else those of the input of
      the same name. *)
  Definition declared_dims (outp inp : pdict) (name : string) (ds : list string) : Prop :=
    exists p, dget name outp = Some p /\
      (p_dims p = Some ds \/ p_dims p = None /\ exists q, dget name inp = Some q /\ p_dims q = Some ds).

  (** The key of an output in the raw dictionary: its own alias, else the alias
      of the input with the same name, else its name. *)
  Definition out_key (outp inp : pdict) (name : string) : string :=
    match dget name outp with
    | Some p => match p_alias p with
                | Some al => al
                | None => match dget name inp with
                          | Some q => raw_name name q
                          | None => name
                          end
                end
    | None => name
    end.

  (** What restoring one quantity guarantees. *)
  Definition restored (raw : dict (nd T)) (st : state T) (outp inp : pdict) (name : string)
      (p : props) (ds : list string) (q : da T) : Prop :=
    exists ra u, dget (out_key outp inp name) raw = Some ra /\ p_units p = Some u /\
      attrs q = [("units", u)] /\
      dims q = expand_dims (wildcard_dims st inp) ds /\
      length (dims q) = length (shape (arr q)) /\
      data (arr q) = data ra /\ prod (shape (arr q)) = prod (shape ra) /\
      (~ In "*" ds -> shape (arr q) = shape ra) /\
      (forall d n, In (d, n) (combine (dims q) (shape (arr q))) ->
         forall nm p' ds' a m, listed st inp nm p' ds' a -> has_dim a d m -> n = m).

  (** [name] is restored from raw array [ra] of the right shape. *)
  Definition restorable (raw : dict (nd T)) (st : state T) (outp inp : pdict) (L : string -> nat)
      (name : string) (p : props) (ds : list string) (u : string) (ra : nd T) : Prop :=
    declared_dims outp inp name ds /\ one_star ds /\ p_units p = Some u /\
    dget (out_key outp inp name) raw = Some ra /\
    shape ra = map (axis_len (wildcard_dims st inp) L) ds /\
    (In "*" ds -> exists nm p' ds', In (nm, p') inp /\ p_dims p' = Some ds' /\ In "*" ds').

  (** All unit strings involved are known to the registry. *)
  Definition known_units (st : state T) (pd : pdict) : Prop :=
    forall name p, In (name, p) pd ->
      (forall u, p_units p = Some u -> exists x, parse u = Some x) /\
      (forall a own, dget name st = Some (VDA a) -> dget "units" (attrs a) = Some own ->
         exists x, parse own = Some x).

  (** A listed quantity has no units, or units that do not convert to the declared ones. *)
  Definition bad_units (st : state T) (pd : pdict) : Prop :=
    exists name p u a, In (name, p) pd /\ p_units p = Some u /\ dget name st = Some (VDA a) /\
      (dget "units" (attrs a) = None \/
       exists own x y, dget "units" (attrs a) = Some own /\ parse own = Some x /\ parse u = Some y /\
         u_dim x <> u_dim y).

  (** No declared dims list names a dimension twice once '*' is replaced. *)
  Definition no_repeated_dims (st : state T) (pd : pdict) : Prop :=
    forall name p ds, In (name, p) pd -> p_dims p = Some ds ->
      NoDup (expand_dims (wildcard_dims st pd) ds).
End Spec.
