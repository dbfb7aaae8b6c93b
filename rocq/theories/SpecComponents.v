(** Specification vocabulary for components (C09-C17). *)
From Coq Require Import String List Bool Arith ZArith.
From Verif Require Import Prelude ArithM NdArray Units DataArrayM SpecArrays.
Import ListNotations.
Open Scope string_scope.
Open Scope nat_scope.
Open Scope list_scope.

(** ** What a raw output dictionary must contain *)

(** Output [name] may also be returned under alias [al]: its own alias or the
    alias of the input of the same name. *)
Definition alias_of (outp inp : pdict) (name al : string) : Prop :=
  In name (keys outp) /\
  ((exists p, In (name, p) outp /\ p_alias p = Some al) \/
   (exists q, dget name inp = Some q /\ p_alias q = Some al)).

(** The raw dictionary has an entry for output [name]. *)
Definition answered {V} (outp inp : pdict) (raw : dict V) (name : string) : Prop :=
  In name (keys raw) \/ exists al, alias_of outp inp name al /\ In al (keys raw).

(** Some declared, non-ignored output is absent. *)
Definition output_missing {V} (outp inp : pdict) (ign : list string) (raw : dict V) : Prop :=
  exists name, In name (keys outp) /\ ~ In name ign /\ ~ answered outp inp raw name.

(** Some key is neither a declared output nor an alias of one. *)
Definition output_extra {V} (outp inp : pdict) (raw : dict V) : Prop :=
  exists k, In k (keys raw) /\ ~ In k (keys outp) /\ forall name, ~ alias_of outp inp name k.

(** ** What a returned quantity must look like *)

(** [q] has the units and the dims declared for [name]; its axes agree in length
    with the input state. *)
Definition conforms {T} (st : state T) (outp inp : pdict) (name : string) (q : da T) : Prop :=
  exists p ds u, dget name outp = Some p /\ declared_dims outp inp name ds /\ p_units p = Some u /\
    attrs q = [("units", u)] /\
    dims q = expand_dims (wildcard_dims st inp) ds /\
    length (dims q) = length (shape (arr q)) /\
    forall d n m nm p' ds' a, In (d, n) (combine (dims q) (shape (arr q))) ->
      listed st inp nm p' ds' a -> has_dim a d m -> n = m.

(** [out] has exactly the declared quantities, each as declared. *)
Definition as_declared {T} (st : state T) (outp inp : pdict) (out : dict (da T)) : Prop :=
  (forall name, In name (keys out) <-> In name (keys outp)) /\
  forall name q, dget name out = Some q -> conforms st outp inp name q.

(** Every dims declaration has at most one '*'. *)
Definition stars_ok (outp inp : pdict) : Prop :=
  forall name ds, declared_dims outp inp name ds -> one_star ds.

(** ** Usable input *)

Definition agree_on {V} (names : list string) (st st' : dict V) : Prop :=
  forall n, In n names -> dget n st = dget n st'.

(** A declared input is missing, has no or unconvertible units, has unexpected
    dims, or two inputs disagree on a dimension. *)
Definition unusable {T} {R : Registry} (st : state T) (inp : pdict) : Prop :=
  (exists name, In name (keys inp) /\ dget name st = None) \/
  length_conflict st inp \/ unexpected_dim st inp \/ bad_units st inp.

(** ** Well-formed property dictionaries *)

Definition incomplete_input (inp : pdict) : Prop :=
  exists name p, In (name, p) inp /\ (p_units p = None \/ p_dims p = None).

Definition incomplete_output (outp inp : pdict) : Prop :=
  exists name p, In (name, p) outp /\
    (p_units p = None \/ p_dims p = None /\ ~ In name (keys inp)).

Definition shared_alias (pd : pdict) : Prop :=
  exists n1 p1 n2 p2 al, In (n1, p1) pd /\ In (n2, p2) pd /\ n1 <> n2 /\
    p_alias p1 = Some al /\ p_alias p2 = Some al.

(** A quantity that is an input with units [u1] and an output with units [u2]. *)
Definition both (inp outp : pdict) (name u1 u2 : string) : Prop :=
  exists p q, In (name, p) inp /\ dget name outp = Some q /\
    p_units p = Some u1 /\ p_units q = Some u2.

(** Units a tendency of a quantity with units [u] must be convertible to. *)
Definition tendency_units (u : string) : string :=
  if String.eqb u "" then "s^-1" else (u ++ " s^-1")%string.

Section WithRegistry.
  Context {R : Registry}.

  (** Input and output units of a shared quantity measure different things. *)
  Definition clash (f : string -> string) (inp outp : pdict) : Prop :=
    exists name u1 u2 x1 x2, both inp outp name u1 u2 /\
      parse (f u1) = Some x1 /\ parse u2 = Some x2 /\ u_dim x1 <> u_dim x2.

  (** The registry knows the units involved. *)
  Definition shared_known (f : string -> string) (inp outp : pdict) : Prop :=
    forall name u1 u2, both inp outp name u1 u2 ->
      (exists x1, parse (f u1) = Some x1) /\ exists x2, parse u2 = Some x2.

  Definition bad_tendency_properties (inp tend diag : pdict) : Prop :=
    incomplete_input inp \/ shared_alias inp \/
    incomplete_output tend inp \/ shared_alias tend \/ clash tendency_units inp tend \/
    incomplete_output diag inp \/ shared_alias diag \/ clash (fun u => u) inp diag.

  Definition bad_stepper_properties (inp diag outp : pdict) : Prop :=
    incomplete_input inp \/ shared_alias inp \/
    incomplete_output diag inp \/ shared_alias diag \/ clash (fun u => u) inp diag \/
    incomplete_output outp inp \/ shared_alias outp \/ clash (fun u => u) inp outp.
End WithRegistry.

(** An output that is also an input, with other dims or other unit strings: no
    finite difference can be taken. *)
Definition no_difference (inp outp : pdict) : Prop :=
  exists name p q, In (name, p) outp /\ dget name inp = Some q /\
    ((p_dims p <> None /\ (p_dims p <> p_dims q \/ p_tuple p <> p_tuple q)) \/
     p_units p <> p_units q).
