(** Property theorems about unit strings (C85). *)
From Coq Require Import String Ascii List Bool Arith ZArith QArith Qcanon.
From Verif Require Import Prelude ArithM NdArray Units DataArrayM SpecUnits UnitStr SpecUnitStr UnitStrFacts Ex_UnitStr.
Import ListNotations.
Open Scope string_scope.
Open Scope nat_scope.
Open Scope list_scope.

#[local] Existing Instance ex_pint | 5.

(** C85: every string has exactly one spelling without percent and degree signs. *)
Theorem c85_spelling : forall s, exists! t, spelled s t.
Proof. exact @spelled_unique. Qed.
Print Assumptions c85_spelling.

(** C85: a sign and the word for it are the same unit to is_valid_unit, clean_units, units_are_same, and as first argument of units_are_compatible and from_unit_to_another. *)
Theorem c85_signs : forall {P : Pint}, forall s t, spelled s t ->
  p_valid s = p_valid t /\ p_clean s = p_clean t /\
  (forall r, p_same s r = p_same t r /\ p_same r s = p_same r t) /\
  (forall r, p_compatible s r = p_compatible t r) /\
  (forall T (A : Arith T) (x : T) r, p_from_to x s r = p_from_to x t r).
Proof. exact @spelling_irrelevant. Qed.
Print Assumptions c85_signs.

(**  *)
Example c85_signs_hypotheses_met : spelled "%" "percent" /\ spelled "°C" "degreeC" /\ spelled "5 %/°m" "5 percent/degreem" /\
  unmarked "km" /\ ~ unmarked "°".
Proof. exact @ex_spelled. Qed.

(** C85: units_are_same is an equivalence on the strings is_valid_unit accepts, and answers for all of them. *)
Theorem c85_same : forall {P : Pint}, (forall s, p_valid s = Ok true <-> p_same s s = Ok true) /\
  (forall s1 s2, agree (p_same s1 s2) (p_same s2 s1)) /\
  (forall s1 s2 s3, p_same s1 s2 = Ok true -> p_same s2 s3 = Ok true -> p_same s1 s3 = Ok true) /\
  (forall s1 s2, p_valid s1 = Ok true -> p_valid s2 = Ok true -> exists b, p_same s1 s2 = Ok b).
Proof. exact @same_equivalence. Qed.
Print Assumptions c85_same.

(**  *)
Example c85_same_case : p_valid "%" = Ok true /\ p_valid "parsec" = Ok false /\ p_same "%" "percent" = Ok true /\
  p_same "km" "1000 m" = Ok true /\ p_same "°C" "kelvin" = Ok false /\ p_clean "km" = Ok "m".
Proof. exact @ex_same. Qed.

(** C85: for strings that pint reads itself, units_are_compatible says whether the units measure the same dimension; it is symmetric. *)
Theorem c85_compatible_partial : forall {P : Pint}, forall s1 s2 u1 u2, reads s1 u1 -> reads s2 u2 ->
  (p_compatible s1 s2 = Ok true <-> u_dim u1 = u_dim u2) /\
  (p_compatible s1 s2 = Ok false <-> u_dim u1 <> u_dim u2) /\
  p_compatible s1 s2 = p_compatible s2 s1.
Proof. exact @compatible_reads. Qed.
Print Assumptions c85_compatible_partial.

(** C85: such units can be converted when units_are_compatible says so, and the amount stays the same. *)
Theorem c85_converts_partial : forall {P : Pint}, forall (a : da Qc) s1 s2 u1 u2,
  reads s1 u1 -> reads s2 u2 -> u_fac u2 <> 0%Qc -> wf_nd (arr a) ->
  dget "units" (attrs a) = Some s1 -> p_compatible s1 s2 = Ok true ->
  exists q, p_to_units a s2 = Ok q /\ dims q = dims a /\ shape (arr q) = shape (arr a) /\
  ((p_same s1 s2 = Ok true /\ q = a) \/
  (p_same s1 s2 = Ok false /\ dget "units" (attrs q) = Some s2 /\
  (forall k, k <> "units"%string -> dget k (attrs q) = dget k (attrs a)) /\
  forall idx, in_range idx (shape (arr a)) ->
  base_value u2 (at_ (arr q) idx) = base_value u1 (at_ (arr a) idx))).
Proof. exact @compatible_converts. Qed.
Print Assumptions c85_converts_partial.

(**  *)
Example c85_converts_hypotheses_met : exists u1 u2, reads "km" u1 /\ reads "m" u2 /\ u_fac u2 <> 0%Qc /\
  wf_nd (arr (amounts "km")) /\ p_compatible "km" "m" = Ok true /\ p_same "km" "m" = Ok false.
Proof. exact @ex_reads. Qed.

(** C85: whatever the strings, a conversion that succeeds keeps the amount. *)
Theorem c85_amount : forall {P : Pint}, forall (a q : da Qc) s, wf_nd (arr a) ->
  (forall u, pint_units s = Ok u -> u_fac u <> 0%Qc) ->
  p_to_units a s = Ok q ->
  exists own, dget "units" (attrs a) = Some own /\
  ((q = a /\ p_same own s = Ok true) \/
  (p_same own s = Ok false /\ dget "units" (attrs q) = Some s /\ dims q = dims a /\
  shape (arr q) = shape (arr a) /\
  exists u1 u2, pint_units own = Ok u1 /\ pint_units s = Ok u2 /\ u_dim u1 = u_dim u2 /\
  forall idx, in_range idx (shape (arr a)) ->
  base_value u2 (at_ (arr q) idx) = base_value u1 (at_ (arr a) idx))).
Proof. exact @converted_amount. Qed.
Print Assumptions c85_amount.

(**  *)
Example c85_amount_case : p_to_units (amounts "km") "m"
  = Ok (mkda ["x"] (mknd [2] [Q2Qc (1000 # 1); Q2Qc (50000 # 1)]) [("units", "m"); ("note", "a")]) /\
  p_to_units (amounts "1000 m") "km" = Ok (amounts "1000 m").
Proof. exact @ex_converted. Qed.

(** C85: clean_units gives a unit compatible with the given one, if pint can read the names of its base units. *)
Theorem c85_clean : forall {P : Pint}, forall s u b,
  (forall t, spelled s t -> pint_expr t = Ok (1%Qc, u)) -> pint_units (base_name u) = Ok b -> u_dim b = u_dim u ->
  p_clean s = Ok (base_name u) /\ p_compatible s (base_name u) = Ok true.
Proof. exact @clean_compatible. Qed.
Print Assumptions c85_clean.

(**  *)
Example c85_clean_hypotheses_met : exists u b, (forall t, spelled "%" t -> pint_expr t = Ok (1%Qc, u)) /\
  pint_units (base_name u) = Ok b /\ u_dim b = u_dim u /\ p_clean "%" = Ok "count".
Proof. exact @ex_clean_hyps. Qed.

(** C85: for such strings the functions agree with those of the rest of the model, which ask one oracle. *)
Theorem c85_one_oracle : forall {P : Pint}, forall T (A : Arith T) s1 s2 u1 u2, reads s1 u1 -> reads s2 u2 ->
  p_compatible s1 s2 = @units_are_compatible registry_of s1 s2 /\
  p_same s1 s2 = @units_are_same registry_of s1 s2 /\
  p_valid s1 = Ok (@is_valid_unit registry_of s1) /\
  (forall x : T, p_from_to x s1 s2 = @from_unit_to_another T A registry_of x s1 s2) /\
  (forall a : da T, dget "units" (attrs a) = Some s1 -> p_to_units a s2 = @to_units T A registry_of a s2).
Proof. exact @one_oracle. Qed.
Print Assumptions c85_one_oracle.

(** C85 in full is false: with a pint that cannot read a percent sign, units_are_compatible depends on the order of its arguments, *)
Theorem c85_symmetric_refuted : exists P s1 s2 e, coherent P /\
  @p_valid P s1 = Ok true /\ @p_valid P s2 = Ok true /\
  @p_compatible P s1 s2 = Ok true /\ @p_compatible P s2 s1 = Err e.
Proof. exact @compatible_not_symmetric. Qed.
Print Assumptions c85_symmetric_refuted.

(** ... units that are valid and compatible cannot be converted, in either direction, *)
Theorem c85_converts_refuted : exists P s1 s2 (a b : da Qc) e1 e2, coherent P /\
  @p_valid P s1 = Ok true /\ @p_valid P s2 = Ok true /\ @p_compatible P s1 s2 = Ok true /\
  dget "units" (attrs a) = Some s1 /\ @p_to_units Qc _ P a s2 = Err e1 /\
  dget "units" (attrs b) = Some s2 /\ @p_to_units Qc _ P b s1 = Err e2.
Proof. exact @compatible_not_convertible. Qed.
Print Assumptions c85_converts_refuted.

(** ... and is_valid_unit raises on a malformed string. *)
Theorem c85_valid_refuted : exists P s e, coherent P /\ @p_valid P s = Err e.
Proof. exact @valid_raises. Qed.
Print Assumptions c85_valid_refuted.
