(** sympl/_core/units.py, with the two ways in which a unit string reaches pint.
    [Units.v] takes one oracle for both; here [unit_registry(s)] goes through the
    registry's own [__call__], while [Quantity(value, s)] and [quantity.to(s)] hand
    the string to pint as it is.  Python's str is a string of UTF-8 bytes. *)
From Coq Require Import String Ascii List Bool ZArith QArith Qcanon.
From Verif Require Import Prelude ArithM NdArray Units DataArrayM StrFun.
Import ListNotations.
Open Scope string_scope.

(** pint: [pint_expr] is UnitRegistry.__call__ (parse_expression), which gives a
    quantity: a magnitude and a unit, as for '1000 m'.  [pint_units] is parse_units,
    which Quantity(value, s) and Quantity.to(s) use.  [base_name u] is the string of
    the base units of [u]. *)
Class Pint : Type := {
  pint_expr : string -> res (Qc * uunit);
  pint_units : string -> res uunit;
  base_name : uunit -> string
}.

(** pint: quantities are equal when they are the same amount of the same dimension. *)
Definition q_eqb (q1 q2 : Qc * uunit) : bool :=
  udim_eqb (snd q1) (snd q2)
  && Qc_eqb (fst q1 * u_fac (snd q1) + u_off (snd q1))%Qc
            (fst q2 * u_fac (snd q2) + u_off (snd q2))%Qc.

(** units.py 9-12 and 66-68: the replacements made in a unit string. *)
Definition unit_spelling (s : string) : string :=
  str_replace "°" "degree" (str_replace "%" "percent" s).

Section UnitStr.
  Context {T : Type} {A : Arith T} {P : Pint}.

  (** units.py 7-13: UnitRegistry.__call__ *)
  Definition ureg_call (s : string) : res (Qc * uunit) := pint_expr (unit_spelling s).

  (** units.py 22-40: units_are_compatible.  Only the DimensionalityError of [to] is
      caught. *)
  Definition p_compatible (s1 s2 : string) : res bool :=
    let* q1 := ureg_call s1 in
    let* u2 := pint_units s2 in
    Ok (udim_eqb (snd q1) u2).

  (** units.py 43-57: units_are_same *)
  Definition p_same (s1 s2 : string) : res bool :=
    let* q1 := ureg_call s1 in
    let* q2 := ureg_call s2 in
    Ok (q_eqb q1 q2).

  (** units.py 60-61: clean_units *)
  Definition p_clean (s : string) : res string :=
    let* q := ureg_call s in Ok (base_name (snd q)).

  (** units.py 64-74: is_valid_unit.  Only UndefinedUnitError is caught. *)
  Definition p_valid (s : string) : res bool :=
    match ureg_call (unit_spelling s) with
    | Ok _ => Ok true
    | Err EUndefinedUnit => Ok false
    | Err e => Err e
    end.

  (** units.py 77-86: data_array_to_units, and dataarray.py 24-54: DataArray.to_units,
      which turns DimensionalityError into ValueError. *)
  Definition p_to_units (a : da T) (units : string) : res (da T) :=
    match dget "units" (attrs a) with
    | None => Err EKey
    | Some own =>
        let* q1 := ureg_call own in
        let* q2 := ureg_call units in
        if negb (q_eqb q1 q2) then
          let* u1 := pint_units own in
          let* u2 := pint_units units in
          if udim_eqb u1 u2
          then Ok (da_map (uconv u1 u2) (dset "units" units (attrs a)) a)
          else Err EValue
        else Ok a
    end.

  (** units.py 89-90: from_unit_to_another, on a scalar.  DimensionalityError is
      [EValue], as in [Units.from_unit_to_another]. *)
  Definition p_from_to (x : T) (s1 s2 : string) : res T :=
    let* q1 := ureg_call s1 in
    let* u2 := pint_units s2 in
    if udim_eqb (snd q1) u2
    then Ok (uconv (snd q1) u2 (if Qc_eqb (fst q1) 1%Qc then x else amul (aofQ (this (fst q1))) x))
    else Err EValue.

  (** The single oracle that [Units.v] works with. *)
  Definition registry_of : Registry :=
    {| parse := fun s => match ureg_call s with
                         | Ok (m, u) => if Qc_eqb m 1%Qc then Some u else None
                         | Err _ => None
                         end |}.
End UnitStr.
