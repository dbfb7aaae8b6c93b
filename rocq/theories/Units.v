(** Units: sympl/_core/units.py.
    pint's registry is an oracle [parse] from unit strings to a dimension vector,
    a scale factor and an offset to base units.  Simplification: every pint error
    about a unit string (undefined unit, offset unit used in a product) is
    [EUndefinedUnit]. *)
From Coq Require Import String List Bool ZArith QArith Qcanon.
From Verif Require Import Prelude ArithM NdArray.
Import ListNotations.

Record uunit : Type := mkunit { u_dim : list Z; u_fac : Qc; u_off : Qc }.

Class Registry : Type := { parse : string -> option uunit }.

Fixpoint zs_eqb (l1 l2 : list Z) : bool :=
  match l1, l2 with
  | [], [] => true
  | x :: r1, y :: r2 => Z.eqb x y && zs_eqb r1 r2
  | _, _ => false
  end.

Definition Qc_eqb (x y : Qc) : bool := if Qc_eq_dec x y then true else false.

(** Two units measure the same physical dimension. *)
Definition udim_eqb (u1 u2 : uunit) : bool := zs_eqb (u_dim u1) (u_dim u2).

(** pint: [ureg(s1) == ureg(s2)] compares the quantities "1 u1" and "1 u2". *)
Definition one_eqb (u1 u2 : uunit) : bool :=
  udim_eqb u1 u2 && Qc_eqb (u_fac u1 + u_off u1)%Qc (u_fac u2 + u_off u2)%Qc.

Section Units.
  Context {T : Type} {A : Arith T} {R : Registry}.

  (** [unit_registry(s)] *)
  Definition parseE (s : string) : res uunit :=
    match parse s with Some u => Ok u | None => Err EUndefinedUnit end.

  (** units.py 22-40: units_are_compatible *)
  Definition units_are_compatible (s1 s2 : string) : res bool :=
    let* u1 := parseE s1 in
    let* u2 := parseE s2 in
    Ok (udim_eqb u1 u2).

  (** units.py 43-57: units_are_same *)
  Definition units_are_same (s1 s2 : string) : res bool :=
    let* u1 := parseE s1 in
    let* u2 := parseE s2 in
    Ok (one_eqb u1 u2).

  (** units.py 64-74: is_valid_unit *)
  Definition is_valid_unit (s : string) : bool :=
    match parse s with Some _ => true | None => false end.

  (** pint magnitude conversion between compatible units: a multiplication, plus
      an addition when an offset unit is involved. *)
  Definition uconv (u1 u2 : uunit) (x : T) : T :=
    if Qc_eqb (u_off u1) 0%Qc && Qc_eqb (u_off u2) 0%Qc
    then amul x (aofQ (this (u_fac u1 / u_fac u2)%Qc))
    else aadd (amul x (aofQ (this (u_fac u1 / u_fac u2)%Qc)))
              (aofQ (this ((u_off u1 - u_off u2) / u_fac u2)%Qc)).

  (** units.py 89-90: from_unit_to_another, on a scalar. *)
  Definition from_unit_to_another (x : T) (s1 s2 : string) : res T :=
    let* u1 := parseE s1 in
    let* u2 := parseE s2 in
    if udim_eqb u1 u2 then Ok (uconv u1 u2 x) else Err EValue.
End Units.
