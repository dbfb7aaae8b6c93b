(** Numbers.  The model is parametric in the arithmetic of array elements, so
    that whatever does not depend on algebraic laws holds for IEEE arithmetic as
    well.  [aofQ] is how a Python float literal or a quotient of literals such as
    [23./12] enters the computation. *)
From Coq Require Import QArith Qcanon ZArith PrimFloat Uint63.

Class Arith (T : Type) : Type := {
  azero : T;
  aadd : T -> T -> T;
  asub : T -> T -> T;
  amul : T -> T -> T;
  adiv : T -> T -> T;
  aofQ : Q -> T;
  aeqb : T -> T -> bool      (* Python == on floats *)
}.

(** Exact rational arithmetic. *)
#[global] Instance ArithQc : Arith Qc := {
  azero := 0%Qc;
  aadd := Qcplus;
  asub := Qcminus;
  amul := Qcmult;
  adiv := Qcdiv;
  aofQ := Q2Qc;
  aeqb := Qc_eq_bool
}.

(** binary64.  Integers up to 2^53 are exact; [n/d] is the correctly rounded
    quotient, as for the Python expression [float(n)/float(d)]. *)
Definition float_of_Z (z : Z) : float :=
  match z with
  | Z0 => PrimFloat.zero
  | Zpos _ => PrimFloat.of_uint63 (Uint63.of_Z z)
  | Zneg p => PrimFloat.opp (PrimFloat.of_uint63 (Uint63.of_Z (Zpos p)))
  end.

#[global] Instance ArithFloat : Arith float := {
  azero := PrimFloat.zero;
  aadd := PrimFloat.add;
  asub := PrimFloat.sub;
  amul := PrimFloat.mul;
  adiv := PrimFloat.div;
  aofQ := fun q => PrimFloat.div (float_of_Z (Qnum q)) (float_of_Z (Zpos (Qden q)));
  aeqb := PrimFloat.eqb
}.
