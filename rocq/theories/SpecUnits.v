(** Specification vocabulary for units (C08). *)
From Coq Require Import String List Bool ZArith QArith Qcanon.
From Verif Require Import Prelude ArithM Units.
Import ListNotations.

(** The physical amount, in base units, of the number [x] of units [u]. *)
Definition base_value (u : uunit) (x : Qc) : Qc := (x * u_fac u + u_off u)%Qc.

(** A sane registry: no unit has size zero, and two units of the same dimension
    for which "1 u1" and "1 u2" are the same amount are the same unit.  (pint's
    [ureg(a) == ureg(b)] compares exactly these amounts.) *)
Definition sane_registry (R : Registry) : Prop :=
  (forall s u, parse s = Some u -> u_fac u <> 0%Qc) /\
  (forall s1 s2 u1 u2, parse s1 = Some u1 -> parse s2 = Some u2 -> u_dim u1 = u_dim u2 ->
     base_value u1 1%Qc = base_value u2 1%Qc -> u1 = u2).
