(** What is meant by the spelling of a unit, and by a unit that pint can read itself. *)
From Coq Require Import String Ascii List Bool ZArith QArith Qcanon.
From Verif Require Import Prelude Units UnitStr.
Open Scope string_scope.

(** [t] is [s] with every percent sign written 'percent' and every degree sign
    written 'degree'. *)
Inductive spelled : string -> string -> Prop :=
| sp_end : spelled "" ""
| sp_percent : forall s t, spelled s t -> spelled ("%" ++ s) ("percent" ++ t)
| sp_degree : forall s t, spelled s t -> spelled ("°" ++ s) ("degree" ++ t)
| sp_other : forall c s t, c <> "%"%char -> (forall r, String c s <> "°" ++ r) ->
    spelled s t -> spelled (String c s) (String c t).

(** A string without these signs is its own spelling. *)
Definition unmarked (s : string) : Prop := spelled s s.

(** pint reads [s] as the unit [u], also without the replacements. *)
Definition reads {P : Pint} (s : string) (u : uunit) : Prop :=
  pint_units s = Ok u /\ forall t, spelled s t -> pint_expr t = Ok (1%Qc, u).

(** Two answers agree: the same value, or both an exception. *)
Definition agree {X} (r1 r2 : res X) : Prop := forall x, r1 = Ok x <-> r2 = Ok x.

(** A unit string is read in the same way by both entries of pint. *)
Definition coherent (P : Pint) : Prop := forall s u, pint_units s = Ok u -> pint_expr s = Ok (1%Qc, u).
