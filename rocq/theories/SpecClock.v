(** Specification vocabulary for the time of a restart (C89). *)
From Coq Require Import ZArith String.
From Verif Require Import Prelude NetCDF Clock64.
Open Scope Z_scope.
Open Scope string_scope.

(** Restarts hold the time 0 after the time of the state.  The reading library turns it
    into a count of nanoseconds since 1970, which load() converts. *)
Definition numpy_clock {T} (N : NcLib T) : Prop :=
  (forall t, date_code (NcLib:=N) "seconds" t t = Ok 0) /\
  forall t, Z.abs (1000 * t) < 2 ^ 63 -> date_decode (NcLib:=N) "seconds" t 0 = Ok (datetime64_to_datetime (1000 * t)).
