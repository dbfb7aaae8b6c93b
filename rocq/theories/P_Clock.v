(** Property theorems about the time of a restart (C89). *)
From Coq Require Import String List Bool Arith ZArith QArith Qcanon SpecFloat.
From Verif Require Import Prelude ArithM NdArray DataArrayM GetNp NetCDF SpecNetCDF Clock64 SpecClock ClockMain Ex_Components Ex_NetCDF Ex_Clock.
Import ListNotations.
Open Scope string_scope.
Open Scope list_scope.
Open Scope Z_scope.

(** C89 for times within 2^32 seconds of 1970, which is from 1833 to 2106: the conversion of the time read, through seconds as a double, gives the time stored, to the microsecond. *)
Theorem c89_exact_partial : forall t, Z.abs t < 2 ^ 32 * 1000000 -> datetime64_to_datetime (1000 * t) = t.
Proof. exact @main_exact. Qed.
Print Assumptions c89_exact_partial.

(** C89: for every time that a datetime64 can hold, the time loaded is at most one microsecond off. *)
Theorem c89_within : forall t, Z.abs (1000 * t) < 2 ^ 63 -> Z.abs (datetime64_to_datetime (1000 * t) - t) <= 1.
Proof. exact @main_within. Qed.
Print Assumptions c89_within.

(** C89 for the same times: a restart is loaded with the time, and everything else, that was stored. *)
Theorem c89_restart_partial : forall {T : Type} {A : Arith T} {N : NcLib T}, forall L f (st : state T) fs fs', numpy_clock N -> (forall t, dget "time" st = Some (VTime t) -> Z.abs t < 2 ^ 32 * 1000000) ->
  plain_fit N -> grid_state L st -> (exists n, n <> "time" /\ In n (keys st)) ->
  (forall n a n' a', dget n st = Some (VDA a) -> dget n' st = Some (VDA a') -> ~ In n (dims a')) ->
  (forall n a, dget n st = Some (VDA a) -> xr_decode (attrs a) (arr a) = Ok (attrs a, arr a)) ->
  restart_store f false st fs = (Ok tt, fs') ->
  exists st', NetCDF.load f fs' = Ok st' /\ NoDup (keys st') /\ forall n, dget n st' = dget n st.
Proof. exact @main_restart_time. Qed.
Print Assumptions c89_restart_partial.

(** A library that reads times so. *)
Example c89_restart_hyps : numpy_clock numpy_lib /\ plain_fit numpy_lib.
Proof. exact @ex_numpy. Qed.

(** A time with microseconds, and one before 1970. *)
Example c89_restart_case : forall t, In t [1479254400000001; -2208988800000000]%Z -> (Z.abs t < 2 ^ 32 * 1000000)%Z /\ grid_state Lx (lone t 1) /\
  exists fs st', restart_store (N:=numpy_lib) "r.nc" false (lone t 1) [] = (Ok tt, fs) /\ NetCDF.load (N:=numpy_lib) "r.nc" fs = Ok st' /\ dget "time" st' = Some (VTime t).
Proof. exact @ex_exact. Qed.

(** The rounding is that of the binary64 numbers of the library of Coq. *)
Example c89_rounding : forallb (fun n => same_number (fl n 1) (double n) && same_number (fl (fst (fl n 1)) (snd (fl n 1) * 1000000000)) (SFdiv 53 1024 (double n) (double 1000000000)))
  [0; 1; 1000; -1000; 9007199254740993; 1479254400000001000; -2208988800000000000; 5680281601000000000; 9223372036854775807; -9223372036854775807; 4294967296000007000]%Z = true.
Proof. exact @ex_doubles. Qed.

(** C89 does not hold for later times: the restart of 2150-01-01 00:00:01 is loaded as a microsecond earlier. *)
Theorem c89_odd_second_refuted : exists fs st', restart_store (N:=numpy_lib) "r.nc" false (lone odd_second 1) [] = (Ok tt, fs) /\ NetCDF.load (N:=numpy_lib) "r.nc" fs = Ok st' /\
  dget "time" st' = Some (VTime (odd_second - 1)).
Proof. exact @ex_off. Qed.
Print Assumptions c89_odd_second_refuted.
