(** Concrete cases for the property theorems about the time of a restart (C89). *)
From Coq Require Import String List Bool Arith ZArith QArith Qcanon Lia SpecFloat.
From Verif Require Import Prelude PreludeFacts ArithM NdArray Units DataArrayM GetNp Checks NetCDF SpecNetCDF Clock64 SpecClock ClockMain Ex_Components Ex_NetCDF.
Import ListNotations.
Open Scope string_scope.
Open Scope nat_scope.
Open Scope list_scope.

(** The library of the other examples, with numpy's clock. *)
Definition numpy_lib : NcLib Qc :=
  {| delta_code := delta_code (NcLib:=ex_lib); date_code := date_code (NcLib:=ex_lib);
     date_decode := fun u r z => match unit_of u with Some k => Ok (datetime64_to_datetime (1000 * (r + z * k))) | None => Err EValue end;
     nc_fit := nc_fit (NcLib:=ex_lib); xr_decode := xr_decode (NcLib:=ex_lib) |}.

Lemma ex_numpy : numpy_clock numpy_lib /\ plain_fit numpy_lib.
Proof.
  split; [split|].
  - intros t. cbn [date_code numpy_lib]. cbn. rewrite Z.sub_diag. reflexivity.
  - intros t _. cbn [date_decode numpy_lib]. cbn [unit_of]. change (unit_of "seconds") with (Some 1000000%Z). cbv iota. rewrite Z.mul_0_l, Z.add_0_r. reflexivity.
  - exact ex_fit.
Qed.

(** 2150-01-01 00:00:01 is loaded as a microsecond less. *)
Definition odd_second : Z := 5680281601000000.

Lemma ex_off : exists fs st', restart_store (N:=numpy_lib) "r.nc" false (lone odd_second 1) [] = (Ok tt, fs) /\ NetCDF.load (N:=numpy_lib) "r.nc" fs = Ok st' /\
  dget "time" st' = Some (VTime (odd_second - 1)).
Proof.
  assert (K : match restart_store (N:=numpy_lib) "r.nc" false (lone odd_second 1) [] with
              | (Ok tt, fs) => match NetCDF.load (N:=numpy_lib) "r.nc" fs with Ok st' => match dget "time" st' with Some (VTime t) => Z.eqb t (odd_second - 1) | _ => false end | Err _ => false end
              | _ => false end = true) by (vm_compute; reflexivity).
  destruct (restart_store (N:=numpy_lib) "r.nc" false (lone odd_second 1) []) as [[[]|e] fs]; [|discriminate K].
  destruct (NetCDF.load (N:=numpy_lib) "r.nc" fs) as [st'|e] eqn:E; [|discriminate K]. exists fs, st'. split; [reflexivity|]. split; [exact E|].
  destruct (dget "time" st') as [[a|t]|]; try discriminate K. apply Z.eqb_eq in K. subst t. reflexivity.
Qed.

(** 2016-11-16 00:00:00.000001 and 1900-01-01 are loaded as they were stored. *)
Lemma ex_exact : forall t, In t [1479254400000001; -2208988800000000]%Z -> (Z.abs t < 2 ^ 32 * 1000000)%Z /\ grid_state Lx (lone t 1) /\
  exists fs st', restart_store (N:=numpy_lib) "r.nc" false (lone t 1) [] = (Ok tt, fs) /\ NetCDF.load (N:=numpy_lib) "r.nc" fs = Ok st' /\ dget "time" st' = Some (VTime t).
Proof.
  intros t Ht. split; [destruct Ht as [<-|[<-|[]]]; reflexivity|]. split; [apply ex_restart_hyps|].
  assert (K : match restart_store (N:=numpy_lib) "r.nc" false (lone t 1) [] with
              | (Ok tt, fs) => match NetCDF.load (N:=numpy_lib) "r.nc" fs with Ok st' => match dget "time" st' with Some (VTime t') => Z.eqb t' t | _ => false end | Err _ => false end
              | _ => false end = true) by (destruct Ht as [<-|[<-|[]]]; vm_compute; reflexivity).
  destruct (restart_store (N:=numpy_lib) "r.nc" false (lone t 1) []) as [[[]|e] fs]; [|discriminate K].
  destruct (NetCDF.load (N:=numpy_lib) "r.nc" fs) as [st'|e] eqn:E; [|discriminate K]. exists fs, st'. split; [reflexivity|]. split; [exact E|].
  destruct (dget "time" st') as [[a|t']|]; try discriminate K. apply Z.eqb_eq in K. subst t'. reflexivity.
Qed.

(** The rounding used is that of the binary64 numbers of Coq's library. *)
Definition double (n : Z) : spec_float := binary_normalize 53 1024 n 0 false.
Definition same_number (x : Z * Z) (y : spec_float) : bool :=
  match y with
  | S754_zero _ => Z.eqb (fst x) 0
  | S754_finite s m e => let n := (if s then Z.neg m else Z.pos m) in
      if (0 <=? e)%Z then Z.eqb (n * 2 ^ e * snd x) (fst x) else Z.eqb (n * snd x) (fst x * 2 ^ (- e))
  | _ => false
  end.

Lemma ex_doubles : forallb (fun n => same_number (fl n 1) (double n) && same_number (fl (fst (fl n 1)) (snd (fl n 1) * 1000000000)) (SFdiv 53 1024 (double n) (double 1000000000)))
  [0; 1; 1000; -1000; 9007199254740993; 1479254400000001000; -2208988800000000000; 5680281601000000000; 9223372036854775807; -9223372036854775807; 4294967296000007000]%Z = true.
Proof. vm_compute. reflexivity. Qed.
