(** Times as numpy has them: how a RestartMonitor turns the time it reads into a datetime.
    Definitions only; the theorems are in ClockMain.v. *)
From Coq Require Import ZArith Bool.
Open Scope Z_scope.

(** The integer nearest to a / b, for b > 0; of two that are equally near, the even one. *)
Definition rne (a b : Z) : Z :=
  let q := a / b in
  let r := a mod b in
  if 2 * r <? b then q else if b <? 2 * r then q + 1 else if Z.even q then q else q + 1.

(** The exponent of the 53-bit number nearest to a / b. *)
Definition exponent (a b : Z) : Z :=
  let e := Z.log2 (Z.abs a) - Z.log2 b - 52 in
  if (if 0 <=? e then Z.abs a <? 2 ^ (52 + e) * b else Z.abs a * 2 ^ (- e) <? 2 ^ 52 * b) then e - 1 else e.

(** The double nearest to a / b, for b > 0, as a fraction: IEEE 754 binary64 with
    round-half-even.  Neither overflow nor subnormal numbers occur here. *)
Definition fl (a b : Z) : Z * Z :=
  let e := exponent a b in
  if 0 <=? e then (rne a (b * 2 ^ e) * 2 ^ e, 1) else (rne (a * 2 ^ (- e)) b, 2 ^ (- e)).

(** util.py 185: datetime.utcfromtimestamp of the double [x], in microseconds since 1970.
    CPython splits x with modf, multiplies the fraction by 1e6, rounds half to even, and
    carries (_PyTime_DoubleToDenominator). *)
Definition utcfromtimestamp (x : Z * Z) : Z :=
  let whole := Z.quot (fst x) (snd x) in
  let frac := Z.rem (fst x) (snd x) in
  let y := fl (frac * 1000000) (snd x) in
  let us := rne (fst y) (snd y) in
  if 1000000 <=? us then (whole + 1) * 1000000 + (us - 1000000)
  else if us <? 0 then (whole - 1) * 1000000 + (us + 1000000)
  else whole * 1000000 + us.

(** util.py 183-185: datetime64_to_datetime, for a datetime64 that counts nanoseconds.
    The quotient of two timedelta64 is that of their counts as doubles. *)
Definition datetime64_to_datetime (ns : Z) : Z :=
  let n := fl ns 1 in
  utcfromtimestamp (fl (fst n) (snd n * 1000000000)).
