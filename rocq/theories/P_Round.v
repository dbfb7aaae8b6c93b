(** Property theorems about rounding in time steppers (C96). *)
From Coq Require Import String List Bool Arith ZArith QArith Qcanon.
From Verif Require Import Prelude ArithM NdArray Units DataArrayM ExampleRegistry GetNp SpecDa Components Composite SpecComposite Steppers SpecSteppers SpecOrder
  SpecConverge SpecRound Ex_Components Ex_Steppers Ex_Order Ex_Converge ConvergeAlg ConvergeMain ConvergeAB Binary64 Binary64Facts RoundFacts RoundMain RoundRK Ex_Round Ex_Binary64.
Import ListNotations.
Open Scope string_scope.
Open Scope nat_scope.
Open Scope list_scope.

#[local] Existing Instance ex_registry | 5.

(** C96: AdamsBashforth in an arithmetic that rounds, with components whose rates are off by rho: if the formula of the scheme misses a curve by d k in step k, the values of the run are finite and miss it by at most what d k, the errors of the rates and one rounding error per step add up to, each step multiplying what is there by at most K. *)
Theorem c96_adams_bashforth : forall {T : Type} {A : Arith T} {R : Registry}, forall {U} num fin big u tiny, rounds A num fin big u tiny ->
  forall cfg (prog : icaller (T:=T) U) dt o n a u0 log s G f L d t0 y e0 rho Yb V F,
  new_ab o = Ok a -> is_order o n ->
  history (adams_bashforth cfg prog) prog dt (a, u0) log s -> wf_log log -> (0 <= dt)%Z ->
  passed_on G log -> (forall k e, nth_error log k = Some e -> dget "time" (e_st e) = Some (VTime (clock t0 dt k))) ->
  rates_near num fin G f V rho dt prog -> lipschitz G L f -> bounded_on G V F f ->
  (0 <= L)%Qc -> (0 <= e0)%Qc -> (0 <= rho)%Qc -> (0 <= V)%Qc -> (0 <= F)%Qc -> (forall j, 0 <= d j)%Qc ->
  (forall e post, log = e :: post -> has_finite fin G (e_st e) /\ near G e0 (reading num (e_st e)) (y 0)) ->
  let h := Q2Qc (dt # 1000000) in
  (forall j, j < length log -> near G (d j) (y (S j)) (fun X c => y j X c + h * ab_slope n f t0 dt y j X c)%Qc) ->
  (forall j X c, j <= length log -> G X c -> within Yb (y j X c) 0%Qc) ->
  (forall m, 1 <= m <= n -> ab_fits big u tiny h V (F + rho)%Qc m) ->
  let K := (1 + h * L * ab_size n)%Qc in
  let D := fun j => (d j + h * (ab_size n * rho) + ab_rounding u tiny h V (F + rho)%Qc (Nat.min n (S j)))%Qc in
  (Yb + bound K D e0 (length log) <= V)%Qc ->
  forall k e, nth_error log k = Some e ->
  has_finite fin G (e_new e) /\ near G (bound K D e0 (S k)) (reading num (e_new e)) (y (S k)).
Proof. exact @ab_rounded_run. Qed.
Print Assumptions c96_adams_bashforth.

(** Four steps of order 3 with twenty binary places. *)
Example c96_fixed_case : round_case (A:=fixed) (fun x => x) (fun _ => True) (cz 1000) (Q2Qc (1 # 2097152)) 1%Qc.
Proof. exact @fixed_case. Qed.

(** The same four steps in double precision. *)
Example c96_double_case : round_case (A:=binary64) b64_num b64_fin b64_big b64_u b64_tiny.
Proof. exact @b64_case. Qed.

(** C96: so for SSPRungeKutta, with the rounding errors of all stages of a step. *)
Theorem c96_runge_kutta : forall {T : Type} {A : Arith T} {R : Registry} num fin big u tiny, rounds A num fin big u tiny -> forall {U} cfg (prog : icaller (T:=T) U) z k0 u0 dt G f L V F W rho Yb, new_rk z = Ok k0 -> proper_components prog -> (0 <= dt)%Z ->
  rates_near num fin G f V rho dt prog -> lipschitz G L f -> bounded_on G V F f -> (0 <= L)%Qc -> (0 <= F)%Qc -> (0 <= rho)%Qc -> (0 <= V)%Qc ->
  let h := Q2Qc (dt # 1000000) in
  rk_fits big u tiny h W V F rho ->
  let K := rk_growth (Z.to_nat z) (h * L) in
  let r := rk_rounding (Z.to_nat z) (h * L) (euler_error u tiny h V F rho) (mix_error u tiny V) in
  forall n d calls k v t0 (st : state T) s' st' y e0, after (ssp_rk cfg prog) calls (k0, u0) = (k, v) -> proper_state st ->
  one_by_one (ssp_rk cfg prog) dt (k, v) st (times t0 dt n) s' st' ->
  has_finite fin G st -> near G e0 (reading num st) (y 0) -> (0 <= e0)%Qc -> (forall j, 0 <= d j)%Qc ->
  (forall j, j < n -> near G (d j) (y (S j)) (shu_osher (Z.to_nat z) h f (clock t0 dt j) (y j))) ->
  (forall j X c, j <= n -> G X c -> within Yb (y j X c) 0%Qc) ->
  (Yb + bound K (fun j => d j + r) e0 n <= W)%Qc ->
  has_finite fin G st' /\ near G (bound K (fun j => d j + r)%Qc e0 n) (reading num st') (y n).
Proof. exact @rk_rounded_run. Qed.
Print Assumptions c96_runge_kutta.

(** Two steps of three stages with twenty binary places. *)
Example c96_fixed_rk_case : round_rk_case (A:=fixed) (fun x => x) (fun _ => True) (cz 1000) (Q2Qc (1 # 2097152)) 1%Qc.
Proof. exact @fixed_rk_case. Qed.

(** The same two steps in double precision. *)
Example c96_double_rk_case : round_rk_case (A:=binary64) b64_num b64_fin b64_big b64_u b64_tiny.
Proof. exact @b64_rk_case. Qed.

(** C96: that is at most a constant times the error at the start, the errors of the formula, and the number of steps times the errors of one step, where the constant depends on the time run only. *)
Theorem c96_adds_up : forall n h L d e0 rho u tiny V F r k m, 1 <= n -> (0 <= h)%Qc -> (0 <= L)%Qc -> (0 <= e0)%Qc -> (0 <= rho)%Qc ->
  (0 <= u)%Qc -> (0 <= tiny)%Qc -> (0 <= V)%Qc -> (0 <= F)%Qc -> (forall j, 0 <= d j)%Qc ->
  (forall i, 1 <= i <= n -> (ab_rounding u tiny h V F i <= r)%Qc) -> (of_nat k * (h * L * ab_size n) <= of_nat m)%Qc ->
  (bound (1 + h * L * ab_size n) (fun j => d j + h * (ab_size n * rho) + ab_rounding u tiny h V F (Nat.min n (S j))) e0 k <=
  Q2Qc (4 # 1) ^ m * (e0 + total_error d k + of_nat k * (h * (ab_size n * rho) + r)))%Qc.
Proof. exact @rounding_adds_up. Qed.
Print Assumptions c96_adds_up.

(** C96: IEEE double precision is such an arithmetic, with u = 2^-53 and numbers up to 2^1023. *)
Theorem c96_double : rounds binary64 b64_num b64_fin b64_big b64_u b64_tiny.
Proof. exact @binary64_rounds. Qed.
Print Assumptions c96_double.
