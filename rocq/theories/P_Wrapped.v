(** Property theorems about wrapped components inside time steppers (C93). *)
From Coq Require Import String List Bool Arith ZArith QArith Qcanon.
From Verif Require Import Prelude ArithM NdArray Units DataArrayM ExampleRegistry GetNp Components Composite SpecComposite Steppers SpecSteppers Basic SpecBasic
  Wrapped SpecWrapped WrappedFacts WrappedMain Ex_Components Ex_Steppers Ex_Order Ex_Wrapped.
Import ListNotations.
Open Scope string_scope.
Open Scope nat_scope.
Open Scope list_scope.

#[local] Existing Instance ex_registry | 5.

(** C93: when the times of the states given are at least the update interval apart, AdamsBashforth gives the same replies, and leaves itself and the program the same, whether the component is wrapped or not. *)
Theorem c93_adams_bashforth : forall {T : Type} {A : Arith T} {R : Registry}, forall {U} (component : U -> state T -> option Z -> U * res (tends T)) interval implicit pre post cfg calls a u,
  (implicit = true -> forall u st dt, snd (component u st (Some dt)) <> Err EType) -> spaced interval calls ->
  replies (adams_bashforth cfg (wrapped_among component interval implicit pre post)) calls (a, (new_ufw, u)) =
  replies (adams_bashforth cfg (plain_among component implicit pre post)) calls (a, u) /\
  exists a' w' u',
  left_by (adams_bashforth cfg (wrapped_among component interval implicit pre post)) calls (a, (new_ufw, u)) = (a', (w', u')) /\
  left_by (adams_bashforth cfg (plain_among component implicit pre post)) calls (a, u) = (a', u').
Proof. exact @main_ab_transparent. Qed.
Print Assumptions c93_adams_bashforth.

(** Three steps, the last after a pause, with other components before and after, none of which fails. *)
Example c93_case : spaced 1000000 osc_calls /\
  replies (adams_bashforth cfg_0 (plain_among osc_component true osc_beside osc_beside)) osc_calls (mkab 2 None [], 0) <> [] /\
  (forall r, In r (replies (adams_bashforth cfg_0 (plain_among osc_component true osc_beside osc_beside)) osc_calls (mkab 2 None [], 0)) -> exists x, r = Ok x) /\
  (forall u st dt, snd (osc_component u st (Some dt)) <> Err EType).
Proof. exact @ex_spaced. Qed.

(** C93: so does Leapfrog, which also leaves the states given the same. *)
Theorem c93_leapfrog : forall {T : Type} {A : Arith T} {R : Registry}, forall {U} (component : U -> state T -> option Z -> U * res (tends T)) interval implicit pre post cfg calls l u,
  (implicit = true -> forall u st dt, snd (component u st (Some dt)) <> Err EType) -> spaced interval calls ->
  replies (with_state (leapfrog cfg (wrapped_among component interval implicit pre post))) calls (l, (new_ufw, u)) =
  replies (with_state (leapfrog cfg (plain_among component implicit pre post))) calls (l, u) /\
  exists l' w' u',
  left_by (with_state (leapfrog cfg (wrapped_among component interval implicit pre post))) calls (l, (new_ufw, u)) = (l', (w', u')) /\
  left_by (with_state (leapfrog cfg (plain_among component implicit pre post))) calls (l, u) = (l', u').
Proof. exact @main_leap_transparent. Qed.
Print Assumptions c93_leapfrog.

(** C93: during a step of SSPRungeKutta a wrapped component is evaluated at most once, and not at all while its kept output is in use. *)
Theorem c93_once : forall {T : Type} {A : Arith T} {R : Registry}, forall {U} (component : U -> state T -> option Z -> U * res (tends T)) interval, (0 < interval)%Z -> forall implicit pre post cfg k w u l (st : state T) dt t s' r, dget "time" st = Some (VTime t) ->
  ssp_rk cfg (wrapped_among (recording component) interval implicit (map unrecorded pre) (map unrecorded post)) (k, (w, (u, l))) st dt = (s', r) ->
  (snd (snd (snd s')) = l \/ exists tried, snd (snd (snd s')) = l ++ tried /\ evaluated_once implicit dt tried) /\
  (in_use interval w t -> snd (snd (snd s')) = l /\ fst (snd s') = w).
Proof. exact @main_rk_once. Qed.
Print Assumptions c93_once.

(** Three steps; the component is evaluated in the first and the third. *)
Example c93_once_case : exists k w u l s1 r1 r2,
  ssp_rk cfg_0 osc_recorded (mkrk 3 (mkab 1 None []), (new_ufw, (0, []))) (st_osc 0) 1000000 = ((k, (w, (u, l))), Ok r1) /\
  length l = 1 /\ in_use 1500000 w 1000000 /\ ~ in_use 1500000 w 2000000 /\
  ssp_rk cfg_0 osc_recorded (k, (w, (u, l))) (st_osc 1000000) 1000000 = (s1, Ok r2) /\ length (snd (snd (snd s1))) = 1 /\
  length (snd (snd (snd (fst (ssp_rk cfg_0 osc_recorded s1 (st_osc 2000000) 1000000))))) = 2.
Proof. exact @ex_once. Qed.

(** C93: in exact arithmetic a step of SSPRungeKutta with one component, wrapped, is the forward Euler step with the tendencies then kept by the wrapper, for two and for three stages. *)
Theorem c93_euler : forall {R : Registry}, forall {U} (component : U -> state Qc -> option Z -> U * res (tends Qc)) interval implicit cfg z k0 u0 calls k w u
  (st : state Qc) dt t k' w' u' diag new,
  (0 < interval)%Z -> (forall u st ts u' o, component u st ts = (u', Ok o) -> proper (fst o)) ->
  new_rk z = Ok k0 ->
  after (ssp_rk cfg (wrapped_among component interval implicit [] [])) calls (k0, (new_ufw, u0)) = (k, (w, u)) ->
  proper_state st -> dget "time" st = Some (VTime t) ->
  ssp_rk cfg (wrapped_among component interval implicit [] []) (k, (w, u)) st dt = ((k', (w', u')), Ok (diag, new)) ->
  exists tend pdiag, uf_cache w' = Some (tend, pdiag) /\ euler_step dt st tend new /\
  (in_use interval w t -> w' = w) /\ (~ in_use interval w t -> uf_last w' = Some t).
Proof. exact @main_rk_euler. Qed.
Print Assumptions c93_euler.

(** A step while the kept tendencies are in use and one when they are not. *)
Example c93_euler_case : exists k w u s1 d1 n1 s2 d2 n2,
  new_rk (T:=Qc) 3 = Ok (mkrk 3 (mkab 1 None [])) /\
  after (ssp_rk cfg_0 osc_prog) [(st_osc 0, 1000000%Z)] (mkrk 3 (mkab 1 None []), (new_ufw, 0)) = (k, (w, u)) /\
  in_use 1500000 w 1000000 /\ ~ in_use 1500000 w 2000000 /\
  proper_state (st_osc 1000000) /\ proper_state (st_osc 2000000) /\
  ssp_rk cfg_0 osc_prog (k, (w, u)) (st_osc 1000000) 1000000 = (s1, Ok (d1, n1)) /\
  ssp_rk cfg_0 osc_prog (k, (w, u)) (st_osc 2000000) 1000000 = (s2, Ok (d2, n2)).
Proof. exact @ex_euler. Qed.

(** C93: an update interval no longer than the timestep still changes what SSPRungeKutta returns. *)
Theorem c93_runge_kutta_refuted : exists (component : nat -> state Qc -> option Z -> nat * res (tends Qc)) interval z k0 st dt u t,
  (0 < interval)%Z /\ (interval <= dt)%Z /\ new_rk z = Ok k0 /\ proper_state st /\ dget "time" st = Some (VTime t) /\
  (forall u st ts u' o, component u st ts = (u', Ok o) -> proper (fst o)) /\
  exists v1 v2, a_at (fun _ => 0) (snd (ssp_rk cfg_0 (wrapped_among component interval false [] []) (k0, (new_ufw, u)) st dt)) = Some v1 /\
  a_at (fun _ => 0) (snd (ssp_rk cfg_0 (plain_among component false [] []) (k0, u) st dt)) = Some v2 /\ v1 <> v2.
Proof. exact @rk_differs. Qed.
Print Assumptions c93_runge_kutta_refuted.
