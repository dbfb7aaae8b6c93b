(** Property theorems about component calls with any backend (C73). *)
From Coq Require Import String List Bool Arith ZArith QArith Qcanon.
From Verif Require Import Prelude ArithM NdArray Units DataArrayM ExampleRegistry Tracers Components Backend SpecBackend BackendMain Ex_Components Ex_Backend.
Import ListNotations.
Open Scope string_scope.
Open Scope nat_scope.
Open Scope list_scope.

#[local] Existing Instance ex_registry | 5.


(** C73: with the default backend a call is the one of the other property theorems. *)
Theorem c73_default_tendency : forall {T : Type} {A : Arith T} {R : Registry}, forall {U} g c
  (ac : U -> dict (rval T) -> U * res (dict (nd T) * dict (nd T))) u (st : state T),
  fst (gb_tendency_call (da_backend (T := T)) g c (fun u raw => ac u (default_raw raw)) u st) = fst (tendency_call g c ac u st) /\
  snd (gb_tendency_call (da_backend (T := T)) g c (fun u raw => ac u (default_raw raw)) u st) =
  (let* (tend, diag) := snd (tendency_call g c ac u st) in Ok (as_values tend, as_values diag)).
Proof. exact @main_default_tendency. Qed.
Print Assumptions c73_default_tendency.

(** C73: the same for a Stepper. *)
Theorem c73_default_stepper : forall {T : Type} {A : Arith T} {R : Registry}, forall {U} g c
  (ac : U -> dict (rval T) -> Z -> U * res (dict (nd T) * dict (nd T))) u (st : state T) dt,
  fst (gb_stepper_call (da_backend (T := T)) g c (fun u raw dt => ac u (default_raw raw) dt) u st dt) = fst (stepper_call g c ac u st dt) /\
  snd (gb_stepper_call (da_backend (T := T)) g c (fun u raw dt => ac u (default_raw raw) dt) u st dt) =
  (let* (diag, new) := snd (stepper_call g c ac u st dt) in Ok (as_values diag, as_values new)).
Proof. exact @main_default_stepper. Qed.
Print Assumptions c73_default_stepper.

(** C73: the same for a DiagnosticComponent. *)
Theorem c73_default_diagnostic : forall {T : Type} {A : Arith T} {R : Registry}, forall {U} c
  (ac : U -> dict (rval T) -> U * res (dict (nd T))) u (st : state T),
  fst (gb_diagnostic_call (da_backend (T := T)) c (fun u raw => ac u (default_raw raw)) u st) = fst (diagnostic_call c ac u st) /\
  snd (gb_diagnostic_call (da_backend (T := T)) c (fun u raw => ac u (default_raw raw)) u st) =
  (let* diag := snd (diagnostic_call c ac u st) in Ok (as_values diag)).
Proof. exact @main_default_diagnostic. Qed.
Print Assumptions c73_default_diagnostic.

(** C73: two backends whose containers can be related: calls on related states do the same,
    raise the same and return related quantities. *)
Theorem c73_tendency : forall {T V W : Type} {A : Arith T} (B1 : backend T V) (B2 : backend T W) (Rel : V -> W -> Prop), represents Rel B1 B2 -> forall {U} g c
  (ac1 : U -> dict (grval T V) -> U * res (dict (nd T) * dict (nd T)))
  (ac2 : U -> dict (grval T W) -> U * res (dict (nd T) * dict (nd T))) u st1 st2,
  (forall u r1 r2, same_raw Rel r1 r2 -> ac1 u r1 = ac2 u r2) ->
  same_dict Rel st1 st2 ->
  fst (gb_tendency_call B1 g c ac1 u st1) = fst (gb_tendency_call B2 g c ac2 u st2) /\
  same_outcome (same_pair Rel) (snd (gb_tendency_call B1 g c ac1 u st1)) (snd (gb_tendency_call B2 g c ac2 u st2)).
Proof. exact @main_backend_tendency. Qed.
Print Assumptions c73_tendency.

(** C73: the same for a Stepper. *)
Theorem c73_stepper : forall {T V W : Type} {A : Arith T} (B1 : backend T V) (B2 : backend T W) (Rel : V -> W -> Prop), represents Rel B1 B2 -> forall {U} g c
  (ac1 : U -> dict (grval T V) -> Z -> U * res (dict (nd T) * dict (nd T)))
  (ac2 : U -> dict (grval T W) -> Z -> U * res (dict (nd T) * dict (nd T))) u st1 st2 dt,
  (forall u r1 r2 dt, same_raw Rel r1 r2 -> ac1 u r1 dt = ac2 u r2 dt) ->
  same_dict Rel st1 st2 ->
  fst (gb_stepper_call B1 g c ac1 u st1 dt) = fst (gb_stepper_call B2 g c ac2 u st2 dt) /\
  same_outcome (same_pair Rel) (snd (gb_stepper_call B1 g c ac1 u st1 dt)) (snd (gb_stepper_call B2 g c ac2 u st2 dt)).
Proof. exact @main_backend_stepper. Qed.
Print Assumptions c73_stepper.

(** C73: the same for a DiagnosticComponent. *)
Theorem c73_diagnostic : forall {T V W : Type} {A : Arith T} (B1 : backend T V) (B2 : backend T W) (Rel : V -> W -> Prop), represents Rel B1 B2 -> forall {U} c
  (ac1 : U -> dict (grval T V) -> U * res (dict (nd T)))
  (ac2 : U -> dict (grval T W) -> U * res (dict (nd T))) u st1 st2,
  (forall u r1 r2, same_raw Rel r1 r2 -> ac1 u r1 = ac2 u r2) ->
  same_dict Rel st1 st2 ->
  fst (gb_diagnostic_call B1 c ac1 u st1) = fst (gb_diagnostic_call B2 c ac2 u st2) /\
  same_outcome (same_dict Rel) (snd (gb_diagnostic_call B1 c ac1 u st1)) (snd (gb_diagnostic_call B2 c ac2 u st2)).
Proof. exact @main_backend_diagnostic. Qed.
Print Assumptions c73_diagnostic.

(** C73: with a backend whose containers stand for DataArrays, a call does what it does with
    DataArrays, so that all properties of calls carry over. *)
Theorem c73_represents_tendency : forall {T V : Type} {A : Arith T} {R : Registry} (B : backend T V) (Rel : V -> pval T -> Prop), represents Rel B da_backend -> forall {U} g c
  (ac1 : U -> dict (grval T V) -> U * res (dict (nd T) * dict (nd T)))
  (ac : U -> dict (rval T) -> U * res (dict (nd T) * dict (nd T))) u st1 (st : state T),
  (forall u r1 r2, same_raw Rel r1 r2 -> ac1 u r1 = ac u (default_raw r2)) ->
  same_dict Rel st1 st ->
  fst (gb_tendency_call B g c ac1 u st1) = fst (tendency_call g c ac u st) /\
  same_outcome (fun x y => same_dict Rel (fst x) (as_values (fst y)) /\ same_dict Rel (snd x) (as_values (snd y)))
  (snd (gb_tendency_call B g c ac1 u st1)) (snd (tendency_call g c ac u st)).
Proof. exact @main_inherit_tendency. Qed.
Print Assumptions c73_represents_tendency.

(** C73: the same for a Stepper. *)
Theorem c73_represents_stepper : forall {T V : Type} {A : Arith T} {R : Registry} (B : backend T V) (Rel : V -> pval T -> Prop), represents Rel B da_backend -> forall {U} g c
  (ac1 : U -> dict (grval T V) -> Z -> U * res (dict (nd T) * dict (nd T)))
  (ac : U -> dict (rval T) -> Z -> U * res (dict (nd T) * dict (nd T))) u st1 (st : state T) dt,
  (forall u r1 r2 dt, same_raw Rel r1 r2 -> ac1 u r1 dt = ac u (default_raw r2) dt) ->
  same_dict Rel st1 st ->
  fst (gb_stepper_call B g c ac1 u st1 dt) = fst (stepper_call g c ac u st dt) /\
  same_outcome (fun x y => same_dict Rel (fst x) (as_values (fst y)) /\ same_dict Rel (snd x) (as_values (snd y)))
  (snd (gb_stepper_call B g c ac1 u st1 dt)) (snd (stepper_call g c ac u st dt)).
Proof. exact @main_inherit_stepper. Qed.
Print Assumptions c73_represents_stepper.

(** C73: the same for a DiagnosticComponent. *)
Theorem c73_represents_diagnostic : forall {T V : Type} {A : Arith T} {R : Registry} (B : backend T V) (Rel : V -> pval T -> Prop), represents Rel B da_backend -> forall {U} c
  (ac1 : U -> dict (grval T V) -> U * res (dict (nd T)))
  (ac : U -> dict (rval T) -> U * res (dict (nd T))) u st1 (st : state T),
  (forall u r1 r2, same_raw Rel r1 r2 -> ac1 u r1 = ac u (default_raw r2)) ->
  same_dict Rel st1 st ->
  fst (gb_diagnostic_call B c ac1 u st1) = fst (diagnostic_call c ac u st) /\
  same_outcome (fun x y => same_dict Rel x (as_values y))
  (snd (gb_diagnostic_call B c ac1 u st1)) (snd (diagnostic_call c ac u st)).
Proof. exact @main_inherit_diagnostic. Qed.
Print Assumptions c73_represents_diagnostic.

(** A backend with containers of its own that keep data DataArrays do not have. *)
Example c73_hypotheses_met : represents boxes box_backend da_backend /\ same_dict boxes bst_c st_c /\
  (forall u r1 r2, same_raw boxes r1 r2 -> bac_t u r1 = ac_t u (default_raw r2)) /\
  (forall u r1 r2, same_raw boxes r1 r2 -> bac_d u r1 = ac_d u (default_raw r2)) /\
  (forall u r1 r2 dt, same_raw boxes r1 r2 -> bac_s u r1 dt = ac_s u (default_raw r2) dt) /\
  (exists tend diag, gb_tendency_call box_backend empty_treg (c_t true) bac_t 4 bst_c = (5, Ok (tend, diag)) /\
  is_box "K s^-1" ["z"; "x"] [2; 3] 4 (dget "T" tend) = true /\
  is_box "m s^-1" ["x"] [3] 4 (dget "speed" diag) = true /\
  is_box "K s^-1" ["z"; "x"] [2; 3] 4 (dget "T_tendency_from_heater" diag) = true) /\
  (exists diag, gb_diagnostic_call box_backend c_d bac_d 4 bst_c = (5, Ok diag) /\
  is_box "m s^-1" ["x"] [3] 4 (dget "speed" diag) = true).
Proof. exact @ex_inherit. Qed.

(** A Stepper with this backend. *)
Example c73_stepper_case : same_dict boxes bst_s st_s /\
  exists diag new, gb_stepper_call box_backend empty_treg (c_s 1000000) bac_s 0 bst_s 2000000 = (1, Ok (diag, new)) /\
  is_box "m s^-1" ["x"] [3] 5 (dget "speed" diag) = true /\
  is_box "K" ["z"; "x"] [2; 3] 5 (dget "T" new) = true.
Proof. exact @ex_box_stepper. Qed.

(** C73: with any backend, the arrays given to array_call are those get_array returned for the
    declared units and dims, and the quantities returned are those create_quantity made. *)
Theorem c73_tendency_asks : forall {T V : Type} {A : Arith T} (B : backend T V), forall {U} g c
  (ac : U -> dict (grval T V) -> U * res (dict (nd T) * dict (nd T))) u st u' tend diag,
  NoDup (keys (t_tend c)) -> NoDup (keys (t_diag c)) ->
  gb_tendency_call B g c ac u st = (u', Ok (tend, diag)) ->
  exists raw rt rt' rd, ac u raw = (u', Ok (rt, rd)) /\
  (forall k, k <> "tracers" \/ t_packer c = None -> dget k rt' = dget k rt) /\
  (forall k a, dget k raw = Some (GArr a) ->
  asked_input B st (t_inp c) k a \/ (t_packer c <> None /\ k = "tracers")) /\
  (exists t, dget "time" st = Some t /\ dget "time" raw = Some (GTime t)) /\
  (forall n, In n (keys (t_tend c)) -> In n (keys tend)) /\
  (forall n q, dget n tend = Some q ->
  (In n (keys (t_tend c)) /\ made_output B rt' (t_tend c) (t_inp c) st n q) \/
  (~ In n (keys (t_tend c)) /\ t_packer c <> None /\ exists a un ds, b_create B a n un ds st = Ok q)) /\
  (forall n, In n (keys (t_diag c)) -> ~ In n (t_added c) -> In n (keys diag)) /\
  (t_tid c = true -> forall n q, dget n tend = Some q -> dget (tendency_name (t_name c) n) diag = Some q) /\
  (forall n q, dget n diag = Some q -> made_output B rd (t_diag c) (t_inp c) st n q \/
  (t_tid c = true /\ exists m, n = tendency_name (t_name c) m /\ dget m tend = Some q)).
Proof. exact @main_backend_tendency_asks. Qed.
Print Assumptions c73_tendency_asks.

(** C73: the same for a Stepper. *)
Theorem c73_stepper_asks : forall {T V : Type} {A : Arith T} (B : backend T V), forall {U} g c
  (ac : U -> dict (grval T V) -> Z -> U * res (dict (nd T) * dict (nd T))) u st dt u' diag new,
  NoDup (keys (s_out c)) -> NoDup (keys (s_diag c)) ->
  gb_stepper_call B g c ac u st dt = (u', Ok (diag, new)) ->
  exists raw rd rd' rn rn', ac u raw dt = (u', Ok (rd, rn)) /\
  (forall k, k <> "tracers" \/ s_packer c = None -> dget k rn' = dget k rn) /\
  (forall k, s_tid c = false \/ (forall m, In m (keys (s_out c)) -> k <> tendency_name (s_name c) m) -> dget k rd' = dget k rd) /\
  (forall k a, dget k raw = Some (GArr a) ->
  asked_input B st (s_inp c) k a \/ (s_packer c <> None /\ k = "tracers")) /\
  (exists t, dget "time" st = Some t /\ dget "time" raw = Some (GTime t)) /\
  (forall n, In n (keys diag) <-> In n (keys (s_diag c))) /\
  (forall n q, dget n diag = Some q -> made_output B rd' (s_diag c) (s_inp c) st n q) /\
  (forall n, In n (keys (s_out c)) -> In n (keys new)) /\
  (forall n q, dget n new = Some q ->
  (In n (keys (s_out c)) /\ made_output B rn' (s_out c) (s_inp c) st n q) \/
  (~ In n (keys (s_out c)) /\ s_packer c <> None /\ exists a un ds, b_create B a n un ds st = Ok q)).
Proof. exact @main_backend_stepper_asks. Qed.
Print Assumptions c73_stepper_asks.

(** C73: the same for a DiagnosticComponent. *)
Theorem c73_diagnostic_asks : forall {T V : Type} {A : Arith T} (B : backend T V), forall {U} c (ac : U -> dict (grval T V) -> U * res (dict (nd T))) u st u' diag,
  NoDup (keys (d_diag c)) ->
  gb_diagnostic_call B c ac u st = (u', Ok diag) ->
  exists raw rd, ac u raw = (u', Ok rd) /\
  (forall k a, dget k raw = Some (GArr a) -> asked_input B st (d_inp c) k a) /\
  (exists t, dget "time" st = Some t /\ dget "time" raw = Some (GTime t)) /\
  (forall n, In n (keys diag) <-> In n (keys (d_diag c))) /\
  (forall n q, dget n diag = Some q -> made_output B rd (d_diag c) (d_inp c) st n q).
Proof. exact @main_backend_diagnostic_asks. Qed.
Print Assumptions c73_diagnostic_asks.

(** Property dictionaries have distinct names (and ex_inherit, ex_box_stepper are calls that succeed). *)
Example c73_asks_hypotheses_met : NoDup (keys (d_diag c_d)) /\ NoDup (keys (t_tend (c_t true))) /\ NoDup (keys (t_diag (c_t true))) /\
  NoDup (keys (s_out (c_s 1000000))) /\ NoDup (keys (s_diag (c_s 1000000))).
Proof. exact @ex_asks_hyps. Qed.

(** C73: the backend in use is the last one that set_backend accepted. *)
Theorem c73_set_backend : forall {O} (valid : O -> bool) (tried : list O) (start : O),
  fold_left (fun cur b => fst (set_backend valid cur b)) tried start = last_accepted valid start tried /\
  (forall cur b, snd (set_backend valid cur b) = if valid b then Ok tt else Err EType).
Proof. exact @main_set_backend. Qed.
Print Assumptions c73_set_backend.

(** Two accepted, two rejected. *)
Example c73_set_backend_case : last_accepted Nat.even 0 [2; 3; 4; 5] = 4.
Proof. exact @ex_set_backend. Qed.
