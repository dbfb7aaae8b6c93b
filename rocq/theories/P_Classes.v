(** Property theorems about the dictionaries that the instances of a class share (C17). *)
From Coq Require Import String List Bool Arith ZArith QArith Qcanon.
From Verif Require Import Prelude ArithM NdArray Units DataArrayM ExampleRegistry GetNp Restore Tracers Components ClassState ClassGrow Ex_Components Ex_Classes.
Import ListNotations.
Open Scope string_scope.
Open Scope nat_scope.
Open Scope list_scope.

#[local] Existing Instance ex_registry | 5.

(** C17: all that any constructions can do to a class of TendencyComponents or ImplicitTendencyComponents, whether they return or raise: nothing is removed, and entries are only added or replaced under the names of tendency diagnostics of instances of that class made with the option. *)
Theorem c17_tendency_class : forall {R : Registry}, forall l w cls,
  match dget cls (w_t w), dget cls (w_t (create_all w l)) with
  | None, None => True
  | Some k, Some k' =>
  k_impl k' = k_impl k /\ k_inp k' = k_inp k /\ k_tend k' = k_tend k /\ k_tro k' = k_tro k /\ k_tunit k' = k_tunit k /\
  forall X, dget X (k_diag k') = dget X (k_diag k) \/
  exists name np p, In (NewTendency cls name true) l /\ In np (k_tend k) /\ X = tendency_name name (fst np) /\
  dget X (k_diag k') = Some p /\ p_units p = p_units (snd np) /\ p_units p <> None /\ p_dims p <> None
  | _, _ => False
  end.
Proof. exact @main_tendency_class. Qed.
Print Assumptions c17_tendency_class.

(** C17: all that any constructions can do to a class of Steppers, whether they return or raise: besides tendency diagnostics, outputs may become inputs. *)
Theorem c17_stepper_class : forall {R : Registry}, forall l w cls,
  match dget cls (w_s w), dget cls (w_s (create_all w l)) with
  | None, None => True
  | Some k, Some k' =>
  m_out k' = m_out k /\ m_tro k' = m_tro k /\ m_tu k' = m_tu k /\
  (forall X, dget X (m_diag k') = dget X (m_diag k) \/
  exists name np p u, In (NewStepper cls name true) l /\ In np (m_out k) /\ X = tendency_name name (fst np) /\
  dget X (m_diag k') = Some p /\ p_units (snd np) = Some u /\ p_units p = Some (per_second u)) /\
  (forall X, dget X (m_inp k') = dget X (m_inp k) \/
  exists name np p, In (NewStepper cls name true) l /\ dget X (m_inp k) = None /\ In np (m_out k) /\ X = fst np /\
  dget X (m_inp k') = Some p /\ p_units p = p_units (snd np))
  | _, _ => False
  end.
Proof. exact @main_stepper_class. Qed.
Print Assumptions c17_stepper_class.

(** Constructions of which two raise, one of them after it has changed its class. *)
Example c17_class_case : exists k k' s s',
  dget "Heater" (w_t world_m) = Some k /\ dget "Heater" (w_t (create_all world_m some_creations)) = Some k' /\
  dget "Mover" (w_s world_m) = Some s /\ dget "Mover" (w_s (create_all world_m some_creations)) = Some s' /\
  keys (k_diag k) = ["speed"] /\ keys (k_diag k') = ["speed"; "T_tendency_from_a"] /\
  keys (m_diag s) = ["speed"] /\ keys (m_diag s') = ["speed"; "q_tendency_from_b"; "wind_tendency_from_b"] /\
  keys (m_inp s) = ["wind"; "T"] /\ keys (m_inp s') = ["wind"; "T"; "q"] /\
  snd (create world_m (NewStepper "Mover" "b" true)) = Err EInvalidProps.
Proof. exact @ex_grows. Qed.

(** C17 for Steppers in the cases where it holds, among them a twin: another instance of the same name, made with the option like the first. *)
Theorem c17_stepper_twin_partial : forall {R : Registry}, forall {T : Type} {A : Arith T} {U} w0 cls name tid w i l
  (ac : U -> dict (rval T) -> Z -> U * res (dict (nd T) * dict (nd T))) u st dt,
  (forall k, dget cls (w_s w0) = Some k -> NoDup (keys (m_out k))) -> new_stepper w0 cls name tid = (w, Ok i) ->
  Forall (fun o => match o with NewTendency _ _ _ => True | NewStepper c n t => t = false \/ c <> cls \/ (tid = true /\ n = name) end) l ->
  call_stepper (create_all w l) i ac u st dt = call_stepper w i ac u st dt.
Proof. exact @main_stepper_twin. Qed.
Print Assumptions c17_stepper_twin_partial.

(** Such constructions, after a Stepper that works. *)
Example c17_twin_hypotheses_met : (forall k, dget "Step" (w_s world_m) = Some k -> NoDup (keys (m_out k))) /\
  new_stepper world_m "Step" "a" true = (fst first_s, Ok (inst_of (snd first_s))) /\
  Forall (fun o => match o with NewTendency _ _ _ => True | NewStepper c n t => t = false \/ c <> "Step" \/ (true = true /\ n = "a") end)
  [NewStepper "Step" "a" true; NewStepper "Mover" "b" true; NewStepper "Step" "b" false; NewTendency "Heater" "a" true] /\
  is_ok (snd (call_stepper (fst first_s) (inst_of (snd first_s)) ac_s 0 st_s 1000000)) = true.
Proof. exact @ex_twin. Qed.

(** C17 is false of constructions that raise: after one, an instance made earlier refuses a state it was called with before. *)
Theorem c17_failed_construction_refuted : exists (w0 w : world) cls i o (ac : nat -> dict (rval Qc) -> Z -> nat * res (dict (nd Qc) * dict (nd Qc))) (st : state Qc),
  new_stepper w0 cls "a" false = (w, Ok i) /\
  is_ok (snd (call_stepper w i ac 0 st 1000000)) = true /\
  snd (create w o) = Err EInvalidProps /\
  snd (call_stepper (create_all w [o]) i ac 0 st 1000000) = Err EInvalidState.
Proof. exact @ex_failed_breaks. Qed.
Print Assumptions c17_failed_construction_refuted.
