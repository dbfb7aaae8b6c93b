(** Property theorems about component calls in memory (C69-C71). *)
From Coq Require Import String List Bool Arith ZArith QArith Qcanon.
From Verif Require Import Prelude ArithM NdArray Units DataArrayM ExampleRegistry SpecArrays GetNp Tracers Composite SpecComposite Steppers Heap Components HeapCalls
  SpecHeap SpecHeapCalls HeapCallsMain HeapCallsShare HeapCallsSpare Ex_Components Ex_Heap Ex_HeapCalls.
Import ListNotations.
Open Scope string_scope.
Open Scope nat_scope.
Open Scope list_scope.

#[local] Existing Instance ex_registry | 5.


(** C69: a call of a TendencyComponent or ImplicitTendencyComponent. [cp] tells which reshapes make numpy copy. *)
Theorem c69_tendency : forall {T : Type} {A : Arith T} {R : Registry} (cp : nd nat -> list nat -> bool), forall {U} g c (hac : harray T U _) dt u (h : heap T) st u' h' r, state_in h st ->
  h_tendency_call cp g c hac u h st dt = ((u', h'), r) -> only_array_call both both_results hac u h st dt u' h' r.
Proof. exact @main_tendency_frame. Qed.
Print Assumptions c69_tendency.

(** C69: a call of a Stepper. *)
Theorem c69_stepper : forall {T : Type} {A : Arith T} {R : Registry} (cp : nd nat -> list nat -> bool), forall {U} g c (hac : harray T U _) dt u (h : heap T) st u' h' r, state_in h st ->
  h_stepper_call cp g c hac u h st dt = ((u', h'), r) -> only_array_call both both_results hac u h st dt u' h' r.
Proof. exact @main_stepper_frame. Qed.
Print Assumptions c69_stepper.

(** C69: a call of a DiagnosticComponent. *)
Theorem c69_diagnostic : forall {T : Type} {A : Arith T} {R : Registry} (cp : nd nat -> list nat -> bool), forall {U} c (hac : harray T U _) u (h : heap T) st u' h' r, state_in h st ->
  h_diagnostic_call cp c hac u h st = ((u', h'), r) -> only_array_call single single_result hac u h st 0 u' h' r.
Proof. exact @main_diagnostic_frame. Qed.
Print Assumptions c69_diagnostic.

(** C69: memory that array_call leaves alone, wherever it gets it from, is left alone by the call. *)
Theorem c69_tendency_spares : forall {T : Type} {A : Arith T} {R : Registry} (cp : nd nat -> list nat -> bool), forall {U} (X : cells) g c (hac : harray T U _), array_spares X hac ->
  spares X (h_tendency_call cp g c hac).
Proof. exact @main_tendency_spares. Qed.
Print Assumptions c69_tendency_spares.

(** C69: the same for a Stepper. *)
Theorem c69_stepper_spares : forall {T : Type} {A : Arith T} {R : Registry} (cp : nd nat -> list nat -> bool), forall {U} (X : cells) g c (hac : harray T U _), array_spares X hac ->
  spares X (h_stepper_call cp g c hac).
Proof. exact @main_stepper_spares. Qed.
Print Assumptions c69_stepper_spares.

(** C69: the same for a DiagnosticComponent. *)
Theorem c69_diagnostic_spares : forall {T : Type} {A : Arith T} {R : Registry} (cp : nd nat -> list nat -> bool), forall {U} (X : cells) c (hac : harray T U _), array_spares X hac ->
  forall u h st u' h' r, h_diagnostic_call cp c hac u h st = ((u', h'), r) -> changed_in (fun c => ~ X c) h h'.
Proof. exact @main_diagnostic_spares. Qed.
Print Assumptions c69_diagnostic_spares.

(** A call that copies one input and hands out views of the others. *)
Example c69_hypotheses_met : state_in memc hst /\
  (let '((u, h), r) := h_tendency_call never empty_treg (c_t true) (hac_inplace "t" "wind" "t" "speed") 0 memc hst 0%Z in
  match r with
  | Ok (t, d) => Nat.eqb (length h) 13 && qcs_eqb (firstn 10 h) [11; 12; 13; 14; 15; 16; 1; 2; 3; 99]%Z
  | Err _ => false
  end) = true /\
  (let '((u, h), r) := h_tendency_call always empty_treg (c_t true) (hac_inplace "t" "wind" "t" "speed") 0 memc hst 0%Z in
  match r with
  | Ok (t, d) => qcs_eqb (firstn 10 h) [10; 11; 12; 13; 14; 15; 1; 2; 3; 99]%Z
  | Err _ => false
  end) = true.
Proof. exact @ex_frame. Qed.

(** An array_call that writes to nothing. *)
Example c69_spares_case : array_spares cell9 (hac_same "t" "wind" "t" "speed") /\
  is_ok (snd (h_tendency_call never empty_treg (c_t true) (hac_same "t" "wind" "t" "speed") 0 memc hst 0%Z)) = true.
Proof. exact @ex_spares. Qed.

(** C69 does not hold of the state: an array_call that updates the array it is given changes
    the state of the caller, whatever copies numpy makes. *)
Theorem c69_state_refuted : exists inp tend diag c (hac : harray Qc nat outs) u h st dt,
  make_tendency_component false empty_treg inp tend diag "heater" true None "s^-1" = (empty_treg, Ok c) /\ state_in h st /\
  forall cp, exists u' h' o, h_tendency_call cp empty_treg c hac u h st dt = ((u', h'), Ok o) /\
  load_state h' st <> load_state h st.
Proof. exact @state_changed. Qed.
Print Assumptions c69_state_refuted.

(** And a Stepper whose array_call computes the new values in place then reports tendencies of
    zero, although the new state is right: what it subtracts is the array that was updated. *)
Theorem c69_stepper_refuted : exists inp diag out c (hac : harray Qc nat outs) ac u h st dt u' d n vd vn,
  make_stepper empty_treg inp diag out "stepper" true None 1000000%Z = (empty_treg, Ok c) /\ state_in h st /\
  stepper_call empty_treg c ac u (load_state h st) dt = (u', Ok (vd, vn)) /\
  forall cp, exists h', h_stepper_call cp empty_treg c hac u h st dt = ((u', h'), Ok (d, n)) /\
  values_of "T" (load_dict h' n) = values_of "T" vn /\
  values_of "T" vn <> state_values "T" (load_state h st) /\
  values_of "T_tendency_from_stepper" (load_dict h' d) <> values_of "T_tendency_from_stepper" vd /\
  (forall x, In x (values_of "T_tendency_from_stepper" (load_dict h' d)) -> x = 0%Qc).
Proof. exact @stepper_tendency_lost. Qed.
Print Assumptions c69_stepper_refuted.

(** C70: which arrays given to array_call are memory of the state, element by element, and which are new. *)
Theorem c70_tendency_inputs : forall {T : Type} {A : Arith T} {R : Registry} (cp : nd nat -> list nat -> bool), forall {U} g c (hac : harray T U _) dt u (h : heap T) st u' h' r,
  wf_state (refs_state st) -> wf_pdict (t_inp c) -> NoDup (map (fun np => raw_name (fst np) (snd np)) (t_inp c)) ->
  h_tendency_call cp g c hac u h st dt = ((u', h'), r) ->
  runs_on (input_views cp st (t_inp c) (match t_packer c with Some _ => true | None => false end) (length h)) hac u dt u' r.
Proof. exact @main_tendency_inputs. Qed.
Print Assumptions c70_tendency_inputs.

(** C70: the same for a Stepper. *)
Theorem c70_stepper_inputs : forall {T : Type} {A : Arith T} {R : Registry} (cp : nd nat -> list nat -> bool), forall {U} g c (hac : harray T U _) dt u (h : heap T) st u' h' r,
  wf_state (refs_state st) -> wf_pdict (s_inp c) -> NoDup (map (fun np => raw_name (fst np) (snd np)) (s_inp c)) ->
  h_stepper_call cp g c hac u h st dt = ((u', h'), r) ->
  runs_on (input_views cp st (s_inp c) (match s_packer c with Some _ => true | None => false end) (length h)) hac u dt u' r.
Proof. exact @main_stepper_inputs. Qed.
Print Assumptions c70_stepper_inputs.

(** C70: the same for a DiagnosticComponent. *)
Theorem c70_diagnostic_inputs : forall {T : Type} {A : Arith T} {R : Registry} (cp : nd nat -> list nat -> bool), forall {U} c (hac : harray T U _) u (h : heap T) st u' h' r,
  wf_state (refs_state st) -> wf_pdict (d_inp c) -> NoDup (map (fun np => raw_name (fst np) (snd np)) (d_inp c)) ->
  h_diagnostic_call cp c hac u h st = ((u', h'), r) ->
  runs_on (input_views cp st (d_inp c) false (length h)) hac u 0 u' r.
Proof. exact @main_diagnostic_inputs. Qed.
Print Assumptions c70_diagnostic_inputs.

(** C70: what a tendency component returns is the memory array_call returned; tendencies in
    the diagnostics are the same arrays as the tendencies. *)
Theorem c70_tendency_outputs : forall {T : Type} {A : Arith T} {R : Registry} (cp : nd nat -> list nat -> bool), forall {U} g c (hac : harray T U _) dt u (h : heap T) st u' h' tend diag,
  wf_state (refs_state st) -> NoDup (keys (t_tend c)) -> NoDup (keys (t_diag c)) ->
  (forall name ds, declared_dims (t_tend c) (t_inp c) name ds \/ declared_dims (t_diag c) (t_inp c) name ds -> one_star ds) ->
  h_tendency_call cp g c hac u h st dt = ((u', h'), Ok (tend, diag)) ->
  exists h1 raw h2 o, hac u h1 raw dt = ((u', h2), Ok o) /\
  output_views cp (t_tend c) (t_inp c) (unpacked (t_packer c) (fst o)) (length h2) tend /\
  (t_tid c = true -> forall name a, dget name tend = Some a -> dget (tendency_name (t_name c) name) diag = Some a) /\
  (forall name p, dget name (t_diag c) = Some p -> ~ In name (t_added c) ->
  (t_tid c = true -> forall k, In k (keys tend) -> name <> tendency_name (t_name c) k) ->
  exists a, dget name diag = Some a /\ output_view cp (t_diag c) (t_inp c) (snd o) (length h2) name a).
Proof. exact @main_tendency_outputs. Qed.
Print Assumptions c70_tendency_outputs.

(** C70: what a Stepper returns is the memory array_call returned; tendencies in the diagnostics
    are new arrays. *)
Theorem c70_stepper_outputs : forall {T : Type} {A : Arith T} {R : Registry} (cp : nd nat -> list nat -> bool), forall {U} g c (hac : harray T U _) dt u (h : heap T) st u' h' diag new,
  wf_state (refs_state st) -> NoDup (keys (s_out c)) -> NoDup (keys (s_diag c)) ->
  (forall name ds, declared_dims (s_out c) (s_inp c) name ds \/ declared_dims (s_diag c) (s_inp c) name ds -> one_star ds) ->
  h_stepper_call cp g c hac u h st dt = ((u', h'), Ok (diag, new)) ->
  exists h1 raw h2 o, hac u h1 raw dt = ((u', h2), Ok o) /\
  output_views cp (s_out c) (s_inp c) (unpacked (s_packer c) (snd o)) (length h2) new /\
  (forall name p, dget name (s_diag c) = Some p ->
  exists a, dget name diag = Some a /\
  if s_tid c && existsb (fun k => String.eqb (out_key (s_diag c) (s_inp c) name) (tendency_name (s_name c) k)) (keys (s_out c))
  then forall x, In x (h_cells a) -> length h2 <= x
  else output_view cp (s_diag c) (s_inp c) (fst o) (length h2) name a).
Proof. exact @main_stepper_outputs. Qed.
Print Assumptions c70_stepper_outputs.

(** C70: what a DiagnosticComponent returns is the memory array_call returned. *)
Theorem c70_diagnostic_outputs : forall {T : Type} {A : Arith T} {R : Registry} (cp : nd nat -> list nat -> bool), forall {U} c (hac : harray T U _) u (h : heap T) st u' h' diag,
  wf_state (refs_state st) -> NoDup (keys (d_diag c)) ->
  (forall name ds, declared_dims (d_diag c) (d_inp c) name ds -> one_star ds) ->
  h_diagnostic_call cp c hac u h st = ((u', h'), Ok diag) ->
  exists h1 raw h2 o, hac u h1 raw 0%Z = ((u', h2), Ok o) /\ output_views cp (d_diag c) (d_inp c) o (length h2) diag.
Proof. exact @main_diagnostic_outputs. Qed.
Print Assumptions c70_diagnostic_outputs.

(** One quantity transposed, one in other units. *)
Example c70_inputs_case : wf_state (refs_state hst) /\ wf_pdict inp_c /\ NoDup (map (fun np => raw_name (fst np) (snd np)) inp_c) /\
  in_units hT "K" /\ ~ in_units hwind "m s^-1" /\
  raw_of "t" never = [0; 2; 4; 1; 3; 5] /\ raw_of "wind" never = [10; 11; 12] /\
  raw_of "t" always = [10; 11; 12; 13; 14; 15].
Proof. exact @ex_inputs. Qed.

(** The outputs of a call, when numpy never copies and when it always copies. *)
Example c70_outputs_case : NoDup (keys (t_tend (c_t true))) /\ NoDup (keys (t_diag (c_t true))) /\
  (forall name ds, declared_dims (t_tend (c_t true)) (t_inp (c_t true)) name ds \/ declared_dims (t_diag (c_t true)) (t_inp (c_t true)) name ds -> one_star ds) /\
  (match h_tendency_call never empty_treg (c_t true) (hac_same "t" "wind" "t" "speed") 0 memc hst 0%Z with
  | (_, Ok (t, d)) => tend_of t "T" = [0; 2; 4; 1; 3; 5] /\ tend_of d "speed" = [10; 11; 12] /\ tend_of d "T_tendency_from_heater" = [0; 2; 4; 1; 3; 5]
  | _ => False
  end) /\
  (match h_tendency_call always empty_treg (c_t true) (hac_same "t" "wind" "t" "speed") 0 memc hst 0%Z with
  | (_, Ok (t, d)) => tend_of t "T" = [22; 23; 24; 25; 26; 27]
  | _ => False
  end).
Proof. exact @ex_outputs. Qed.

(** It does not hold that what a call returns can be changed without changing anything else: a
    component whose array_call writes to nothing can return memory of the state, twice. *)
Theorem c70_new_refuted : exists inp tend diag c (hac : harray Qc nat outs) u h st dt,
  make_tendency_component false empty_treg inp tend diag "heater" true None "s^-1" = (empty_treg, Ok c) /\ state_in h st /\
  (forall u h raw dt, snd (fst (hac u h raw dt)) = h) /\
  forall cp, exists u' h' t d a, h_tendency_call cp empty_treg c hac u h st dt = ((u', h'), Ok (t, d)) /\
  dget "T" t = Some a /\ h_cells a <> [] /\ (forall x, In x (h_cells a) -> state_cells st x) /\
  dget "T_tendency_from_heater" d = Some a.
Proof. exact @output_is_state. Qed.
Print Assumptions c70_new_refuted.

(** C71: a call computes in memory what it computes on values, if its array_call does. *)
Theorem c71_tendency : forall {T : Type} {A : Arith T} {R : Registry} (cp : nd nat -> list nat -> bool), forall {UH UV} (P : Prop) (I : invariant UH UV) g c hac ac, stable I ->
  array_behaves_if P load_outs both I hac ac ->
  call_behaves_if P load_pair_dicts both_results I (h_tendency_call cp g c hac)
  (fun v st dt => tendency_call g c (fun v raw => ac v raw dt) v st).
Proof. exact @main_tendency_behaves. Qed.
Print Assumptions c71_tendency.

(** C71: the same for a Stepper. *)
Theorem c71_stepper : forall {T : Type} {A : Arith T} {R : Registry} (cp : nd nat -> list nat -> bool), forall {UH UV} (P : Prop) (I : invariant UH UV) g c hac ac, stable I ->
  array_behaves_if P load_outs both I hac ac ->
  call_behaves_if P load_pair_dicts both_results I (h_stepper_call cp g c hac) (stepper_call g c ac).
Proof. exact @main_stepper_behaves. Qed.
Print Assumptions c71_stepper.

(** C71: the same for a DiagnosticComponent. *)
Theorem c71_diagnostic : forall {T : Type} {A : Arith T} {R : Registry} (cp : nd nat -> list nat -> bool), forall {UH UV} (P : Prop) (I : invariant UH UV) c hac ac, stable I ->
  array_behaves_if P load_nds single I hac ac ->
  call_behaves_if P load_dict single_result I (fun u h st _ => h_diagnostic_call cp c hac u h st)
  (fun v st _ => diagnostic_call c (fun v raw => ac v raw 0%Z) v st).
Proof. exact @main_diagnostic_behaves. Qed.
Print Assumptions c71_diagnostic.

(** C71: such a component is one of those for which the memory properties of composites and
    time steppers are proved (C23, C37-C42). *)
Theorem c71_in_composites : forall {T : Type} {A : Arith T} {R : Registry} (cp : nd nat -> list nat -> bool), forall {UH UV} (P : Prop) (I : invariant UH UV) g c hac ac, stable I ->
  array_behaves_if P load_outs both I hac ac ->
  returns_proper (fun v st dt => tendency_call g c (fun v raw => ac v raw dt) v st) ->
  behaves_if P I (h_tendency_call cp g c hac) (fun v st dt => tendency_call g c (fun v raw => ac v raw dt) v st).
Proof. exact @main_tendency_component. Qed.
Print Assumptions c71_in_composites.

(** C71: the condition on its tendencies is met if their dims are distinct and contain no '*'. *)
Theorem c71_proper : forall {T : Type} {A : Arith T} {R : Registry}, forall {U} g c (ac : U -> dict (rval T) -> Z -> U * res (dict (nd T) * dict (nd T))),
  t_packer c = None -> NoDup (keys (t_tend c)) -> plain_dims (t_tend c) (t_inp c) -> returns_real ac ->
  returns_proper (fun v st dt => tendency_call g c (fun v raw => ac v raw dt) v st).
Proof. exact @main_returns_proper. Qed.
Print Assumptions c71_proper.

(** An array_call that returns what it is given and one that returns new arrays. *)
Example c71_hypotheses_met : stable counts /\
  array_behaves_if True load_outs SpecHeapCalls.both counts (hac_same "T" "wind" "T" "speed") (ac_same "T" "wind" "T" "speed") /\
  array_behaves_if True load_outs SpecHeapCalls.both counts (hac_new "T" "T") (ac_new "T" "T") /\
  t_packer c_p = None /\ NoDup (keys (t_tend c_p)) /\ plain_dims (t_tend c_p) (t_inp c_p) /\ returns_real (ac_same "T" "wind" "T" "speed").
Proof. exact @ex_array_behaves. Qed.

(** A composite of two components of the base class behaves well. *)
Example c71_composite_case : forall cp, behaves counts (both_h cp) both_v.
Proof. exact @ex_composite_behaves. Qed.

(** AdamsBashforth steps it, and memory that existed keeps its values. *)
Example c71_step_case : match h_adams_bashforth cfgT (both_h never) (mkhab 2 None [], 0) memc hst 1000000%Z with
  | ((_, _, h), Ok (d, new)) => qcs_eqb (firstn 10 h) [10; 11; 12; 13; 14; 15; 1; 2; 3; 99]%Z && qcs_eqb (held h "T" new) [31; 34; 37; 40; 43; 46]%Z
  | _ => false
  end = true.
Proof. exact @ex_stepped. Qed.
