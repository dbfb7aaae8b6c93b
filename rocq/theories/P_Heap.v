(** Property theorems about memory: which arrays are changed (C23, C37, C42-C44). *)
From Coq Require Import String List Bool Arith ZArith QArith Qcanon.
From Verif Require Import Prelude ArithM NdArray Units DataArrayM SpecUnits ExampleRegistry SpecArrays SpecDa GetNp Tracers Components
  Composite SpecComposite Steppers SpecSteppers Heap SpecHeap HeapComposite HeapSteppers HeapLeap HeapScaling Ex_Components Ex_Steppers Ex_Heap.
Import ListNotations.
Open Scope string_scope.
Open Scope nat_scope.
Open Scope list_scope.

#[local] Existing Instance ex_registry | 5.

(** C23, any components: between the calls of its components a composite changes only
    cells it has allocated itself since the start of the call. *)
Theorem c23_only_own : forall {T : Type} {A : Arith T} {R : Registry}, forall {U} (cs : list (hcaller (T:=T) U)) u h st u' h' r,
  h_composite cs u h st = ((u', h'), r) -> only_own st no_cells cs u h u' h'.
Proof. exact @main_composite_only_own. Qed.
Print Assumptions c23_only_own.

(** C23: memory that no component of the composite changes is not changed by the
    composite. *)
Theorem c23_spares : forall {T : Type} {A : Arith T} {R : Registry}, forall (K : cells) {U} (cs : list (hcaller (T:=T) U)),
  (forall c, In c cs -> spares K (no_step c)) -> spares K (no_step (h_composite cs)).
Proof. exact @main_composite_spares. Qed.
Print Assumptions c23_spares.

(** C23: of components that change no existing array and depend only on values (they may
    keep arrays, share them and return arrays of the state), a composite changes no
    existing array and returns what the composite of values returns. *)
Theorem c23_behaves : forall {T : Type} {A : Arith T} {R : Registry} (P : Prop) {UH UV : Type} (I : invariant (T:=T) UH UV), stable I -> forall hcs cs, Forall2 (fun hc c => behaves_if P I (no_step hc) (no_step_v c)) hcs cs ->
  behaves_if P I (no_step (h_composite hcs)) (no_step_v (tendency_composite_call cs)).
Proof. exact @main_composite_behaves. Qed.
Print Assumptions c23_behaves.

(** C23: the same for ImplicitTendencyComponentComposite. *)
Theorem c23_implicit_behaves : forall {T : Type} {A : Arith T} {R : Registry} (P : Prop) {UH UV : Type} (I : invariant (T:=T) UH UV), stable I -> forall hcs cs, Forall2 (behaves_either P I) hcs cs ->
  behaves_if P I (h_implicit_composite hcs) (fun v st dt => implicit_composite_call cs dt v st).
Proof. exact @main_implicit_behaves. Qed.
Print Assumptions c23_implicit_behaves.

(** Components returning kept, shared, new arrays and those of the state. *)
Example c23_hypotheses_met : stable kept_inv /\
  Forall2 (fun hc c => behaves_if True kept_inv (no_step hc) (no_step_v c))
  [hc_kept; hc_grow; hc_kept; hc_fresh] [vc_kept; vc_grow; vc_kept; vc_fresh].
Proof. exact @ex_components_behave. Qed.

(** Their composite: all ten cells are as before. *)
Example c23_case : (let '((u, h), r) := three u0 mem0 st0 in
  match r with
  | Ok (t, d) => Nat.eqb (length h) 16 && qcs_eqb (firstn 10 h) [1; 2; 3; 100; 200; 300; 5; 6; 7; 40]%Z &&
  match dget "x" t with
  | Some a => nats_eqb (h_cells a) [10; 11; 12] && qcs_eqb (data (arr (load h a))) [13; 18; 23]%Z
  | None => false
  end && String.eqb (String.concat "," (keys d)) "kept,seen"
  | Err _ => false
  end) = true.
Proof. exact @ex_composite. Qed.

(** They change no array of the state. *)
Example c23_spares_hypotheses_met : forall c, In c [hc_kept; hc_grow; hc_kept; hc_fresh] -> spares (state_cells st0) (no_step c).
Proof. exact @ex_spares. Qed.

(** C37: AdamsBashforth changes no array of the state, or any other memory, that its
    component does not change. *)
Theorem c37_ab_spares : forall {T : Type} {A : Arith T} {R : Registry} {U : Type} (K : cells) (prog : hicaller (T:=T) U), spares K prog ->
  forall cfg s h st dt a' u' h' r, h_adams_bashforth cfg prog s h st dt = ((a', u', h'), r) ->
  changed_in (fun c => ~ K c) h h'.
Proof. exact @main_ab_spares. Qed.
Print Assumptions c37_ab_spares.

(** C37: the same for SSPRungeKutta. *)
Theorem c37_rk_spares : forall {T : Type} {A : Arith T} {R : Registry} {U : Type} (K : cells) (prog : hicaller (T:=T) U), spares K prog ->
  forall cfg s h st dt k' u' h' r, h_ssp_rk cfg prog s h st dt = ((k', u', h'), r) ->
  changed_in (fun c => ~ K c) h h'.
Proof. exact @main_rk_spares. Qed.
Print Assumptions c37_rk_spares.

(** C37: AdamsBashforth with such components changes no existing array at all and returns
    what it returns on values; its memory stays related, so this holds in every run. *)
Theorem c37_ab_memory : forall {T : Type} {A : Arith T} {R : Registry} {UH UV : Type} (I : invariant (T:=T) UH UV), stable I ->
  forall (prog : hicaller (T:=T) UH) (vprog : icaller (T:=T) UV), behaves I prog vprog ->
  forall cfg (X : cells) h s w st dt a' u' h' r,
  ab_inv I X h s w -> (forall c, X c -> c < length h) -> state_in h st -> avoids (state_cells st) X ->
  h_adams_bashforth cfg prog s h st dt = ((a', u', h'), r) ->
  grown h h' /\
  (exists w', adams_bashforth cfg vprog w (load_state h st) dt = (w', load_stepped h' r) /\ ab_inv I X h' (a', u') w') /\
  step_out_in X h' r.
Proof. exact @main_ab_memory. Qed.
Print Assumptions c37_ab_memory.

(** C37: the same for SSPRungeKutta. *)
Theorem c37_rk_memory : forall {T : Type} {A : Arith T} {R : Registry} {UH UV : Type} (I : invariant (T:=T) UH UV), stable I ->
  forall (prog : hicaller (T:=T) UH) (vprog : icaller (T:=T) UV), behaves I prog vprog ->
  forall cfg (X : cells) h s w st dt k' u' h' r,
  rk_inv I X h s w -> (forall c, X c -> c < length h) -> state_in h st -> avoids (state_cells st) X ->
  h_ssp_rk cfg prog s h st dt = ((k', u', h'), r) ->
  grown h h' /\
  (exists w', ssp_rk cfg vprog w (load_state h st) dt = (w', load_stepped h' r) /\ rk_inv I X h' (k', u') w') /\
  step_out_in X h' r.
Proof. exact @main_rk_memory. Qed.
Print Assumptions c37_rk_memory.

(** Two steps. *)
Example c37_ab_hypotheses_met : behaves kept_inv (no_step three) (no_step_v three_v) /\
  ab_inv kept_inv outside mem0 (mkhab 2 None [], u0) (mkab 2 None [], v0) /\
  (forall c, outside c -> c < length mem0) /\ state_in mem0 st0 /\ avoids (state_cells st0) outside /\
  two_steps (h_adams_bashforth cfg0 (no_step three)) (mkhab 2 None []) = true.
Proof. exact @ex_adams_bashforth. Qed.

(** Two steps. *)
Example c37_rk_hypotheses_met : behaves kept_inv (no_step three) (no_step_v three_v) /\
  rk_inv kept_inv outside mem0 (mkhrk 3 (mkhab 1 None []), u0) (mkrk 3 (mkab 1 None []), v0) /\
  (forall c, outside c -> c < length mem0) /\ state_in mem0 st0 /\ avoids (state_cells st0) outside /\
  two_steps (h_ssp_rk cfg0 (no_step three)) (mkhrk 3 (mkhab 1 None [])) = true.
Proof. exact @ex_runge_kutta. Qed.

(** C37: Leapfrog changes, beyond what its component changes, only the arrays of quantities
    it has tendencies of, and none in the first step. *)
Theorem c37_leap_spares : forall {T : Type} {A : Arith T} {R : Registry}, forall {U} (K : cells) (prog : hicaller (T:=T) U), spares K prog ->
  forall cfg l u h st dt l' u' h' r, h_leapfrog cfg prog (l, u) h st dt = ((l', u', h'), r) ->
  changed_in (fun c => ~ K c \/ exists u1 h1 t d, prog u h st dt = ((u1, h1), Ok (t, d)) /\
  hlf_old l <> None /\ named_cells st (keys t) c) h h'.
Proof. exact @main_leap_spares. Qed.
Print Assumptions c37_leap_spares.

(** C37: if no two quantities of the state share memory and the components keep and return
    no array of the state, Leapfrog changes only arrays of the input state, to the values
    given by the filter; what it needs holds again for the state returned, so this holds in
    every run. *)
Theorem c37_leap_memory : forall {T : Type} {A : Arith T} {R : Registry} {UH UV : Type} (I : invariant (T:=T) UH UV), stable I ->
  forall (prog : hicaller (T:=T) UH) (vprog : icaller (T:=T) UV), stays_apart I prog vprog ->
  forall cfg h l u v st dt l' u' h' r, leap_ready I h l u v st ->
  h_leapfrog cfg prog (l, u) h st dt = ((l', u', h'), r) ->
  changed_in (state_cells st) h h' /\
  exists vl' v', leapfrog cfg vprog (load_leap h l, v) (load_state h st) dt = ((vl', v'), load_state h' st, load_stepped h' r) /\
  match r with
  | Ok (d, new) => vl' = load_leap h' l' /\ leap_ready I h' l' u' v' new /\ dict_in h' d /\ avoids (cells_of d) (state_cells st)
  | Err _ => I (state_cells st) h' u' v'
  end.
Proof. exact @main_leap_memory. Qed.
Print Assumptions c37_leap_memory.

(** The second step, with a filter. *)
Example c37_leap_hypotheses_met : stable kept_inv /\ stays_apart kept_inv apart_prog apart_prog_v /\ leap_ready kept_inv mem0 leap0 u0 v0 st1 /\
  (let '((l, u, h), r) := h_leapfrog cfg0 apart_prog (leap0, u0) mem0 st1 second in
  match r with
  | Err _ => false
  | Ok (d, new) =>
  negb (qcs_eqb (firstn 3 h) [1; 2; 3]%Z) && qcs_eqb (firstn 7 (skipn 3 h)) [100; 200; 300; 5; 6; 7; 40]%Z &&
  match dget "x" new, dget "y" new with
  | Some (HDA a), Some (HDA b) => disjointb (h_cells a) (seq 0 10) && nats_eqb (h_cells b) [9]
  | _, _ => false
  end
  end) = true.
Proof. exact @ex_leapfrog. Qed.

(** Without that condition on components: a diagnostic that is an array of the state is
    filtered with it. *)
Theorem c37_diagnostic_refuted : exists (prog : hicaller (T:=Qc) (dict hda * dict hda)) vprog cfg h l u v st dt l' u' h' d new vs vst vd vnew,
  behaves kept_inv prog vprog /\ leap_ready kept_inv h l u v st /\
  h_leapfrog cfg prog (l, u) h st dt = ((l', u', h'), Ok (d, new)) /\
  leapfrog cfg vprog (load_leap h l, v) (load_state h st) dt = (vs, vst, Ok (vd, vnew)) /\
  values_of "seen" vd = state_values "x" (load_state h st) /\
  values_of "seen" (load_dict h' d) <> values_of "seen" vd.
Proof. exact @shared_diagnostic. Qed.
Print Assumptions c37_diagnostic_refuted.

(** Without that condition on the state: two quantities sharing an array are filtered
    twice. *)
Theorem c37_shared_refuted : exists (prog : hicaller (T:=Qc) (dict hda * dict hda)) vprog cfg h l u v st dt l' u' h' d new vs vst vd vnew,
  stays_apart kept_inv prog vprog /\
  (kept_inv (state_cells st) h u v /\ state_in h st /\ proper_state (load_state h st) /\
  exists old, hlf_old l = Some old /\ state_in h old /\ avoids (state_cells old) (state_cells st) /\ proper_state (load_state h old)) /\
  h_leapfrog cfg prog (l, u) h st dt = ((l', u', h'), Ok (d, new)) /\
  leapfrog cfg vprog (load_leap h l, v) (load_state h st) dt = (vs, vst, Ok (vd, vnew)) /\
  state_values "w" (load_state h' st) <> state_values "w" vst /\ state_values "w" (load_state h' new) <> state_values "w" vnew.
Proof. exact @shared_state. Qed.
Print Assumptions c37_shared_refuted.

(** C42: a component is accepted unless a factor is given for a group of quantities it
    does not have (TypeError) or for a quantity it does not declare (ValueError). *)
Theorem c42_refused : forall {T : Type}, forall c (fin fout ftend fdiag : option (dict T)) k,
  sc_kind c = Some k ->
  (exists w, new_scaling c fin fout ftend fdiag = Ok w) \/
  exists fs p, In (fs, p) [(fin, Some (sc_inp c)); (fdiag, sc_diag c); (fout, sc_out c); (ftend, sc_tend c)] /\
  (p = None /\ fs <> None /\ new_scaling c fin fout ftend fdiag = Err EType \/
  exists f q n, fs = Some f /\ p = Some q /\ In n (keys f) /\ ~ In n (keys q) /\
  new_scaling c fin fout ftend fdiag = Err EValue).
Proof. exact @main_scaling_refused. Qed.
Print Assumptions c42_refused.

(** C42: exactly when it is accepted. *)
Theorem c42_accepted : forall {T : Type}, forall c (fin fout ftend fdiag : option (dict T)) w, new_scaling c fin fout ftend fdiag = Ok w <->
  exists k, sc_kind c = Some k /\
  w = mkscaling k (keys (sc_inp c)) (given fin) (given fout) (given ftend) (given fdiag) /\
  forall fs p, In (fs, p) [(fin, Some (sc_inp c)); (fdiag, sc_diag c); (fout, sc_out c); (ftend, sc_tend c)] ->
  forall f, fs = Some f -> exists q, p = Some q /\ forall n, In n (keys f) -> In n (keys q).
Proof. exact @main_scaling_accepted. Qed.
Print Assumptions c42_accepted.

(** C42: the component is given exactly its declared inputs and the time; those with a
    factor are new arrays holding the product with the attrs kept. *)
Theorem c42_inputs : forall {T : Type} {A : Arith T}, forall w (h : heap T) st h1 r, state_in h st -> scaled_state w h st = (h1, r) ->
  grown h h1 /\
  match r with
  | Ok sst => sees w h h1 st sst
  | Err e => exists k, In k (sw_inp w) /\
  (e = EKey /\ dget k st = None \/ e = EType /\ exists t f, dget k st = Some (HTime t) /\ dget k (sw_in w) = Some f)
  end.
Proof. exact @main_scaled_inputs. Qed.
Print Assumptions c42_inputs.

(** C42: what the component returned is returned; each cell was multiplied by the factors
    of the arrays it belongs to, in order, and no other cell has changed. *)
Theorem c42_call : forall {T : Type} {A : Arith T}, forall {U} w (comp : hwrapped (T:=T) U) u h st dt u' h' o1 o2, state_in h st ->
  scaling_call w comp u h st dt = ((u', h'), Ok (o1, o2)) ->
  exists h1 sst h2, grown h h1 /\ sees w h h1 st sst /\ (takes_step w = true -> dt <> None) /\
  comp u h1 sst (passed w dt) = ((u', h2), Ok (o1, o2)) /\
  has_arrays (first_factors w) o1 /\ has_arrays (second_factors w) o2 /\ length h' = length h2 /\
  (plain o1 -> plain o2 -> state_in h2 o1 -> state_in h2 o2 ->
  forall c, c < length h2 -> cell h' c = times (cell h2 c) (all_factors w o1 o2 c)).
Proof. exact @main_scaling_call. Qed.
Print Assumptions c42_call.

(** C42: if the arrays returned do not overlap, each requested one is multiplied by its
    factor, every other one and all other memory is as the component left it. *)
Theorem c42_separate : forall {T : Type} {A : Arith T}, forall {U} w (comp : hwrapped (T:=T) U) u h st dt u' h' o1 o2, state_in h st ->
  NoDup (keys (first_factors w)) -> NoDup (keys (second_factors w)) ->
  scaling_call w comp u h st dt = ((u', h'), Ok (o1, o2)) ->
  exists h1 sst h2, sees w h h1 st sst /\ comp u h1 sst (passed w dt) = ((u', h2), Ok (o1, o2)) /\
  (separate o1 -> separate o2 -> avoids (state_cells o1) (state_cells o2) -> state_in h2 o1 -> state_in h2 o2 ->
  scaled_outputs (first_factors w) h2 h' o1 /\ scaled_outputs (second_factors w) h2 h' o2 /\
  changed_in (scaled_cells w o1 o2) h2 h').
Proof. exact @main_scaling_separate. Qed.
Print Assumptions c42_separate.

(** C42: it returns if the component does. *)
Theorem c42_succeeds : forall {T : Type} {A : Arith T}, forall {U} w (comp : hwrapped (T:=T) U) u h st dt,
  (forall k, In k (sw_inp w) -> match dget k st with
  | None => False
  | Some (HTime _) => dget k (sw_in w) = None
  | Some (HDA _) => True
  end) ->
  state_in h st -> (takes_step w = true -> dt <> None) ->
  exists h1 sst, grown h h1 /\ sees w h h1 st sst /\
  forall u' h2 r, comp u h1 sst (passed w dt) = ((u', h2), r) ->
  match r with
  | Err e => scaling_call w comp u h st dt = ((u', h2), Err e)
  | Ok (o1, o2) => has_arrays (first_factors w) o1 -> has_arrays (second_factors w) o2 ->
  exists h', scaling_call w comp u h st dt = ((u', h'), Ok (o1, o2))
  end.
Proof. exact @main_scaling_succeeds. Qed.
Print Assumptions c42_succeeds.

(** C42: all the ways it can fail. *)
Theorem c42_error : forall {T : Type} {A : Arith T}, forall {U} w (comp : hwrapped (T:=T) U) u h st dt u' h' e, state_in h st ->
  scaling_call w comp u h st dt = ((u', h'), Err e) ->
  u' = u /\ grown h h' /\
  (exists k, In k (sw_inp w) /\
  (e = EKey /\ dget k st = None \/ e = EType /\ exists t f, dget k st = Some (HTime t) /\ dget k (sw_in w) = Some f)) \/
  u' = u /\ grown h h' /\ takes_step w = true /\ dt = None /\ e = EType \/
  exists h1 sst, grown h h1 /\ sees w h h1 st sst /\
  (comp u h1 sst (passed w dt) = ((u', h'), Err e) \/
  exists h2 o1 o2, comp u h1 sst (passed w dt) = ((u', h2), Ok (o1, o2)) /\ length h' = length h2 /\
  ~ (has_arrays (first_factors w) o1 /\ has_arrays (second_factors w) o2)).
Proof. exact @main_scaling_error. Qed.
Print Assumptions c42_error.

(** C42 fails when a returned array is shared: an output without a factor is scaled. *)
Theorem c42_shared_refuted : exists (w : scaling Qc) (comp : hwrapped (T:=Qc) unit) u h st dt u' h1 h' o1 o2 k a,
  state_in h st /\ (forall sst, comp u h sst (passed w dt) = ((u', h1), Ok (o1, o2))) /\
  scaling_call w comp u h st dt = ((u', h'), Ok (o1, o2)) /\
  dget k (second_factors w) = None /\ dget k o2 = Some (HDA a) /\ load h' a <> load h1 a.
Proof. exact @shared_output. Qed.
Print Assumptions c42_shared_refuted.

(** One accepted and two refused wrappers. *)
Example c42_construction_hypotheses_met : sc_kind comp0 = Some KTendency /\
  new_scaling comp0 (Some [("x", cz 3)]) None (Some [("x", cz 2)]) (Some [("kept", cz 10)]) = Ok w0 /\
  new_scaling comp0 (Some [("y", cz 3)]) None None None = Err EValue /\
  new_scaling comp0 None (Some [("x", cz 3)]) None None = Err EType.
Proof. exact @ex_scaling_new. Qed.

(** One input, one tendency and one diagnostic scaled. *)
Example c42_hypotheses_met : state_in mem0 st1 /\ fresh_answers hw_fresh /\ NoDup (keys (first_factors w0)) /\ NoDup (keys (second_factors w0)) /\
  (let '((u, h), r) := scaling_call w0 hw_fresh tt mem0 st1 None in
  sorted_ok r (fun o1 o2 => qcs_eqb (held h "x" o1) [12; 24; 36]%Z && qcs_eqb (held h "kept" o2) [150; 300; 450]%Z &&
  qcs_eqb (firstn 10 h) [1; 2; 3; 100; 200; 300; 5; 6; 7; 40]%Z)) = true /\
  (exists k, In k (sw_inp w0) /\ dget k [("time", HTime 0)] = None) /\
  (forall k, In k (sw_inp w0) -> match dget k st1 with None => False | Some (HTime _) => dget k (sw_in w0) = None | Some (HDA _) => True end) /\
  (takes_step w0 = true -> (None : option Z) <> None).
Proof. exact @ex_scaling_call. Qed.

(** C43 is violated, always: the state the component is given cannot be packed, when a
    tracer is not also a declared input. *)
Theorem c43_tracers_fail_refuted : forall {T : Type} {A : Arith T} {R : Registry}, forall w (h : heap T) st h1 sst g inp p n, state_in h st -> scaled_state w h st = (h1, Ok sst) ->
  sw_inp w = keys inp -> In n (tracer_names g p) -> ~ In n (keys inp) -> n <> "time" ->
  exists e, raw_state g inp (Some p) (load_state h1 sst) = Err e.
Proof. exact @main_scaling_tracers. Qed.
Print Assumptions c43_tracers_fail_refuted.

(** C43: the same component can be called without the wrapper. *)
Theorem c43_refuted : exists (w : scaling Qc) (inp : pdict) (g : treg) (p : packer) h st h1 sst raw,
  sw_inp w = keys inp /\ (sw_in w, sw_out w, sw_tend w, sw_diag w) = ([], [], [], []) /\
  raw_state g inp (Some p) (load_state h st) = Ok raw /\
  scaled_state w h st = (h1, Ok sst) /\ raw_state g inp (Some p) (load_state h1 sst) = Err EKey.
Proof. exact @tracers_lost. Qed.
Print Assumptions c43_refuted.

(** That case. *)
Example c43_hypotheses_met : let inp := [("x", qprops ["a"] "K")] in
  let (h1, r) := scaled_state w_none mem0 st1 in
  exists sst, r = Ok sst /\ state_in mem0 st1 /\ sw_inp w_none = keys inp /\ In "y" (tracer_names g_q p_q) /\ ~ In "y" (keys inp) /\
  is_okb (raw_state g_q inp (Some p_q) (load_state mem0 st1)) = true /\
  is_keyb (raw_state g_q inp (Some p_q) (load_state h1 sst)) = true.
Proof. exact @ex_tracers_lost. Qed.

(** C44: for components returning new arrays, the wrapper changes nothing in memory,
    returns new arrays and its answers depend only on the values given. *)
Theorem c44_fresh : forall {T : Type} {A : Arith T}, forall {U} w (comp : hwrapped (T:=T) U), fresh_answers comp -> fresh_answers (scaling_call w comp).
Proof. exact @main_scaling_fresh. Qed.
Print Assumptions c44_fresh.

(** C44: with those, calling again after any calls, whatever their outcome, gives the same
    answer. *)
Theorem c44_repeat : forall {T : Type} {A : Arith T}, forall {U} w (comp : hwrapped (T:=T) U), fresh_answers comp ->
  forall calls u h st dt, state_in h st -> (forall st' dt', In (st', dt') calls -> state_in h st') ->
  let '((u1, h1), r1) := scaling_call w comp u h st dt in
  let '(u2, h2) := scaling_after w comp calls (u, h) in
  let '((u3, h3), r3) := scaling_call w comp u2 h2 st dt in
  grown h h1 /\ grown h h2 /\ grown h2 h3 /\ load_state h3 st = load_state h st /\ load_pair h3 r3 = load_pair h1 r1.
Proof. exact @main_scaling_repeat. Qed.
Print Assumptions c44_repeat.

(** C44 fails for a component that returns an array it keeps: each call scales it again. *)
Theorem c44_constant_refuted : exists (w : scaling Qc) (comp : hwrapped (T:=Qc) unit) u h st dt u1 h1 u2 h2 o1 o2 a,
  state_in h st /\ separate o1 /\
  scaling_call w comp u h st dt = ((u1, h1), Ok (o1, o2)) /\ scaling_call w comp u1 h1 st dt = ((u2, h2), Ok (o1, o2)) /\
  (forall h sst dt, comp u h sst dt = ((u, h), Ok (o1, o2))) /\
  dget "x" o1 = Some (HDA a) /\ load_state h1 st = load_state h st /\
  load h1 a <> load h a /\ load h2 a <> load h1 a.
Proof. exact @scaled_again. Qed.
Print Assumptions c44_constant_refuted.

(** C44 fails for a component that returns an array of the state: the state is changed. *)
Theorem c44_state_refuted : exists (w : scaling Qc) (comp : hwrapped (T:=Qc) unit) u h st dt u' h' o1 o2,
  state_in h st /\ (forall u h sst dt, snd (fst (comp u h sst dt)) = h) /\
  scaling_call w comp u h st dt = ((u', h'), Ok (o1, o2)) /\ load_state h' st <> load_state h st.
Proof. exact @scaled_state_changed. Qed.
Print Assumptions c44_state_refuted.
