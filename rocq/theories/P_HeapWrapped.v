(** Property theorems about UpdateFrequencyWrapper in memory (C94). *)
From Coq Require Import String List Bool Arith ZArith QArith Qcanon.
From Verif Require Import Prelude ArithM NdArray Units DataArrayM ExampleRegistry GetNp Components Composite Steppers Heap SpecHeap HeapSteppers HeapLeap Basic
  Wrapped HeapWrapped SpecHeapWrapped WrappedFacts HeapWrappedMain Ex_Components Ex_Steppers Ex_Heap Ex_HeapWrapped.
Import ListNotations.
Open Scope string_scope.
Open Scope nat_scope.
Open Scope list_scope.

#[local] Existing Instance ex_registry | 5.

(** C94: around a component that changes no existing array, UpdateFrequencyWrapper changes none and returns what the wrapper of values returns. *)
Theorem c94_wrapper : forall {T : Type} {A : Arith T}, forall (P : Prop) {UH UV : Type} (I : invariant (T:=T) UH UV), forall hc c interval implicit, behaves_stepping P I hc c ->
  behaves_if P (wrapper_inv I) (fun s h st dt => h_wrapper_call hc interval (step_of implicit dt) s h st)
  (fun s st dt => wrapper_call c interval (step_of implicit dt) s st).
Proof. exact @main_wrapper_behaves. Qed.
Print Assumptions c94_wrapper.

(** C94: what it keeps stays as it is as long as only memory others keep to themselves changes. *)
Theorem c94_keeps : forall {T : Type} {A : Arith T}, forall {UH UV} (I : invariant (T:=T) UH UV), stable I -> stable (wrapper_inv I).
Proof. exact @main_wrapper_stable. Qed.
Print Assumptions c94_keeps.

(** C94: while the kept output is in use, the arrays returned are the ones kept, and nothing in memory changes. *)
Theorem c94_same_arrays : forall {T : Type}, forall {U} (hc : hstepping T U) interval ts w u h st t t0 o, dget "time" st = Some (HTime t) ->
  hu_last w = Some t0 -> (t < t0 + interval)%Z -> hu_cache w = Some o ->
  h_wrapper_call hc interval ts (w, u) h st = (((w, u), h), Ok o).
Proof. exact @main_same_arrays. Qed.
Print Assumptions c94_same_arrays.

(** C94: AdamsBashforth with a wrapped component among others changes no existing array and returns what it returns on values; memory stays related, so this holds in every run. *)
Theorem c94_adams_bashforth : forall {T : Type} {A : Arith T} {R : Registry}, forall {UH UV} (I : invariant (T:=T) UH UV), stable I ->
  forall hc c interval implicit hpre pre hpost post, behaves_stepping True I hc c ->
  Forall2 (behaves_either True I) hpre pre -> Forall2 (behaves_either True I) hpost post ->
  forall cfg (X : cells) h s w st dt a' u' h' r,
  ab_inv (wrapper_inv I) X h s w -> (forall c, X c -> c < length h) -> state_in h st -> avoids (state_cells st) X ->
  h_adams_bashforth cfg (h_wrapped_among hc interval implicit hpre hpost) s h st dt = ((a', u', h'), r) ->
  grown h h' /\
  (exists w', adams_bashforth cfg (wrapped_among c interval implicit pre post) w (load_state h st) dt = (w', load_stepped h' r) /\
  ab_inv (wrapper_inv I) X h' (a', u') w') /\
  step_out_in X h' r.
Proof. exact @main_wrapped_ab. Qed.
Print Assumptions c94_adams_bashforth.

(** Two steps, the second with the kept output, beside components that return kept arrays and those of the state. *)
Example c94_case : stable kept_inv /\ behaves_stepping True kept_inv h_report v_report /\
  Forall2 (behaves_either True kept_inv) [inr hc_grow] [inr vc_grow] /\ Forall2 (behaves_either True kept_inv) [inl h_kept] [inl v_kept] /\
  ab_inv (wrapper_inv kept_inv) outside mem0 (mkhab 1 None [], (new_hufw, u0)) (mkab 1 None [], (new_ufw, v0)) /\
  (forall c, outside c -> c < length mem0) /\ state_in mem0 st0 /\ avoids (state_cells st0) outside /\ two_wrapped = true.
Proof. exact @ex_wrapped_memory. Qed.

(** C94: the same for SSPRungeKutta. *)
Theorem c94_runge_kutta : forall {T : Type} {A : Arith T} {R : Registry}, forall {UH UV} (I : invariant (T:=T) UH UV), stable I ->
  forall hc c interval implicit hpre pre hpost post, behaves_stepping True I hc c ->
  Forall2 (behaves_either True I) hpre pre -> Forall2 (behaves_either True I) hpost post ->
  forall cfg (X : cells) h s w st dt k' u' h' r,
  rk_inv (wrapper_inv I) X h s w -> (forall c, X c -> c < length h) -> state_in h st -> avoids (state_cells st) X ->
  h_ssp_rk cfg (h_wrapped_among hc interval implicit hpre hpost) s h st dt = ((k', u', h'), r) ->
  grown h h' /\
  (exists w', ssp_rk cfg (wrapped_among c interval implicit pre post) w (load_state h st) dt = (w', load_stepped h' r) /\
  rk_inv (wrapper_inv I) X h' (k', u') w') /\
  step_out_in X h' r.
Proof. exact @main_wrapped_rk. Qed.
Print Assumptions c94_runge_kutta.

(** C94: Leapfrog, which filters the state in place, with a wrapped component that neither keeps nor returns arrays of the state. *)
Theorem c94_leapfrog : forall {T : Type} {A : Arith T} {R : Registry}, forall {UH UV} (I : invariant (T:=T) UH UV), stable I ->
  forall hc c interval implicit hpre pre hpost post, behaves_stepping False I hc c ->
  Forall2 (behaves_either False I) hpre pre -> Forall2 (behaves_either False I) hpost post ->
  forall cfg h l u v st dt l' u' h' r, leap_ready (wrapper_inv I) h l u v st ->
  h_leapfrog cfg (h_wrapped_among hc interval implicit hpre hpost) (l, u) h st dt = ((l', u', h'), r) ->
  changed_in (state_cells st) h h' /\
  exists vl' v', leapfrog cfg (wrapped_among c interval implicit pre post) (load_leap h l, v) (load_state h st) dt =
  ((vl', v'), load_state h' st, load_stepped h' r) /\
  match r with
  | Ok (d, new) => vl' = load_leap h' l' /\ leap_ready (wrapper_inv I) h' l' u' v' new /\ dict_in h' d /\ avoids (cells_of d) (state_cells st)
  | Err _ => wrapper_inv I (state_cells st) h' u' v'
  end.
Proof. exact @main_wrapped_leap. Qed.
Print Assumptions c94_leapfrog.

(** C94: the relation holds of a new wrapper. *)
Theorem c94_new : forall {T : Type} {A : Arith T}, forall {UH UV} (I : invariant (T:=T) UH UV) X h u v, I X h u v -> wrapper_inv I X h (new_hufw, u) (new_ufw, v).
Proof. exact @main_wrapper_new. Qed.
Print Assumptions c94_new.

(** C94: a caller that scales a diagnostic in place changes the state a later step computes, although it keeps the state itself apart and the component keeps nothing. *)
Theorem c94_spoilt_refuted : exists s1 u1 h1 d1 new1 a s2 h2 d2 new2 w1 vd1 vnew1 w2 vd2 vnew2 x1 x2,
  stable unit_inv /\ behaves_stepping False unit_inv h_report v_report /\
  h_adams_bashforth cfg1 h_alone (mkhab 1 None [], (new_hufw, tt)) mem0 st0 second = ((s1, u1, h1), Ok (d1, new1)) /\
  adams_bashforth cfg1 v_alone (mkab 1 None [], (new_ufw, tt)) (load_state mem0 st0) second = (w1, Ok (vd1, vnew1)) /\
  load_state h1 new1 = vnew1 /\ dget "heating" d1 = Some a /\
  load_state (tripled h1 a) (later second new1) = dset "time" (VTime second) vnew1 /\
  h_adams_bashforth cfg1 h_alone (s1, u1) (tripled h1 a) (later second new1) second = ((s2, h2), Ok (d2, new2)) /\
  adams_bashforth cfg1 v_alone w1 (dset "time" (VTime second) vnew1) second = (w2, Ok (vd2, vnew2)) /\
  x_of (load_state h2 new2) = Some x1 /\ x_of vnew2 = Some x2 /\ da_at x1 (fun _ => 1) <> da_at x2 (fun _ => 1).
Proof. exact @wrapped_spoilt. Qed.
Print Assumptions c94_spoilt_refuted.
