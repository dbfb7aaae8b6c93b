(** Concrete cases for the property theorems about values and exceptions (C102). *)
From Coq Require Import String List Bool Arith ZArith QArith Qcanon.
From Verif Require Import Prelude PreludeFacts ArithM NdArray Units DataArrayM ExampleRegistry Tracers Components Composite Steppers Basic MainLoop LeapLoop Wrapped Ex_Round
  SpecFrame FrameFacts FrameCalls FrameMain FrameWrap.
Import ListNotations.
Open Scope string_scope.
Open Scope nat_scope.
Open Scope list_scope.

#[local] Existing Instance ex_registry | 5.

(** Wind with drag that grows with its square, in any arithmetic; the component counts its calls. *)
Definition in_f : pdict := [("u", qprops ["*"] "m s^-1")].
Definition out_f : pdict := [("u", qprops ["*"] "m s^-1 s^-1")].
Definition comp_f : tcomp := mktcomp true in_f out_f [] "drag" true [] None "".
Definition ac_f {T} {A : Arith T} (u : nat) (raw : dict (rval T)) : nat * res (dict (nd T) * dict (nd T)) :=
  (S u, let* a := get_raw_array "u" raw in Ok ([("u", nd_map (fun x => amul x x) a)], [])).
Definition plain_f {T} {A : Arith T} : caller (T:=T) nat := tendency_call empty_treg comp_f ac_f.
Definition prog_f {T} {A : Arith T} : icaller (T:=T) nat := fun u st dt => implicit_composite_call [inr plain_f] dt u st.
Definition cfg_f : tstep := mktstep true "step" in_f [] in_f.
Definition mon_f {T W} (w : W) (st : state T) : W * res unit := (w, Ok tt).

Definition grid_f (f : nat -> Qc) (u : string) : da Qc := mkda ["y"; "x"] (build [2; 3] (fun i => f (nth 0 i 0 + nth 1 i 0))) [("units", u)].
Definition st_f : state Qc := [("time", VTime 0%Z); ("u", VDA (grid_f (fun i => Q2Qc (Z.of_nat i # 3)) "km s^-1"))].
Definition zero_f : state Qc := [("time", VTime 0%Z); ("u", VDA (grid_f (fun _ => 0%Qc) "km s^-1"))].
(** A state with the wrong units. *)
Definition bad_f : state Qc := [("time", VTime 0%Z); ("u", VDA (grid_f (fun i => Q2Qc (Z.of_nat i # 3)) "kg"))].
Definition sec_f : Z := 1000000.

Lemma f_array : forall {T T'} {A : Arith T} {A' : Arith T'}, blind_arrays alike_two eq (ac_f (T:=T)) (ac_f (T:=T')).
Proof.
  intros T T' A A' u v raw raw' <- H; unfold ac_f; cbn [fst snd]. split; [reflexivity | ].
  eapply so_bind with (P := alike_array).
  - unfold get_raw_array. eapply so_bind; [exact (sk_getE _ "u" raw raw' H) | ]. intros [a | s] [b | t]; cbn; auto; contradiction.
  - intros a b Hab. split; cbn [fst snd]; [ | constructor]. constructor; [split; [reflexivity | exact Hab] | constructor].
Qed.

Lemma f_prog : forall {T T'} {A : Arith T} {A' : Arith T'}, blind eq (prog_f (T:=T)) (prog_f (T:=T')).
Proof.
  intros T T' A A'. apply (frame_implicit_composite eq [inr plain_f] [inr plain_f]).
  constructor; [ | constructor]. cbn [blind_any]. apply frame_tendency, f_array.
Qed.

Lemma f_alike : alike_state st_f zero_f.
Proof. constructor; [split; reflexivity | ]. constructor; [split; [reflexivity | repeat split] | constructor]. Qed.

(** Exact numbers and numbers with twenty binary places; different values. *)
Lemma f_setting :
  blind_arrays alike_two eq (ac_f (A:=ArithQc)) (ac_f (A:=fixed)) /\ blind eq (prog_f (A:=ArithQc)) (prog_f (A:=fixed)) /\ alike_state st_f zero_f.
Proof. split; [apply f_array | split; [apply f_prog | exact f_alike]]. Qed.

(** Three steps with AdamsBashforth in exact numbers; so there are three in the others. *)
Lemma f_ab_case : exists w log e w' log' e', length log = 3 /\
  main_loop 4 [adams_bashforth cfg_f (prog_f (A:=ArithQc))] mon_f (3 * sec_f) sec_f (mkab 3 None [], 0) st_f = ((w, log), Some (Ok e)) /\
  main_loop 4 [@adams_bashforth Qc fixed _ _ cfg_f (prog_f (A:=fixed))] mon_f (3 * sec_f) sec_f (mkab 3 None [], 0) zero_f = ((w', log'), Some (Ok e')) /\
  Forall2 alike_state log log'.
Proof.
  pose proof (frame_run (T:=Qc) (T':=Qc) (both alike_ab eq) [adams_bashforth cfg_f (prog_f (A:=ArithQc))] [@adams_bashforth Qc fixed _ _ cfg_f (prog_f (A:=fixed))] mon_f mon_f (3 * sec_f) sec_f) as K.
  specialize (K (Forall2_cons _ _ (frame_adams_bashforth eq cfg_f _ _ f_prog) (Forall2_nil _))).
  specialize (K (fun u v st st' H _ => conj H eq_refl) 4 (mkab 3 None [], 0) (mkab 3 None [], 0) st_f zero_f).
  specialize (K (conj (conj eq_refl (conj eq_refl (Forall2_nil _))) eq_refl) f_alike). cbv zeta in K.
  assert (E : match main_loop 4 [adams_bashforth cfg_f (prog_f (A:=ArithQc))] mon_f (3 * sec_f) sec_f (mkab 3 None [], 0) st_f with
              | ((_, log), Some (Ok _)) => Nat.eqb (length log) 3 | _ => false end = true) by (vm_compute; reflexivity).
  destruct (main_loop 4 [adams_bashforth cfg_f (prog_f (A:=ArithQc))] mon_f (3 * sec_f) sec_f (mkab 3 None [], 0) st_f) as [[w log] [[e | x] | ]]; try discriminate E.
  destruct (main_loop 4 [@adams_bashforth Qc fixed _ _ cfg_f (prog_f (A:=fixed))] mon_f (3 * sec_f) sec_f (mkab 3 None [], 0) zero_f) as [[w' log'] [[e' | x'] | ]];
    destruct K as (K1 & K2 & K3); cbn in K3; try contradiction.
  exists w, log, e, w', log', e'. split; [apply Nat.eqb_eq; exact E | auto].
Qed.

(** The same with Leapfrog. *)
Lemma f_leap_case : exists s w log e s' w' log' e', length log = 3 /\
  leap_main_loop 4 cfg_f (prog_f (A:=ArithQc)) [] mon_f (3 * sec_f) sec_f (new_leap (Q2Qc (1 # 20)) (Q2Qc (1 # 2)), 0) tt st_f = ((s, w, log), Some (Ok e)) /\
  @leap_main_loop Qc fixed _ _ _ 4 cfg_f (prog_f (A:=fixed)) [] mon_f (3 * sec_f) sec_f (new_leap (Q2Qc (1 # 10)) (Q2Qc (1 # 4)), 0) tt zero_f = ((s', w', log'), Some (Ok e')) /\
  Forall2 alike_state log log'.
Proof.
  pose proof (frame_leap_run (A:=ArithQc) (A':=fixed) eq (@eq unit) cfg_f (prog_f (A:=ArithQc)) (prog_f (A:=fixed)) [] [] mon_f mon_f (3 * sec_f) sec_f f_prog (Forall2_nil _)) as K.
  specialize (K (fun u v st st' H _ => conj H eq_refl) 4 (new_leap (Q2Qc (1 # 20)) (Q2Qc (1 # 2)), 0) (new_leap (Q2Qc (1 # 10)) (Q2Qc (1 # 4)), 0) tt tt st_f zero_f).
  assert (L : both (alike_leap (H:=ArithQc) (H0:=fixed)) (@eq nat) (new_leap (Q2Qc (1 # 20)) (Q2Qc (1 # 2)), 0) (new_leap (Q2Qc (1 # 10)) (Q2Qc (1 # 4)), 0)).
  { split; [split; [vm_compute; reflexivity | split; [reflexivity | exact I]] | reflexivity]. }
  specialize (K L eq_refl f_alike). cbv zeta in K.
  assert (E : match leap_main_loop 4 cfg_f (prog_f (A:=ArithQc)) [] mon_f (3 * sec_f) sec_f (new_leap (Q2Qc (1 # 20)) (Q2Qc (1 # 2)), 0) tt st_f with
              | ((_, log), Some (Ok _)) => Nat.eqb (length log) 3 | _ => false end = true) by (vm_compute; reflexivity).
  destruct (leap_main_loop 4 cfg_f (prog_f (A:=ArithQc)) [] mon_f (3 * sec_f) sec_f (new_leap (Q2Qc (1 # 20)) (Q2Qc (1 # 2)), 0) tt st_f) as [[[s w] log] [[e | x] | ]]; try discriminate E.
  destruct (@leap_main_loop Qc fixed _ _ _ 4 cfg_f (prog_f (A:=fixed)) [] mon_f (3 * sec_f) sec_f (new_leap (Q2Qc (1 # 10)) (Q2Qc (1 # 4)), 0) tt zero_f) as [[[s' w'] log'] [[e' | x'] | ]];
    destruct K as (K0 & K1 & K2 & K3); cbn in K3; try contradiction.
  exists s, w, log, e, s', w', log', e'. split; [apply Nat.eqb_eq; exact E | auto].
Qed.

(** Wrong units raise the same whatever the values are. *)
Lemma f_bad_case : forall st', alike_state bad_f st' ->
  snd (prog_f (A:=ArithQc) 0 bad_f sec_f) = Err EInvalidState /\ snd (prog_f (A:=fixed) 0 st' sec_f) = Err EInvalidState.
Proof.
  intros st' H. assert (E : snd (prog_f (A:=ArithQc) 0 bad_f sec_f) = Err EInvalidState) by (vm_compute; reflexivity).
  destruct (f_prog (A:=ArithQc) (A':=fixed) 0 0 bad_f st' sec_f eq_refl H) as [_ K]. split; [exact E | ].
  rewrite E in K. destruct (snd (prog_f (A:=fixed) 0 st' sec_f)); cbn in K; [contradiction | subst; reflexivity].
Qed.

(** The component under UpdateFrequencyWrapper, called twice; its stepper under TimeDifferencingWrapper. *)
Definition maybe_f {T} {A : Arith T} (u : nat) (st : state T) (_ : option Z) : nat * res (tends T) := plain_f u st.

Lemma f_wrapped_case :
  blind_maybe eq (maybe_f (A:=ArithQc)) (maybe_f (A:=fixed)) /\
  blind_step (both alike_ab eq) (adams_bashforth cfg_f (prog_f (A:=ArithQc))) (@adams_bashforth Qc fixed _ _ cfg_f (prog_f (A:=fixed))) /\
  is_ok (snd (wrapper_call (maybe_f (A:=ArithQc)) sec_f None (new_ufw, 0) st_f)) = true /\
  is_ok (snd (differencing_call in_f (adams_bashforth cfg_f (prog_f (A:=ArithQc))) (mkab 3 None [], 0) st_f sec_f)) = true.
Proof.
  split; [intros ts; exact (frame_tendency eq empty_treg comp_f _ _ f_array) | ].
  split; [exact (frame_adams_bashforth eq cfg_f _ _ f_prog) | ]. split; vm_compute; reflexivity.
Qed.

(** Relaxation with 0 as its time scale: numpy divides by zero without raising, so the call returns as it does
    for any other time scale. *)
Definition relax_f (tau : Qc) : state Qc :=
  [("time", VTime 0%Z); ("u", VDA (grid_f (fun i => Q2Qc (Z.of_nat i # 3)) "m s^-1")); ("equilibrium_u", VDA (grid_f (fun _ => 0%Qc) "m s^-1"));
   ("u_relaxation_timescale", VDA (grid_f (fun _ => tau) "s"))].
Lemma f_relaxation_case : forall tau, alike_state (relax_f 1) (relax_f tau) /\
  is_ok (relaxation_call (mktcomp true (relaxation_inputs "u" "m s^-1") out_f [] "relax" false [] None "s^-1") "u" (relax_f 1)) = true.
Proof.
  intros tau. split; [ | vm_compute; reflexivity].
  constructor; [split; reflexivity | ]. do 3 (constructor; [split; [reflexivity | repeat split] | ]). constructor.
Qed.
