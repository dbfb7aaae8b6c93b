(** Property theorems about what calls do with the outputs that array_call returns (C09). *)
From Coq Require Import String List Bool Arith ZArith QArith Qcanon.
From Verif Require Import Prelude ArithM NdArray Units ExampleRegistry DataArrayM Tracers SpecComponents Components Ex_Components Ex_Tracers SpecAnswers AnswersMain Ex_Answers.
Import ListNotations.
Open Scope string_scope.
Open Scope nat_scope.
Open Scope list_scope.

#[local] Existing Instance ex_registry | 5.

(** C09: a call that did not refuse its inputs called array_call once, and raises ComponentMissingOutputError if a tendency is missing, else ComponentExtraOutputError if one is extra, then the same for diagnostics, and neither of these errors otherwise. *)
Theorem c09_tendency_checked : forall {T} {A : Arith T} {R : Registry}, forall g c (f : dict (rval T) -> res (dict (nd T) * dict (nd T))) seen st,
  t_packer c = None -> NoDup (keys (t_tend c)) -> NoDup (keys (t_diag c)) ->
  let (seen', r) := tendency_call g c (fun s raw => (s ++ [raw], f raw)) seen st in
  (seen' = seen /\ exists e, r = Err e) \/
  exists raw, seen' = seen ++ [raw] /\
  match f raw with
  | Err e => r = Err e
  | Ok (rt, rd) => checked (t_tend c) (t_inp c) [] rt (checked (t_diag c) (t_inp c) (t_added c) rd accepted) r
  end.
Proof. exact @tendency_checked. Qed.
Print Assumptions c09_tendency_checked.

(** C09: so for a DiagnosticComponent. *)
Theorem c09_diagnostic_checked : forall {T} {A : Arith T} {R : Registry}, forall c (f : dict (rval T) -> res (dict (nd T))) seen st, NoDup (keys (d_diag c)) ->
  let (seen', r) := diagnostic_call c (fun s raw => (s ++ [raw], f raw)) seen st in
  (seen' = seen /\ exists e, r = Err e) \/
  exists raw, seen' = seen ++ [raw] /\
  match f raw with
  | Err e => r = Err e
  | Ok rd => checked (d_diag c) (d_inp c) [] rd accepted r
  end.
Proof. exact @diagnostic_checked. Qed.
Print Assumptions c09_diagnostic_checked.

(** C09: so for a Stepper, diagnostics first. *)
Theorem c09_stepper_checked : forall {T} {A : Arith T} {R : Registry}, forall g c (f : dict (rval T) -> Z -> res (dict (nd T) * dict (nd T))) seen st dt,
  s_packer c = None -> NoDup (keys (s_diag c)) -> NoDup (keys (s_out c)) ->
  let (seen', r) := stepper_call g c (fun s raw dt => (s ++ [raw], f raw dt)) seen st dt in
  (seen' = seen /\ exists e, r = Err e) \/
  exists raw, seen' = seen ++ [raw] /\
  match f raw dt with
  | Err e => r = Err e
  | Ok (rd, rn) => checked (s_diag c) (s_inp c) (s_ign c) rd (checked (s_out c) (s_inp c) [] rn accepted) r
  end.
Proof. exact @stepper_checked. Qed.
Print Assumptions c09_stepper_checked.

(** C09: with tracers, a call that returns was given the array of the tracers, and without it exactly the declared outputs. *)
Theorem c09_tendency_tracers_answered : forall {T} {A : Arith T} {R : Registry}, forall {U} g c p (ac : U -> dict (rval T) -> U * res (dict (nd T) * dict (nd T))) u u' st r,
  t_packer c = Some p -> NoDup (keys (t_tend c)) -> NoDup (keys (t_diag c)) -> tendency_call g c ac u st = (u', Ok r) ->
  exists raw rt rd, ac u raw = (u', Ok (rt, rd)) /\ In "tracers" (keys rt) /\
  (~ output_missing (t_tend c) (t_inp c) [] (ddel "tracers" rt) /\ ~ output_extra (t_tend c) (t_inp c) (ddel "tracers" rt)) /\
  (~ output_missing (t_diag c) (t_inp c) (t_added c) rd /\ ~ output_extra (t_diag c) (t_inp c) rd).
Proof. exact @tendency_tracers_answered. Qed.
Print Assumptions c09_tendency_tracers_answered.

(** C09: so for a Stepper. *)
Theorem c09_stepper_tracers_answered : forall {T} {A : Arith T} {R : Registry}, forall {U} g c p (ac : U -> dict (rval T) -> Z -> U * res (dict (nd T) * dict (nd T))) u u' st dt r,
  s_packer c = Some p -> NoDup (keys (s_diag c)) -> NoDup (keys (s_out c)) -> stepper_call g c ac u st dt = (u', Ok r) ->
  exists raw rd rn, ac u raw dt = (u', Ok (rd, rn)) /\ In "tracers" (keys rn) /\
  (~ output_missing (s_diag c) (s_inp c) (s_ign c) rd /\ ~ output_extra (s_diag c) (s_inp c) rd) /\
  (~ output_missing (s_out c) (s_inp c) [] (ddel "tracers" rn) /\ ~ output_extra (s_out c) (s_inp c) (ddel "tracers" rn)).
Proof. exact @stepper_tracers_answered. Qed.
Print Assumptions c09_stepper_tracers_answered.

(** Right, missing and extra outputs, and inputs that are refused. *)
Example c09_checked_case : t_packer (c_t true) = None /\ NoDup (keys (t_tend (c_t true))) /\ NoDup (keys (t_diag (c_t true))) /\
  told (tendency_call empty_treg (c_t true) (fun s raw => (s ++ [raw], say ["t"] ["speed"] raw)) [] st_c) = (1, None) /\
  told (tendency_call empty_treg (c_t true) (fun s raw => (s ++ [raw], say [] ["speed"] raw)) [] st_c) = (1, Some EMissingOutput) /\
  told (tendency_call empty_treg (c_t true) (fun s raw => (s ++ [raw], say ["t"; "q"] ["speed"] raw)) [] st_c) = (1, Some EExtraOutput) /\
  told (tendency_call empty_treg (c_t true) (fun s raw => (s ++ [raw], say ["q"] ["speed"] raw)) [] st_c) = (1, Some EMissingOutput) /\
  told (tendency_call empty_treg (c_t true) (fun s raw => (s ++ [raw], say ["t"] ["speed"; "q"] raw)) [] st_c) = (1, Some EExtraOutput) /\
  told (tendency_call empty_treg (c_t true) (fun s raw => (s ++ [raw], say ["t"] ["speed"] raw)) [] []) = (0, Some EInvalidState).
Proof. exact @answers_case. Qed.

(** Components with tracers whose calls return. *)
Example c09_tracers_case : t_packer c_m = Some p_tr /\ NoDup (keys (t_tend c_m)) /\ NoDup (keys (t_diag c_m)) /\
  (exists u' r, tendency_call (fst made_m) c_m ac_m 0 st_tr = (u', Ok r)) /\
  s_packer c_k = Some p_tr /\ NoDup (keys (s_diag c_k)) /\ NoDup (keys (s_out c_k)) /\ exists u' r, stepper_call (fst made_k) c_k ac_k 0 st_tr 10%Z = (u', Ok r).
Proof. exact @answers_tracers_case. Qed.
