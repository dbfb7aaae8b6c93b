(** Tracers that a component returns (C79). *)
From Coq Require Import String List Bool Arith ZArith QArith Qcanon.
From Verif Require Import Prelude ArithM NdArray Units DataArrayM ExampleRegistry Wildcard GetNp Restore SpecArrays InitNp SpecDa Tracers SpecTracers Components SpecComponents SpecCalls
  Composite SpecComposite Steppers SpecSteppers TracerStep Ex_Components Ex_Steppers Ex_Tracers Ex_TracerStep.
Import ListNotations.
Open Scope string_scope.
Open Scope nat_scope.
Open Scope list_scope.

#[local] Existing Instance ex_registry | 5.


(** C79: every tracer comes back, in its own units times the component's tracer_tendency_time_unit,
    whatever array_call computes and whatever the shape of its array. *)
Theorem c79_units : forall {T : Type} {A : Arith T} {R : Registry}, forall {U} g c p qd (ac : U -> dict (rval T) -> U * res (dict (nd T) * dict (nd T))) u u' (st : state T) tout dout,
  consistent g -> t_packer c = Some p -> has_dims p qd -> one_star qd -> wf_state st ->
  (forall m, In m (tracer_order g p) -> ~ In m (keys (t_tend c))) -> NoDup (keys (t_tend c)) -> stars_ok (t_tend c) (t_inp c) ->
  tendency_call g c ac u st = (u', Ok (tout, dout)) ->
  forall m, In m (tracer_order g p) -> exists un q, tracer_units g p m = Some un /\ dget m tout = Some q /\ attrs q = [("units", times_unit un (t_tunit c))].
Proof. exact @main_tracer_units. Qed.
Print Assumptions c79_units.

(** The mixer: a prepended tracer, two registered ones. *)
Example c79_units_hypotheses_met : consistent (fst made_m) /\ t_packer c_m = Some p_tr /\ has_dims p_tr qd_tr /\ one_star qd_tr /\ NoDup (map fst (pk_prepend p_tr)) /\ wf_state st_tr /\
  NoDup (keys (t_tend c_m)) /\ stars_ok (t_tend c_m) (t_inp c_m) /\ (forall m, In m (tracer_order (fst made_m) p_tr) -> ~ In m (keys (t_tend c_m))) /\
  exists u' t d, tendency_call (fst made_m) c_m ac_m 0 st_tr = (u', Ok (t, d)).
Proof. exact @ex_tendency_tracers. Qed.

(** C79: a component that does not return the tracers raises an exception, in every call. *)
Theorem c79_required : forall {T : Type} {A : Arith T} {R : Registry}, (forall {U} g c p (ac : U -> dict (rval T) -> U * res (dict (nd T) * dict (nd T))) u (st : state T) u' r, t_packer c = Some p ->
  (forall u raw u' rt rd, ac u raw = (u', Ok (rt, rd)) -> ~ In "tracers" (keys rt)) -> tendency_call g c ac u st = (u', r) -> exists e, r = Err e) /\
  (forall {U} g c p (ac : U -> dict (rval T) -> Z -> U * res (dict (nd T) * dict (nd T))) u (st : state T) dt u' r, s_packer c = Some p ->
  (forall u raw dt u' rd rn, ac u raw dt = (u', Ok (rd, rn)) -> ~ In "tracers" (keys rn)) -> stepper_call g c ac u st dt = (u', r) -> exists e, r = Err e).
Proof. exact @main_tracers_required. Qed.
Print Assumptions c79_required.

(** The mixer without its tracers. *)
Example c79_required_hypotheses_met : t_packer c_m = Some p_tr /\ (forall u raw u' rt rd, ac_none u raw = (u', Ok (rt, rd)) -> ~ In "tracers" (keys rt)) /\
  tendency_call (fst made_m) c_m ac_none 0 st_tr = (1, Err EKey).
Proof. exact @ex_tracers_required. Qed.

(** C79: an array with fewer tracers than there are is refused. *)
Theorem c79_none_missing : forall {T : Type} {A : Arith T}, forall g p (a : nd T) (st : state T) mult n, nth_error (shape a) (tracer_index p) = Some n ->
  n < length (tracer_order g p) -> unpack g p a st mult = Err EIndex.
Proof. exact @main_no_tracer_missing. Qed.
Print Assumptions c79_none_missing.

(** Two tracers instead of three. *)
Example c79_none_missing_hypotheses_met : nth_error (shape (cramp [6; 2; 2])) (tracer_index p_tr) = Some 2 /\ 2 < length (tracer_order g_tr p_tr) /\
  tendency_call (fst made_m) c_m (ac_count 2) 0 st_tr = (1, Err EIndex).
Proof. exact @ex_no_tracer_missing. Qed.

(** C79: the first step of AdamsBashforth, of any order, moves every tracer by the timestep times what
    array_call returned for it: the i-th slice of its array, in the tracer's declared units per second, converted to
    the units the state holds it in, at the same named coordinates. *)
Theorem c79_stepped : forall {T : Type} {A : Arith T} {R : Registry}, forall {U} cfg g c p qd (ac : U -> dict (rval T) -> U * res (dict (nd T) * dict (nd T))) u u1 u2 (st : state T) tout dout o n ab0 ab1 dt diag new,
  consistent g -> t_packer c = Some p -> has_dims p qd -> one_star qd -> NoDup (map fst (pk_prepend p)) -> wf_state st ->
  NoDup (keys (t_tend c)) -> stars_ok (t_tend c) (t_inp c) -> (forall m, In m (tracer_order g p) -> ~ In m (keys (t_tend c))) ->
  t_tunit c = "s^-1" -> proper_state st -> tendency_call g c ac u st = (u1, Ok (tout, dout)) -> proper tout -> new_ab o = Ok ab0 -> is_order o n ->
  adams_bashforth cfg (fun u s dt => implicit_composite_call [inr (tendency_call g c ac)] dt u s) (ab0, u) st dt = ((ab1, u2), Ok (diag, new)) ->
  let tp := get_tracer_input_properties g (pk_prepend p) (pk_dims p) in
  let W := wildcard_dims st tp in
  exists raw arr rt rd a L, pack g p st = Ok arr /\ dget "tracers" raw = Some (RArr arr) /\
  ac u raw = (u1, Ok (rt, rd)) /\ dget "tracers" rt = Some a /\ common_lengths st tp L /\
  (shape a = shape arr -> forall i m, nth_error (tracer_order g p) i = Some m ->
  exists un x us r, tracer_units g p m = Some un /\ dget m st = Some (VDA x) /\ units_of x = Some us /\ dget m new = Some (VDA r) /\
  attrs r = attrs x /\ (exists extra, dims r = dims x ++ extra) /\
  forall cc, in_grid r cc -> in_grid x cc /\ grid_point W L cc qd /\
  exists y, converted (un ++ " s^-1") (us ++ " s^-1") (at_ a (map (tracer_pos i W L cc) (pk_dims p))) y /\
  da_at r cc = aadd (da_at x cc) (amul y (aofQ (dt # 1000000)))).
Proof. exact @main_tracers_stepped. Qed.
Print Assumptions c79_stepped.

(** The mixer, whose vapour is declared in kg and held in g. *)
Example c79_stepped_hypotheses_met : t_tunit c_m = "s^-1" /\ proper_state st_tr /\ new_ab (T:=Qc) (OInt 3) = Ok (mkab 3 None []) /\ is_order (OInt 3) 3 /\
  exists u1 tout dout ab1 diag new, tendency_call (fst made_m) c_m ac_m 0 st_tr = (u1, Ok (tout, dout)) /\ proper tout /\
  adams_bashforth cfg_0 (fun u s dt => implicit_composite_call [inr (tendency_call (fst made_m) c_m ac_m)] dt u s) (mkab 3 None [], 0) st_tr 600000000%Z =
  ((ab1, u1), Ok (diag, new)).
Proof. exact @ex_tracers_stepped. Qed.

(** Ash grows by twice itself in a second; it is declared in g and held in kg. *)
Example c79_stepped_case : match snd (adams_bashforth cfg_0 (wrapped (fst made_m) c_m ac_m) (mkab 3 None [], 0) st_tr 1000000%Z) with
  | Ok (_, new) => match dget "ash" new with
  | Some (VDA q) => da_is (Some q) ["z"; "y"; "x"] [2; 2; 3] "kg" (map cz [0; 0; 0; 0; 0; 0; 3; 3; 3; 3; 3; 3]%Z)
  | _ => false
  end
  | Err _ => false
  end = true.
Proof. exact @ex_tracers_stepped_case. Qed.

(** C79 is false of arrays with too many tracers: the documentation requires the shape of the array
    that was given, but slices that belong to no tracer are dropped without notice. *)
Theorem c79_same_dims_refuted : exists g c p (st : state Qc) arr a (ac : nat -> dict (rval Qc) -> nat * res (dict (nd Qc) * dict (nd Qc))) r, consistent g /\ t_packer c = Some p /\ wf_state st /\
  pack g p st = Ok arr /\ (forall u raw, exists rt, ac u raw = (S u, Ok (rt, [])) /\ dget "tracers" rt = Some a) /\
  shape arr = [6; 3; 2] /\ shape a = [6; 4; 2] /\ tendency_call g c ac 0 st = (1, Ok r).
Proof. exact @ex_extra_tracers. Qed.
Print Assumptions c79_same_dims_refuted.

(** C79 is false of the documented time unit: with 's' a tracer in g has tendencies in 'g s', not
    'g s^-1', and no AdamsBashforth can use them. *)
Theorem c79_documented_refuted : exists (g g' : treg) inp tend tro c (ac : nat -> dict (rval Qc) -> nat * res (dict (nd Qc) * dict (nd Qc))) (st : state Qc) t d q,
  make_tendency_component false g inp tend [] "mixer" true tro "s" = (g', Ok c) /\ tendency_call g' c ac 0 st = (1, Ok (t, d)) /\
  dget "ash" (tr_units g') = Some "g" /\ dget "ash" t = Some q /\ units_of q = Some "g s" /\
  exists s e, adams_bashforth cfg_0 (wrapped g' c ac) (mkab 1 None [], 0) st 1000000%Z = (s, Err e).
Proof. exact @ex_documented_unit. Qed.
Print Assumptions c79_documented_refuted.
