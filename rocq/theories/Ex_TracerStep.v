(** Concrete cases for the property theorems about returned tracers (C79). *)
From Coq Require Import String List Bool Arith ZArith QArith Qcanon Lia.
From Verif Require Import Prelude PreludeFacts ArithM NdArray NdFacts Units DataArrayM Wildcard GetNp SpecArrays Restore InitNp SpecUnits ExampleRegistry Checks
  SpecDa Tracers SpecTracers TracersFacts TracersMain Components SpecComponents SpecCalls Composite SpecComposite Steppers SpecSteppers TracersCalls TracerStep
  Ex_Components Ex_Composite Ex_Steppers Ex_Tracers.
Import ListNotations.
Open Scope string_scope.
Open Scope nat_scope.
Open Scope list_scope.

#[local] Existing Instance ex_registry | 5.

(** What a time stepper is given for a component. *)
Definition wrapped {U} (g : treg) (c : tcomp) (ac : U -> dict (rval Qc) -> U * res (dict (nd Qc) * dict (nd Qc))) : icaller (T:=Qc) U :=
  fun u s dt => implicit_composite_call [inr (tendency_call g c ac)] dt u s.

(** Ten minutes of the mixer: its vapour is declared in kg and held in g, its ash the other way round. *)
Lemma ex_tracers_stepped : t_tunit c_m = "s^-1" /\ proper_state st_tr /\ new_ab (T:=Qc) (OInt 3) = Ok (mkab 3 None []) /\ is_order (OInt 3) 3 /\
  exists u1 tout dout ab1 diag new, tendency_call (fst made_m) c_m ac_m 0 st_tr = (u1, Ok (tout, dout)) /\ proper tout /\
    adams_bashforth cfg_0 (fun u s dt => implicit_composite_call [inr (tendency_call (fst made_m) c_m ac_m)] dt u s) (mkab 3 None [], 0) st_tr 600000000%Z =
      ((ab1, u1), Ok (diag, new)).
Proof.
  split; [vm_compute; reflexivity|]. split; [apply proper_stateb_ok; vm_compute; reflexivity|]. split; [reflexivity|]. split; [reflexivity|].
  assert (E : match tendency_call (fst made_m) c_m ac_m 0 st_tr,
                    adams_bashforth cfg_0 (fun u s dt => implicit_composite_call [inr (tendency_call (fst made_m) c_m ac_m)] dt u s) (mkab 3 None [], 0) st_tr 600000000%Z with
              | (u1, Ok (t, d)), ((a, u2), Ok (dg, nw)) => properb t && Nat.eqb u1 u2
              | _, _ => false end = true) by (vm_compute; reflexivity).
  destruct (tendency_call (fst made_m) c_m ac_m 0 st_tr) as [u1 [[t d]|]]; [|discriminate E].
  destruct (adams_bashforth _ _ _ _ _) as [[a u2] [[dg nw]|]]; [|discriminate E]. apply andb_true_iff in E as (E1 & E2). apply Nat.eqb_eq in E2 as <-.
  exists u1, t, d, a, dg, nw. split; auto. split; auto. apply properb_ok; auto.
Qed.

Lemma ex_tracers_stepped_case :
  match snd (adams_bashforth cfg_0 (wrapped (fst made_m) c_m ac_m) (mkab 3 None [], 0) st_tr 1000000%Z) with
  | Ok (_, new) => match dget "ash" new with
                   | Some (VDA q) => da_is (Some q) ["z"; "y"; "x"] [2; 2; 3] "kg" (map cz [0; 0; 0; 0; 0; 0; 3; 3; 3; 3; 3; 3]%Z)
                   | _ => false
                   end
  | Err _ => false
  end = true.
Proof. vm_compute. reflexivity. Qed.

(** An array_call that leaves the tracers out. *)
Definition ac_none (n : nat) (raw : dict (rval Qc)) : nat * res (dict (nd Qc) * dict (nd Qc)) :=
  (S n, Ok ([("temperature", get_arr "temperature" raw)], [])).

Lemma ex_tracers_required : t_packer c_m = Some p_tr /\ (forall u raw u' rt rd, ac_none u raw = (u', Ok (rt, rd)) -> ~ In "tracers" (keys rt)) /\
  tendency_call (fst made_m) c_m ac_none 0 st_tr = (1, Err EKey).
Proof.
  split; [apply c_m_made|]. split; [|vm_compute; reflexivity]. intros u raw u' rt rd H. injection H as _ <- _. intros [K|[]]. discriminate K.
Qed.

(** Two tracers instead of three; and four. *)
Definition ac_count (k : nat) (n : nat) (raw : dict (rval Qc)) : nat * res (dict (nd Qc) * dict (nd Qc)) :=
  (S n, Ok ([("tracers", cramp [6; k; 2]); ("temperature", get_arr "temperature" raw)], [])).

Lemma ex_no_tracer_missing : nth_error (shape (cramp [6; 2; 2])) (tracer_index p_tr) = Some 2 /\ 2 < length (tracer_order g_tr p_tr) /\
  tendency_call (fst made_m) c_m (ac_count 2) 0 st_tr = (1, Err EIndex).
Proof. split; [reflexivity|]. split; [vm_compute; lia|vm_compute; reflexivity]. Qed.

(** Returned arrays of another shape than that given are accepted. *)

Lemma ex_extra_tracers : exists g c p (st : state Qc) arr a (ac : nat -> dict (rval Qc) -> nat * res (dict (nd Qc) * dict (nd Qc))) r, consistent g /\ t_packer c = Some p /\ wf_state st /\
  pack g p st = Ok arr /\ (forall u raw, exists rt, ac u raw = (S u, Ok (rt, [])) /\ dget "tracers" rt = Some a) /\
  shape arr = [6; 3; 2] /\ shape a = [6; 4; 2] /\ tendency_call g c ac 0 st = (1, Ok r).
Proof.
  assert (E : match pack (fst made_m) p_tr st_tr, tendency_call (fst made_m) c_m (ac_count 4) 0 st_tr with
              | Ok a, (1, Ok _) => nats_eq (shape a) [6; 3; 2] | _, _ => false end = true) by (vm_compute; reflexivity).
  destruct (pack (fst made_m) p_tr st_tr) as [arr|] eqn:Ep; [|discriminate E].
  destruct (tendency_call (fst made_m) c_m (ac_count 4) 0 st_tr) as [u [r|]] eqn:Et; [|destruct u as [|[|u]]; discriminate E].
  destruct u as [|[|u]]; try discriminate E.
  exists (fst made_m), c_m, p_tr, st_tr, arr, (cramp [6; 4; 2]), (ac_count 4), r. split; [exact ex_consistent|]. split; [apply c_m_made|]. split; [apply wf_stateb_ok; reflexivity|].
  split; auto. split. { intros n raw. eexists. split; reflexivity. } split. { unfold nats_eq in E. destruct (list_eq_dec _ _ _); auto. discriminate E. } split; auto.
Qed.

(** The time unit of the documentation. *)
Definition made_d := make_tendency_component false g_tr inp_m tend_m [] "mixer" true (Some (Some ["*"; "tracer"; "z"], [("vapour", "kg")])) "s".
Definition c_d : tcomp := match snd made_d with Ok c => c | Err _ => mktcomp false [] [] [] "" false [] None "" end.

Lemma ex_documented_unit : exists (g g' : treg) inp tend tro c (ac : nat -> dict (rval Qc) -> nat * res (dict (nd Qc) * dict (nd Qc))) (st : state Qc) t d q,
  make_tendency_component false g inp tend [] "mixer" true tro "s" = (g', Ok c) /\ tendency_call g' c ac 0 st = (1, Ok (t, d)) /\
  dget "ash" (tr_units g') = Some "g" /\ dget "ash" t = Some q /\ units_of q = Some "g s" /\
  exists s e, adams_bashforth cfg_0 (wrapped g' c ac) (mkab 1 None [], 0) st 1000000%Z = (s, Err e).
Proof.
  exists g_tr, (fst made_d), inp_m, tend_m, (Some (Some ["*"; "tracer"; "z"], [("vapour", "kg")])), c_d, ac_m, st_tr.
  assert (E : match tendency_call (fst made_d) c_d ac_m 0 st_tr with
              | (1, Ok (t, d)) => match dget "ash" t with Some q => match units_of q with Some u => String.eqb u "g s" | None => false end | None => false end
              | _ => false end = true) by (vm_compute; reflexivity).
  destruct (tendency_call (fst made_d) c_d ac_m 0 st_tr) as [u [[t d]|]] eqn:Et; [|destruct u as [|[|u]]; discriminate E].
  destruct u as [|[|u]]; try discriminate E.
  destruct (dget "ash" t) as [q|] eqn:Eq; [|discriminate E]. destruct (units_of q) as [un|] eqn:Eu; [|discriminate E]. apply String.eqb_eq in E as ->.
  exists t, d, q. split; [vm_compute; reflexivity|]. split; auto. split; [vm_compute; reflexivity|]. split; auto. split; auto.
  assert (K : is_ok (snd (adams_bashforth cfg_0 (wrapped (fst made_d) c_d ac_m) (mkab 1 None [], 0) st_tr 1000000%Z)) = false) by (vm_compute; reflexivity).
  destruct (adams_bashforth cfg_0 (wrapped (fst made_d) c_d ac_m) (mkab 1 None [], 0) st_tr 1000000%Z) as [s [r|e]]; [discriminate K|]. eauto.
Qed.
