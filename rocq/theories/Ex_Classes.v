(** Concrete cases for the property theorems about the dictionaries classes share (C17). *)
From Coq Require Import String List Bool Arith ZArith QArith Qcanon.
From Verif Require Import Prelude PreludeFacts ArithM NdArray Units DataArrayM ExampleRegistry Checks GetNp Restore Tracers Components ClassState ClassFacts ClassGrow Ex_Components.
Import ListNotations.
Open Scope string_scope.
Open Scope nat_scope.
Open Scope list_scope.

#[local] Existing Instance ex_registry | 5.

(** A Stepper class that returns the wind in other units than it takes it. *)
Definition out_m : pdict := [ ("q", qprops ["z"] "kg"); ("wind", qprops ["*"] "km s^-1") ].
Definition world_m : world :=
  mkworld [("Heater", mktclass false inp_c tend_c diag_c None "s^-1")]
          [("Step", mksclass inp_s diag_c out_s None 1000000%Z); ("Mover", mksclass inp_s diag_c out_m None 1000000%Z)] empty_treg.
Definition ac_m (u : nat) (raw : dict (rval Qc)) (dt : Z) : nat * res (dict (nd Qc) * dict (nd Qc)) :=
  (S u, Ok ([("speed", arr_of "wind" raw)], [("q", cramp [2]); ("wind", arr_of "wind" raw)])).
Definition some_creations : list creation :=
  [NewTendency "Heater" "a" true; NewStepper "Mover" "b" true; NewStepper "Step" "s" true; NewStepper "Absent" "s" true; NewTendency "Heater" "b" false].

(** Two of the constructions raise, one of them after it has changed its class. *)
Lemma ex_grows : exists k k' s s',
  dget "Heater" (w_t world_m) = Some k /\ dget "Heater" (w_t (create_all world_m some_creations)) = Some k' /\
  dget "Mover" (w_s world_m) = Some s /\ dget "Mover" (w_s (create_all world_m some_creations)) = Some s' /\
  keys (k_diag k) = ["speed"] /\ keys (k_diag k') = ["speed"; "T_tendency_from_a"] /\
  keys (m_diag s) = ["speed"] /\ keys (m_diag s') = ["speed"; "q_tendency_from_b"; "wind_tendency_from_b"] /\
  keys (m_inp s) = ["wind"; "T"] /\ keys (m_inp s') = ["wind"; "T"; "q"] /\
  snd (create world_m (NewStepper "Mover" "b" true)) = Err EInvalidProps.
Proof.
  pose (w := create_all world_m some_creations).
  assert (H1 : match dget "Heater" (w_t w) with Some k' => keys (k_diag k') = ["speed"; "T_tendency_from_a"] | None => False end) by (vm_compute; reflexivity).
  assert (H2 : match dget "Mover" (w_s w) with Some s' => keys (m_diag s') = ["speed"; "q_tendency_from_b"; "wind_tendency_from_b"] /\ keys (m_inp s') = ["wind"; "T"; "q"] | None => False end)
    by (vm_compute; split; reflexivity).
  fold w. destruct (dget "Heater" (w_t w)) as [k'|]; [|contradiction]. destruct (dget "Mover" (w_s w)) as [s'|]; [|contradiction]. destruct H2 as [H2 H3].
  do 4 eexists. split; [reflexivity|]. split; [reflexivity|]. split; [reflexivity|]. split; [reflexivity|].
  split; [reflexivity|]. split; [exact H1|]. split; [reflexivity|]. split; [exact H2|]. split; [reflexivity|]. split; [exact H3|]. vm_compute. reflexivity.
Qed.

Definition first_m : world * res inst := new_stepper world_m "Mover" "a" false.

(** A construction that raises breaks an instance that worked before. *)
Lemma ex_failed_breaks : exists (w0 w : world) cls i o (ac : nat -> dict (rval Qc) -> Z -> nat * res (dict (nd Qc) * dict (nd Qc))) (st : state Qc),
  new_stepper w0 cls "a" false = (w, Ok i) /\
  is_ok (snd (call_stepper w i ac 0 st 1000000)) = true /\
  snd (create w o) = Err EInvalidProps /\
  snd (call_stepper (create_all w [o]) i ac 0 st 1000000) = Err EInvalidState.
Proof.
  exists world_m, (fst first_m), "Mover", (inst_of (snd first_m)), (NewStepper "Mover" "b" true), ac_m, st_c.
  split; [|split; [|split]]; vm_compute; reflexivity.
Qed.

Definition first_s : world * res inst := new_stepper world_m "Step" "a" true.

Lemma ex_twin : (forall k, dget "Step" (w_s world_m) = Some k -> NoDup (keys (m_out k))) /\
  new_stepper world_m "Step" "a" true = (fst first_s, Ok (inst_of (snd first_s))) /\
  Forall (fun o => match o with NewTendency _ _ _ => True | NewStepper c n t => t = false \/ c <> "Step" \/ (true = true /\ n = "a") end)
    [NewStepper "Step" "a" true; NewStepper "Mover" "b" true; NewStepper "Step" "b" false; NewTendency "Heater" "a" true] /\
  is_ok (snd (call_stepper (fst first_s) (inst_of (snd first_s)) ac_s 0 st_s 1000000)) = true.
Proof.
  split. { intros k Hk. simpl in Hk. injection Hk as <-. apply nodupb_ok. reflexivity. }
  split; [vm_compute; reflexivity|]. split; [|vm_compute; reflexivity].
  apply Forall_cons; [right; right; auto|]. apply Forall_cons; [right; left; discriminate|]. apply Forall_cons; [left; reflexivity|]. apply Forall_cons; [exact I|]. constructor.
Qed.
