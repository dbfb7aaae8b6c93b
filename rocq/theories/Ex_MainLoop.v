(** Concrete cases for the property theorems about the main loop (C75, C76). *)
From Coq Require Import String List Bool Arith ZArith QArith Qcanon Lia.
From Verif Require Import Prelude PreludeFacts ArithM NdArray Units DataArrayM ExampleRegistry Checks Tracers Components SpecCalls Composite
  Steppers Basic MainLoop SpecMainLoop MainLoopFacts MainLoopMain Ex_Components Ex_Steppers.
Import ListNotations.
Open Scope string_scope.
Open Scope nat_scope.
Open Scope list_scope.

#[local] Existing Instance ex_registry | 5.

(** The script of the quickstart: two components in an AdamsBashforth of order 2, and a
    Stepper that returns T and q. *)
Definition cs_q : list (icaller (T:=Qc) nat + caller (T:=Qc) nat) := [inr (tendency_call empty_treg (c_t false) ac_t)].
Definition ab2 : ab Qc := mkab 2 None [].
Definition physics_q : process (T:=Qc) (ab Qc * nat) := adams_bashforth cfg_0 (fun u s dt => implicit_composite_call cs_q dt u s).
Definition dynamics_q : process (T:=Qc) (ab Qc * nat) := beside (stepper_process empty_treg (c_s 1000000) ac_s).
Definition store_q (w : ab Qc * nat) (st : state Qc) : (ab Qc * nat) * res unit := (w, Ok tt).

(** A Stepper that returns all there is. *)
Definition st_f : state Qc := ddel "unused" (ddel "q" st_s).
Definition out_f : pdict := [ ("T", mkprops None false (Some "K") None false); ("wind", mkprops None false (Some "km s^-1") None false) ].
Definition ac_f (u : nat) (raw : dict (rval Qc)) (dt : Z) : nat * res (dict (nd Qc) * dict (nd Qc)) :=
  (S u, Ok ([("speed", arr_of "wind" raw)], [("T", nd_map (Qcplus 1%Qc) (arr_of "T" raw)); ("wind", arr_of "wind" raw)])).
Definition c_f : scomp :=
  match snd (make_stepper empty_treg inp_s diag_c out_f "stepper" false None 1000000%Z) with
  | Ok c => c
  | Err _ => mkscomp false [] [] [] "" false [] None 0%Z
  end.
Definition dynamics_f : process (T:=Qc) (ab Qc * nat) := beside (stepper_process empty_treg c_f ac_f).

Definition outcome {W} (x : (W * list (state Qc)) * option (res (state Qc))) : nat * option bool :=
  (length (snd (fst x)), option_map is_ok (snd x)).


Lemma ex_fails : outcome (main_loop 9 [physics_q; dynamics_q] store_q 30000000 10000000 (ab2, 0) st_s) = (1, Some false).
Proof. vm_compute. reflexivity. Qed.

Lemma ex_runs : outcome (main_loop 9 [physics_q; dynamics_f] store_q 30000000 10000000 (ab2, 0) st_f) = (3, Some true).
Proof. vm_compute. reflexivity. Qed.

(** The state has "unused" and "wind"; the new state does not. *)
Lemma ex_new_state : exists u' d n, stepper_call empty_treg (c_s 1000000) ac_s 0 st_s 10000000%Z = (u', Ok (d, n)) /\
  In "wind" (keys st_s) /\ ~ In "wind" (keys n) /\ ~ In "time" (keys n) /\ In "T" (keys n).
Proof.
  destruct (stepper_call empty_treg (c_s 1000000) ac_s 0 st_s 10000000%Z) as [u' r] eqn:E.
  assert (K : match r with Ok (d, n) => mem "wind" (keys st_s) && negb (mem "wind" (keys n)) && negb (mem "time" (keys n)) && mem "T" (keys n) | Err _ => false end = true).
  { replace r with (snd (stepper_call empty_treg (c_s 1000000) ac_s 0 st_s 10000000%Z)) by (rewrite E; reflexivity). vm_compute. reflexivity. }
  destruct r as [[d n]|e]; [|discriminate K]. apply andb_true_iff in K as [K K4]. apply andb_true_iff in K as [K K3].
  apply andb_true_iff in K as [K1 K2]. apply negb_true_iff in K2. apply negb_true_iff in K3.
  exists u', d, n. rewrite <- !mem_In, K1, K2, K3, K4. repeat split; congruence.
Qed.

(** A Stepper cannot be called with the new state of a Stepper. *)
Lemma ex_cannot_continue : exists (c : scomp) (ac : nat -> dict (rval Qc) -> Z -> nat * res (dict (nd Qc) * dict (nd Qc))) st dt u' d n,
  stepper_call empty_treg c ac 0 st dt = (u', Ok (d, n)) /\ (exists X, In X (keys st) /\ ~ In X (keys n)) /\
  exists e, stepper_call empty_treg c ac u' (as_state n) dt = (u', Err e).
Proof.
  destruct ex_new_state as (u' & d & n & E & H1 & H2 & H3 & _).
  exists (c_s 1000000), ac_s, st_s, 10000000%Z, u', d, n. split; [exact E|split; [eauto|]].
  eapply (proj1 (main_time_lost _ _ _ _ _ _ _ _ _ E _ _)).
  Unshelve.
  all: intros K; vm_compute in K; intuition discriminate.
Qed.

Lemma ex_leaves : leaves_time physics_q /\ leaves_time dynamics_q /\ leaves_time dynamics_f.
Proof.
  destruct (main_leaves_time (T:=Qc) (S:=ab Qc) cfg_0 cs_q) as [H1 H2].
  - intros c [<-|[]]. exists empty_treg, (c_t false), ac_t. split; auto. intros K; vm_compute in K; intuition discriminate.
  - split; [exact H1|split; apply H2; intros K; vm_compute in K; intuition discriminate].
Qed.

(** The loop of the quickstart meets the hypotheses of [main_quickstart_stops]. *)
Lemma ex_quickstart : has_time 0 st_s /\ leaves_time physics_q /\ leaves_time dynamics_q /\
  In (inr (tendency_call empty_treg (c_t false) ac_t)) cs_q /\ In "wind" (keys (t_inp (c_t false))) /\
  ~ In "wind" (keys (s_out (c_s 1000000))) /\ ~ In "wind" (read_tracers empty_treg (s_packer (c_s 1000000))) /\
  outcome (main_loop 9 [physics_q; dynamics_q] store_q 30000000 10000000 (ab2, 0) st_s) = (1, Some false).
Proof.
  destruct ex_leaves as (H1 & H2 & _). split; [vm_compute; reflexivity|]. split; [exact H1|]. split; [exact H2|].
  split; [left; reflexivity|]. split; [vm_compute; auto|]. split; [intros K; vm_compute in K; intuition discriminate|].
  split; [intros K; vm_compute in K; intuition discriminate|]. exact ex_fails.
Qed.

(** A Stepper that returns everything: the loop runs to its end, at 00:00:30. *)
Lemma ex_complete : has_time 0 st_f /\ leaves_time physics_q /\ leaves_time dynamics_f /\ keeps_quantities physics_q /\ In "time" (keys st_f) /\
  (forall X, In X (keys st_f) -> X = "time" \/ In X (keys (s_out c_f)) \/ In X (read_tracers empty_treg (s_packer c_f))) /\
  outcome (main_loop 9 [physics_q; dynamics_f] store_q 30000000 10000000 (ab2, 0) st_f) = (3, Some true).
Proof.
  destruct ex_leaves as (H1 & _ & H2). split; [vm_compute; reflexivity|]. split; [exact H1|]. split; [exact H2|].
  split; [apply main_keeps_ab|]. split; [vm_compute; auto|]. split; [|exact ex_runs].
  intros X HX. vm_compute in HX. vm_compute. intuition auto.
Qed.

(** Only the order-2 AdamsBashforth: nothing is lost. *)
Lemma ex_kept : keeps_quantities physics_q /\ In "unused" (keys st_s) /\
  outcome (main_loop 9 [physics_q] store_q 30000000 10000000 (ab2, 0) st_s) = (3, Some true).
Proof. split; [apply main_keeps_ab|]. split; [vm_compute; auto|]. vm_compute. reflexivity. Qed.

Lemma ex_preserved : preserves 10000000 (fun s : state Qc => In "unused" (keys s)) physics_q /\ In "unused" (keys st_s) /\
  (forall (s : state Qc) t, In "unused" (keys s) -> In "unused" (keys (dset "time" (VTime t) s))).
Proof.
  split; [intros w st w' d new Hs E; apply (main_keeps_ab _ _ _ _ _ _ _ _ E); exact Hs|]. split; [vm_compute; auto|].
  intros s t Hs. apply In_keys_dset. auto.
Qed.

Lemma ex_endless : has_time 0 st_s /\ leaves_time physics_q /\
  outcome (main_loop 9 [physics_q] store_q 30000000 (-10000000) (ab2, 0) st_s) = (9, None).
Proof. split; [vm_compute; reflexivity|]. split; [exact (proj1 ex_leaves)|]. vm_compute. reflexivity. Qed.
