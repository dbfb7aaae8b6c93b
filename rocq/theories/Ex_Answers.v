(** Concrete cases for what calls do with the outputs of array_call (C09). *)
From Coq Require Import String List Bool Arith ZArith QArith Qcanon.
From Verif Require Import Prelude PreludeFacts ArithM NdArray Units ExampleRegistry DataArrayM Checks Tracers SpecComponents Components Ex_Components Ex_Tracers SpecAnswers AnswersMain.
Import ListNotations.
Open Scope string_scope.
Open Scope nat_scope.
Open Scope list_scope.

#[local] Existing Instance ex_registry | 5.

Definition told {X} (p : list (dict (rval Qc)) * res X) : nat * option exn := (length (fst p), match snd p with Ok _ => None | Err e => Some e end).
(** The right outputs; one too few; one too many; too few and too many at once. *)
Definition say (t d : list string) (raw : dict (rval Qc)) : res (dict (nd Qc) * dict (nd Qc)) := Ok (map (fun k => (k, arr_of "t" raw)) t, map (fun k => (k, arr_of "wind" raw)) d).

Lemma answers_case :
  t_packer (c_t true) = None /\ NoDup (keys (t_tend (c_t true))) /\ NoDup (keys (t_diag (c_t true))) /\
  told (tendency_call empty_treg (c_t true) (fun s raw => (s ++ [raw], say ["t"] ["speed"] raw)) [] st_c) = (1, None) /\
  told (tendency_call empty_treg (c_t true) (fun s raw => (s ++ [raw], say [] ["speed"] raw)) [] st_c) = (1, Some EMissingOutput) /\
  told (tendency_call empty_treg (c_t true) (fun s raw => (s ++ [raw], say ["t"; "q"] ["speed"] raw)) [] st_c) = (1, Some EExtraOutput) /\
  told (tendency_call empty_treg (c_t true) (fun s raw => (s ++ [raw], say ["q"] ["speed"] raw)) [] st_c) = (1, Some EMissingOutput) /\
  told (tendency_call empty_treg (c_t true) (fun s raw => (s ++ [raw], say ["t"] ["speed"; "q"] raw)) [] st_c) = (1, Some EExtraOutput) /\
  told (tendency_call empty_treg (c_t true) (fun s raw => (s ++ [raw], say ["t"] ["speed"] raw)) [] []) = (0, Some EInvalidState).
Proof. split; [reflexivity|]. split; [apply nodupb_ok; reflexivity|]. split; [apply nodupb_ok; reflexivity|]. repeat (split; [vm_compute; reflexivity|]). vm_compute. reflexivity. Qed.

Lemma answers_tracers_case : t_packer c_m = Some p_tr /\ NoDup (keys (t_tend c_m)) /\ NoDup (keys (t_diag c_m)) /\
  (exists u' r, tendency_call (fst made_m) c_m ac_m 0 st_tr = (u', Ok r)) /\
  s_packer c_k = Some p_tr /\ NoDup (keys (s_diag c_k)) /\ NoDup (keys (s_out c_k)) /\ exists u' r, stepper_call (fst made_k) c_k ac_k 0 st_tr 10%Z = (u', Ok r).
Proof.
  split; [apply c_m_made|]. split; [apply nodupb_ok; reflexivity|]. split; [apply nodupb_ok; reflexivity|].
  split. { destruct ex_tendency_tracers as (_ & _ & _ & _ & _ & _ & _ & _ & _ & u' & t & d & E). eauto. }
  split; [vm_compute; reflexivity|]. split; [apply nodupb_ok; reflexivity|]. split; [apply nodupb_ok; reflexivity|].
  destruct ex_stepper_tracers as (_ & _ & _ & _ & _ & _ & _ & _ & _ & u' & t & d & E). eauto.
Qed.
