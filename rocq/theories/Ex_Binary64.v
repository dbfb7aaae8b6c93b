(** Concrete cases for C96 in double precision. *)
From Coq Require Import String List Bool Arith ZArith QArith Qcanon.
From Verif Require Import Prelude ArithM Ex_Round ExampleRegistry Ex_Components SpecRound RoundMain Binary64 Binary64Facts.
#[local] Existing Instance ex_registry | 5.

Lemma b64_case : round_case (A:=binary64) b64_num b64_fin b64_big b64_u b64_tiny.
Proof.
  apply (round_case_made (A:=binary64) _ _ _ _ _ (cz 16) (b64_ofQ (1 # 16)) binary64_rounds).
  1: vm_compute; reflexivity.
  1: vm_compute; reflexivity.
  1: vm_compute; reflexivity.
  all: try (vm_compute; split; discriminate).
  all: vm_compute; discriminate.
Qed.

Lemma b64_rk_case : round_rk_case (A:=binary64) b64_num b64_fin b64_big b64_u b64_tiny.
Proof.
  apply (round_rk_case_made (A:=binary64) _ _ _ _ _ (cz 6) (cz 2) (b64_ofQ (1 # 16)) binary64_rounds).
  1: vm_compute; reflexivity.
  1: vm_compute; reflexivity.
  1: vm_compute; reflexivity.
  all: try (vm_compute; split; discriminate).
  all: try (vm_compute; discriminate).
  split; [vm_compute; split; discriminate|]. split; vm_compute; discriminate.
Qed.
