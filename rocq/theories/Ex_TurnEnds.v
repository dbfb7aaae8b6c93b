(** Concrete cases for the ends of turned runs (C101). *)
From Coq Require Import String List Bool Arith ZArith QArith Qcanon.
From Verif Require Import Prelude ArithM NdArray Units DataArrayM ExampleRegistry Tracers Components Composite Steppers MainLoop LeapLoop Ex_Region SpecTurn Ex_Turn SpecFrame FrameFacts SpecTurnEnds TurnEnds.
Import ListNotations.
Open Scope string_scope.
Open Scope nat_scope.
Open Scope list_scope.

#[local] Existing Instance ex_registry | 5.

Lemma blind_d : blind eq prog_d prog_d.
Proof.
  intros u v st st' dt <- H; unfold prog_d; cbn [fst snd]. split; [reflexivity | ].
  eapply so_bind; [exact (as_da "u" st st' H) | intros a b Hab].
  split; (constructor; [split; [reflexivity | apply al_map; exact Hab] | constructor]).
Qed.
Lemma blind_t : blind eq prog_t prog_t.
Proof.
  intros u v st st' dt <- H; unfold prog_t; cbn [fst snd]. split; [reflexivity | ].
  eapply so_bind; [exact (as_da "u" st st' H) | intros a b Hab].
  split; cbn [fst snd]; repeat (constructor; [split; [reflexivity | apply al_map; exact Hab] | ]); constructor.
Qed.
Lemma alike_2 : alike_state st_n st_2.
Proof. constructor; [split; reflexivity | ]. do 2 (constructor; [split; [reflexivity | repeat split] | ]). constructor. Qed.

(** The doubled state: the run from it ends as the run from the other does. *)
Lemma te_setting : turning g_d eq prog_d prog_d /\ blind eq prog_d prog_d /\ factors_fit g_d cfg_t /\ turned_state g_d st_n st_2 /\ alike_state st_n st_2 /\
  turning g_t eq prog_t prog_t /\ blind eq prog_t prog_t.
Proof. repeat (split; [first [exact turning_d | exact blind_d | exact (proj2 fit_t) | exact turned_2 | exact alike_2 | exact turning_t] | ]). exact blind_t. Qed.

(** It returns after three steps, without being run. *)
Definition loud (w : nat) (st : state Qc) : nat * res unit := (S w, Ok tt).
Lemma te_case : exists w' log' e', length log' = 3 /\
  main_loop 4 [beside (adams_bashforth cfg_t prog_d)] (fun w st => let (m1, r) := loud (fst w) st in ((m1, snd w), r)) (3 * sec_r) sec_r (0, (mkab 3 None [], 0)) st_2 = ((w', log'), Some (Ok e')).
Proof.
  assert (B : blind_store (T:=Qc) (T':=Qc) (fun _ _ => True) loud loud) by (intros u v st st' _ _; split; [exact I | reflexivity]).
  pose proof (turn_ends_adams_bashforth g_d eq prog_d prog_d turning_d blind_d (fun _ _ : nat => True) loud loud B cfg_t (OInt 3) (mkab 3 None []) 0 0 (proj2 fit_t) eq_refl eq_refl 4 (3 * sec_r)%Z sec_r 0 0 st_n st_2 I turned_2 alike_2) as K.
  assert (E : match main_loop 4 [beside (adams_bashforth cfg_t prog_d)] (fun w st => let (m1, r) := loud (fst w) st in ((m1, snd w), r)) (3 * sec_r) sec_r (0, (mkab 3 None [], 0)) st_n with
              | ((_, log), Some (Ok _)) => Nat.eqb (length log) 3 | _ => false end = true) by (vm_compute; reflexivity).
  unfold turned_end in K.
  destruct (main_loop 4 [beside (adams_bashforth cfg_t prog_d)] _ (3 * sec_r) sec_r (0, (mkab 3 None [], 0)) st_n) as [[w log] [[e | x] | ]]; try discriminate E.
  destruct (main_loop 4 [beside (adams_bashforth cfg_t prog_d)] _ (3 * sec_r) sec_r (0, (mkab 3 None [], 0)) st_2) as [[w' log'] [[e' | x'] | ]]; cbn [fst snd] in K; try contradiction.
  exists w', log', e'. split; [ | reflexivity]. apply Nat.eqb_eq in E. rewrite <- E. destruct K as [K _]. clear -K. induction K; cbn; congruence.
Qed.
