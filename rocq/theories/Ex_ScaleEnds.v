(** Concrete cases for the ends of rescaled runs (C103). *)
From Coq Require Import String List Bool Arith ZArith QArith Qcanon.
From Verif Require Import Prelude ArithM NdArray Units DataArrayM ExampleRegistry Tracers Components Composite Steppers MainLoop LeapLoop SpecFrame FrameFacts FrameCalls FrameMain SpecScale ScaleMain ScaleRuns ScaleEnds Ex_Scale.
From Verif Require Ex_Region.
Import ListNotations.
Open Scope string_scope.
Open Scope nat_scope.
Open Scope list_scope.

#[local] Existing Instance ex_registry | 5.

Lemma raw_alike k (raw raw' : dict (rval Qc)) : alike_raw raw raw' -> same_outcome alike_array (get_raw_array k raw) (get_raw_array k raw').
Proof. intros H; unfold get_raw_array. eapply so_bind; [exact (sk_getE _ k raw raw' H) | ]. intros [a | s] [b | t]; cbn; auto; contradiction. Qed.

Lemma blind_f_arrays dt : blind_arrays alike_two eq (fun u raw => ac_f u raw dt) (fun u raw => ac_f u raw dt).
Proof.
  intros u v raw raw' <- H; unfold ac_f; cbn [fst snd]. split; [reflexivity | ].
  eapply so_bind; [exact (raw_alike "v" raw raw' H) | intros a b Hab].
  eapply so_bind; [exact (raw_alike "depth" raw raw' H) | intros c d Hcd].
  split; cbn [fst snd].
  - do 2 (constructor; [split; [reflexivity | exact Hab] | ]). constructor.
  - constructor; [split; [reflexivity | exact Hcd] | constructor].
Qed.

Lemma blind_f : blind eq prog_f prog_f.
Proof. intros u v st st' dt Huv H. exact (frame_tendency eq empty_treg c_f _ _ (blind_f_arrays dt) u v st st' Huv H). Qed.

Lemma blind_pair : blind eq pair_f pair_f.
Proof.
  apply frame_implicit_composite. constructor; [exact blind_f | constructor; [ | constructor]].
  intros u v st st' Huv H. exact (blind_f u v st st' 0%Z Huv H).
Qed.

(** A monitor that refuses the state when its counter says so. *)
Definition full_f (m : nat) (st : state Qc) : nat * res unit := (S m, if Nat.leb 2 m then Err EIO else Ok tt).
Lemma full_blind : blind_store (T:=Qc) (T':=Qc) eq full_f full_f.
Proof. intros u v st st' <- _. unfold full_f; cbn [fst snd]. split; [reflexivity | ]. destruct (Nat.leb 2 u); reflexivity. Qed.
Lemma mon_blind : blind_store (T:=Qc) (T':=Qc) eq Ex_Region.mon_r Ex_Region.mon_r.
Proof. intros u v st st' <- _. split; reflexivity. Qed.

Lemma se_setting : scales fac pair_f /\ blind eq pair_f pair_f /\ blind_store (T:=Qc) (T':=Qc) eq full_f full_f /\ rates_fit fac cfg_f /\ linear_state fac st_f.
Proof.
  destruct sc_setting as (_ & _ & _ & _ & _ & _ & _ & _ & Hl & Hf).
  split; [exact (proj2 scales_f) | ]. split; [exact blind_pair | ]. split; [exact full_blind | ]. split; [exact Hf | exact Hl].
Qed.

(** The run from the rescaled state returns after three steps, without being run. *)
Lemma se_returns : exists w' log' e', length log' = 3 /\
  main_loop 4 [beside (adams_bashforth cfg_f prog_f)] (fun w st => let (m1, r) := Ex_Region.mon_r (fst w) st in ((m1, snd w), r)) (3 * Ex_Region.sec_r) Ex_Region.sec_r (0, (mkab 3 None [], 0)) (by_name times_value fac st_f) = ((w', log'), Some (Ok e')).
Proof.
  destruct se_setting as (_ & _ & _ & Hf & Hl).
  pose proof (scale_ends_adams_bashforth fac prog_f (proj1 scales_f) blind_f eq Ex_Region.mon_r Ex_Region.mon_r mon_blind cfg_f (OInt 3) (mkab 3 None []) 0 Hf eq_refl 4 (3 * Ex_Region.sec_r)%Z Ex_Region.sec_r 0 0 st_f eq_refl Hl) as K.
  destruct (Ex_Region.done_ok (main_loop 4 [beside (adams_bashforth cfg_f prog_f)] (fun w st => let (m1, r) := Ex_Region.mon_r (fst w) st in ((m1, snd w), r)) (3 * Ex_Region.sec_r) Ex_Region.sec_r (0, (mkab 3 None [], 0)) st_f)) as (w & log & e & E & L); [vm_compute; reflexivity | ].
  rewrite E in K. unfold scaled_end in K. cbn [fst snd] in K.
  destruct (main_loop 4 [beside (adams_bashforth cfg_f prog_f)] _ (3 * Ex_Region.sec_r) Ex_Region.sec_r (0, (mkab 3 None [], 0)) (by_name times_value fac st_f)) as [[w' log'] [[e' | x'] | ]]; cbn [fst snd] in K; try contradiction.
  exists w', log', e'. split; [ | reflexivity]. destruct K as [K _]. rewrite K, map_length. exact L.
Qed.

(** With the monitor that refuses the third state both raise its error. *)
Lemma se_raises : exists w' log',
  main_loop 4 [beside (ssp_rk cfg_f pair_f)] (fun w st => let (m1, r) := full_f (fst w) st in ((m1, snd w), r)) (3 * Ex_Region.sec_r) Ex_Region.sec_r (0, (mkrk 2 (mkab 1 None []), 0)) (by_name times_value fac st_f) = ((w', log'), Some (Err EIO)).
Proof.
  destruct se_setting as (Hs & Hb & Hm & Hf & Hl).
  pose proof (scale_ends_runge_kutta fac pair_f Hs Hb eq full_f full_f Hm cfg_f 2 (mkrk 2 (mkab 1 None [])) 0 Hf eq_refl 4 (3 * Ex_Region.sec_r)%Z Ex_Region.sec_r 0 0 st_f eq_refl Hl) as K.
  assert (E : match snd (main_loop 4 [beside (ssp_rk cfg_f pair_f)] (fun w st => let (m1, r) := full_f (fst w) st in ((m1, snd w), r)) (3 * Ex_Region.sec_r) Ex_Region.sec_r (0, (mkrk 2 (mkab 1 None []), 0)) st_f) with
              | Some (Err EIO) => true | _ => false end = true) by (vm_compute; reflexivity).
  unfold scaled_end in K.
  destruct (main_loop 4 [beside (ssp_rk cfg_f pair_f)] _ (3 * Ex_Region.sec_r) Ex_Region.sec_r (0, (mkrk 2 (mkab 1 None []), 0)) st_f) as [[w log] [[e | x] | ]]; try discriminate E.
  destruct (main_loop 4 [beside (ssp_rk cfg_f pair_f)] _ (3 * Ex_Region.sec_r) Ex_Region.sec_r (0, (mkrk 2 (mkab 1 None []), 0)) (by_name times_value fac st_f)) as [[w' log'] [[e' | x'] | ]]; cbn [fst snd] in K; try contradiction.
  exists w', log'. rewrite <- K. cbn [snd] in E. destruct x; try discriminate E. reflexivity.
Qed.
