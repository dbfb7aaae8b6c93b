(** Concrete cases for rescaled runs with several processes (C103). *)
From Coq Require Import String List Bool Arith ZArith QArith Qcanon.
From Verif Require Import Prelude PreludeFacts ArithM NdArray Units DataArrayM ExampleRegistry SpecArrays Tracers Components Composite Steppers MainLoop LeapLoop SpecFrame FrameFacts FrameCalls FrameMain SpecScale ScaleMain ScaleRuns ScaleEnds SpecScaleSteps ScaleSteps Ex_Scale Ex_ScaleEnds.
From Verif Require Ex_Region.
Import ListNotations.
Open Scope string_scope.
Open Scope nat_scope.
Open Scope list_scope.

#[local] Existing Instance ex_registry | 5.

(** A stepper that halves the wind and sets the depth to the square of the wind. *)
Definition sout_f : pdict := [("wind", mkprops (Some ["*"]) false (Some "m s^-1") (Some "v") false); ("depth", mkprops (Some ["*"]) false (Some "m") None false)].
Definition w_f : scomp := mkscomp true inp_f [] sout_f "mix" false [] None 1000000%Z.
Definition wac_f (u : nat) (raw : dict (rval Qc)) (dt : Z) : nat * res (dict (nd Qc) * dict (nd Qc)) :=
  (S u, let* v := get_raw_array "v" raw in let* d := get_raw_array "depth" raw in
        Ok ([], [("v", nd_map (fun x => Q2Qc (1 # 2) * x)%Qc v); ("depth", nd_map (fun x => x * x)%Qc v)])).
Definition mix_f : process (T:=Qc) nat := stepper_process empty_treg w_f wac_f.

Lemma homogeneous_w : homogeneous fac fac fac wac_f.
Proof.
  intros u raw dt. unfold wac_f. cbn [fst snd]. apply (f_equal (pair (S u))). rewrite !raw_get, bind_map, map_bind. apply bind_ext. intros v _. rewrite bind_map, map_bind. apply bind_ext. intros d _.
  cbn [result_map fst snd by_name map]. unfold nd_map, times; cbn [shape data]. rewrite !map_map.
  change (fac "v") with (Q2Qc 2). change (fac "depth") with (Q2Qc 4).
  assert (E : Q2Qc 4 = (Q2Qc 2 * Q2Qc 2)%Qc) by (vm_compute; reflexivity).
  rewrite (map_ext (fun x => Q2Qc (1 # 2) * (Q2Qc 2 * x))%Qc (fun x => Q2Qc 2 * (Q2Qc (1 # 2) * x))%Qc) by (intro; ring).
  rewrite (map_ext (fun x => Q2Qc 2 * x * (Q2Qc 2 * x))%Qc (fun x => Q2Qc 4 * (x * x))%Qc) by (intro; rewrite E; ring). reflexivity.
Qed.

Lemma scales_mix : s_packer w_f = None /\ homogeneous fac fac fac wac_f /\ input_factors fac fac (s_inp w_f) /\ output_factors fac fac (s_diag w_f) (s_inp w_f) /\ output_factors fac fac (s_out w_f) (s_inp w_f) /\
  change_factors fac fac fac w_f /\ linear_props fac (s_out w_f) /\ scales_step fac eq mix_f mix_f.
Proof.
  assert (H1 : input_factors fac fac (s_inp w_f)) by (split; [reflexivity | intros name p [E | [E | []]]; injection E as <- <-; reflexivity]).
  assert (H2 : output_factors fac fac (s_diag w_f) (s_inp w_f)) by (intros name []).
  assert (H3 : output_factors fac fac (s_out w_f) (s_inp w_f)) by (intros name [<- | [<- | []]]; reflexivity).
  assert (H4 : change_factors fac fac fac w_f) by (intros X; discriminate X).
  assert (H5 : linear_props fac (s_out w_f)) by (intros name p _; apply ex_linear).
  split; [reflexivity | ]. split; [exact homogeneous_w | ]. repeat (split; [assumption | ]).
  exact (scale_stepper_process fac empty_treg fac fac fac w_f wac_f eq_refl homogeneous_w H1 H2 H3 H4 H5).
Qed.

Lemma blind_mix : blind_step (T:=Qc) (T':=Qc) eq mix_f mix_f.
Proof.
  apply frame_stepper_process. intros dt u v raw raw' <- H; unfold wac_f; cbn [fst snd]. split; [reflexivity | ].
  eapply so_bind; [exact (raw_alike "v" raw raw' H) | intros a b Hab].
  eapply so_bind; [exact (raw_alike "depth" raw raw' H) | intros c d Hcd].
  split; cbn [fst snd]; [constructor | ]. do 2 (constructor; [split; [reflexivity | exact Hab] | ]). constructor.
Qed.

Lemma mon_scales : scales_store fac eq Ex_Region.mon_r Ex_Region.mon_r.
Proof. intros u v st w w' <- X Y. unfold Ex_Region.mon_r in X, Y. congruence. Qed.

Lemma st_setting : scales fac prog_f /\ blind eq prog_f prog_f /\ scales_step fac eq mix_f mix_f /\ blind_step (T:=Qc) (T':=Qc) eq mix_f mix_f /\
  scales_store fac eq Ex_Region.mon_r Ex_Region.mon_r /\ blind_store (T:=Qc) (T':=Qc) eq Ex_Region.mon_r Ex_Region.mon_r /\ rates_fit fac cfg_f /\ linear_state fac st_f.
Proof.
  destruct se_setting as (_ & _ & _ & Hf & Hl).
  split; [exact (proj1 scales_f) | ]. split; [exact blind_f | ]. split; [apply scales_mix | ]. split; [exact blind_mix | ]. split; [exact mon_scales | ]. split; [exact mon_blind | ]. split; [exact Hf | exact Hl].
Qed.

(** AdamsBashforth and then the stepper: the run from the rescaled state returns after three steps, without being run. *)
Lemma st_run : exists w log e w' log', length log = 3 /\
  main_loop 4 [beside (adams_bashforth cfg_f prog_f); aside mix_f] (fun w st => let (m1, r) := Ex_Region.mon_r (fst w) st in ((m1, snd w), r)) (3 * Ex_Region.sec_r) Ex_Region.sec_r (0, (mkab 3 None [], 0)) st_f = ((w, log), Some (Ok e)) /\
  main_loop 4 [beside (adams_bashforth cfg_f prog_f); aside mix_f] (fun w st => let (m1, r) := Ex_Region.mon_r (fst w) st in ((m1, snd w), r)) (3 * Ex_Region.sec_r) Ex_Region.sec_r (0, (mkab 3 None [], 0)) (by_name times_value fac st_f)
    = ((w', log'), Some (Ok (by_name times_value fac e))).
Proof.
  destruct st_setting as (H1 & H2 & H3 & H4 & H5 & H6 & H7 & H8).
  pose proof (scale_adams_bashforth_then_ends fac prog_f H1 eq [mix_f] [mix_f] (Forall2_cons _ _ H3 (Forall2_nil _)) Ex_Region.mon_r Ex_Region.mon_r cfg_f (OInt 3) (mkab 3 None []) 0
    H2 (Forall2_cons _ _ H4 (Forall2_nil _)) H6 H5 H7 eq_refl 4 (3 * Ex_Region.sec_r)%Z Ex_Region.sec_r 0 0 st_f eq_refl H8) as K. cbn [map] in K.
  destruct (Ex_Region.done_ok (main_loop 4 [beside (adams_bashforth cfg_f prog_f); aside mix_f] (fun w st => let (m1, r) := Ex_Region.mon_r (fst w) st in ((m1, snd w), r)) (3 * Ex_Region.sec_r) Ex_Region.sec_r (0, (mkab 3 None [], 0)) st_f)) as (w & log & e & E & L); [vm_compute; reflexivity | ].
  rewrite E in K. unfold scaled_end in K. cbn [fst snd] in K.
  destruct (main_loop 4 [beside (adams_bashforth cfg_f prog_f); aside mix_f] _ (3 * Ex_Region.sec_r) Ex_Region.sec_r (0, (mkab 3 None [], 0)) (by_name times_value fac st_f)) as [[w' log'] [[e' | x'] | ]]; cbn [fst snd] in K; try contradiction.
  exists w, log, e, w', log'. split; [exact L | ]. split; [exact E | ]. destruct K as [_ ->]. reflexivity.
Qed.
