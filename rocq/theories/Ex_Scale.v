(** Concrete cases for the property theorems about rescaled states (C103). *)
From Coq Require Import String Ascii List Bool Arith ZArith QArith Qcanon.
From Verif Require Import Prelude PreludeFacts ArithM NdArray Units DataArrayM ExampleRegistry SpecArrays Tracers Components Composite Steppers MainLoop LeapLoop SpecScale ScaleMain ScaleRuns.
From Verif Require Ex_Region.
Import ListNotations.
Open Scope string_scope.
Open Scope nat_scope.
Open Scope list_scope.

#[local] Existing Instance ex_registry | 5.

(** Twice the wind and four times the depth, by the first letters of the names. *)
Definition fac (name : string) : Qc :=
  match name with
  | String c _ => if Ascii.eqb c "w" || Ascii.eqb c "v" then Q2Qc 2 else if Ascii.eqb c "d" then Q2Qc 4 else 1%Qc
  | EmptyString => 1%Qc
  end.

Definition row (l : list Qc) (u : string) : da Qc := mkda ["x"] (mknd [length l] l) [("units", u)].
Definition st_f : state Qc := [("time", VTime 0%Z); ("wind", VDA (row [Q2Qc 1; Q2Qc (1 # 3); Q2Qc (-2)] "km s^-1")); ("depth", VDA (row [Q2Qc 5; Q2Qc 0; Q2Qc 7] "m"))].

(** Drag on the wind, and depth that grows with the square of the wind. *)
Definition inp_f : pdict := [("wind", mkprops (Some ["*"]) false (Some "m s^-1") (Some "v") false); ("depth", mkprops (Some ["*"]) false (Some "m") None false)].
Definition tend_f : pdict := [("wind", mkprops None false (Some "m s^-1 s^-1") None false); ("depth", mkprops None false (Some "m s^-1") None false)].
Definition diag_f : pdict := [("drive", mkprops (Some ["*"]) false (Some "m") None false)].
Definition ac_f (u : nat) (raw : dict (rval Qc)) (dt : Z) : nat * res (dict (nd Qc) * dict (nd Qc)) :=
  (S u, let* v := get_raw_array "v" raw in let* d := get_raw_array "depth" raw in
        Ok ([("v", nd_map (fun x => Q2Qc (-1 # 10) * x)%Qc v); ("depth", nd_map (fun x => x * x)%Qc v)], [("drive", d)])).
Definition c_f : tcomp := mktcomp true inp_f tend_f diag_f "pump" true [] None "s^-1".
Definition prog_f : icaller (T:=Qc) nat := fun u st dt => tendency_call empty_treg c_f (fun u raw => ac_f u raw dt) u st.
Definition pair_f : icaller (T:=Qc) nat := fun u st dt => implicit_composite_call [inl prog_f; inr (fun u st => prog_f u st 0%Z)] dt u st.
Definition cfg_f : tstep := mktstep true "step" inp_f diag_f [("wind", qprops ["*"] "m s^-1"); ("depth", qprops ["*"] "m")].

Lemma ex_linear c o : linear_units c o.
Proof. right. intros own u1 s u2 _ _ H _. apply (ex_registry_plain s u2 H). Qed.

Lemma raw_get k (f : string -> Qc) raw : get_raw_array k (by_name times_raw f raw) = result_map (times (f k)) (get_raw_array k raw).
Proof. unfold get_raw_array. rewrite by_name_getE, bind_map, map_bind. apply bind_ext. intros [a | t] _; reflexivity. Qed.

Lemma homogeneous_f : homogeneous fac fac fac ac_f.
Proof.
  intros u raw dt. unfold ac_f. cbn [fst snd]. apply (f_equal (pair (S u))). rewrite !raw_get, bind_map, map_bind. apply bind_ext. intros v _. rewrite bind_map, map_bind. apply bind_ext. intros d _.
  cbn [result_map fst snd by_name map]. unfold nd_map, times; cbn [shape data]. rewrite !map_map.
  change (fac "v") with (Q2Qc 2). change (fac "depth") with (Q2Qc 4). change (fac "drive") with (Q2Qc 4).
  assert (E : Q2Qc 4 = (Q2Qc 2 * Q2Qc 2)%Qc) by (vm_compute; reflexivity).
  rewrite (map_ext (fun x => Q2Qc (-1 # 10) * (Q2Qc 2 * x))%Qc (fun x => Q2Qc 2 * (Q2Qc (-1 # 10) * x))%Qc) by (intro; ring).
  rewrite (map_ext (fun x => Q2Qc 2 * x * (Q2Qc 2 * x))%Qc (fun x => Q2Qc 4 * (x * x))%Qc) by (intro; rewrite E; ring). reflexivity.
Qed.

Lemma fac_rates comp name : fac (tendency_name comp name) = fac name.
Proof. destruct name; reflexivity. Qed.

Lemma sc_setting : t_packer c_f = None /\ homogeneous fac fac fac ac_f /\ input_factors fac fac (t_inp c_f) /\ output_factors fac fac (t_tend c_f) (t_inp c_f) /\ output_factors fac fac (t_diag c_f) (t_inp c_f) /\
  (t_tid c_f = true -> forall name, fac (tendency_name (t_name c_f) name) = fac name) /\ linear_props fac (t_tend c_f) /\ no_offsets fac (t_inp c_f) st_f /\ linear_state fac st_f /\ rates_fit fac cfg_f.
Proof.
  split; [reflexivity | ]. split; [exact homogeneous_f | ]. split; [split; [reflexivity | ] | ].
  { intros name p [E | [E | []]]; injection E as <- <-; reflexivity. }
  split. { intros name [<- | [<- | []]]; reflexivity. } split. { intros name [<- | []]; reflexivity. }
  split. { intros _ name. apply fac_rates. } split. { intros name p _. apply ex_linear. } split. { intros name a _ _. apply ex_linear. } split. { intros name a _. apply ex_linear. }
  intros _ name. apply fac_rates.
Qed.

Lemma scales_f : scales fac prog_f /\ scales fac pair_f.
Proof.
  destruct sc_setting as (H1 & H2 & H3 & H4 & H5 & H6 & H7 & _).
  assert (K : scales fac prog_f) by exact (scale_component fac empty_treg fac fac fac c_f ac_f H1 H2 H3 H4 H5 H6 H7).
  split; [exact K | ]. apply scale_composite. constructor; [exact K | constructor; [ | constructor]].
  intros u st dt u' v' t d t' d' X1 X2 X3. exact (K u st 0%Z u' v' t d t' d' X1 X2 X3).
Qed.

Definition vals (o : option (da Qc)) : list Qc := match o with Some a => data (arr a) | None => [] end.
Lemma sc_call : exists t d t' d', prog_f 0 st_f 0%Z = (1, Ok (t, d)) /\ prog_f 0 (by_name times_value fac st_f) 0%Z = (1, Ok (t', d')) /\
  vals (dget "depth" t) = [Q2Qc 1000000; Q2Qc (1000000 # 9); Q2Qc 4000000] /\ vals (dget "depth" t') = [Q2Qc 4000000; Q2Qc (4000000 # 9); Q2Qc 16000000] /\
  vals (dget "depth_tendency_from_pump" d') = vals (dget "depth" t').
Proof.
  destruct (prog_f 0 st_f 0%Z) as [u [[t d] | ]] eqn:E; [ | exfalso; revert E; vm_compute; discriminate].
  destruct (prog_f 0 (by_name times_value fac st_f) 0%Z) as [u' [[t' d'] | ]] eqn:E'; [ | exfalso; revert E'; vm_compute; discriminate].
  exists t, d, t', d'. revert E E'. vm_compute. intros E E'. injection E as <- <- <-. injection E' as <- <- <-. repeat split.
Qed.

(** A run with SSPRungeKutta over a composite, from the state and from the rescaled one. *)
Lemma sc_run : exists w log e w' log' e', length log = 3 /\
  main_loop 4 [beside (ssp_rk cfg_f pair_f)] (fun w st => let (m1, r) := Ex_Region.mon_r (fst w) st in ((m1, snd w), r)) (3 * Ex_Region.sec_r) Ex_Region.sec_r (0, (mkrk 2 (mkab 1 None []), 0)) st_f = ((w, log), Some (Ok e)) /\
  main_loop 4 [beside (ssp_rk cfg_f pair_f)] (fun w st => let (m1, r) := Ex_Region.mon_r (fst w) st in ((m1, snd w), r)) (3 * Ex_Region.sec_r) Ex_Region.sec_r (0, (mkrk 2 (mkab 1 None []), 0)) (by_name times_value fac st_f) = ((w', log'), Some (Ok e')) /\
  log' = map (by_name times_value fac) log /\ e' = by_name times_value fac e.
Proof.
  destruct (Ex_Region.done_ok (main_loop 4 [beside (ssp_rk cfg_f pair_f)] (fun w st => let (m1, r) := Ex_Region.mon_r (fst w) st in ((m1, snd w), r)) (3 * Ex_Region.sec_r) Ex_Region.sec_r (0, (mkrk 2 (mkab 1 None []), 0)) st_f)) as (w & log & e & E & L); [vm_compute; reflexivity | ].
  destruct (Ex_Region.done_ok (main_loop 4 [beside (ssp_rk cfg_f pair_f)] (fun w st => let (m1, r) := Ex_Region.mon_r (fst w) st in ((m1, snd w), r)) (3 * Ex_Region.sec_r) Ex_Region.sec_r (0, (mkrk 2 (mkab 1 None []), 0)) (by_name times_value fac st_f))) as (w' & log' & e' & E' & L'); [vm_compute; reflexivity | ].
  exists w, log, e, w', log', e'. split; [exact L | ]. split; [exact E | ]. split; [exact E' | ].
  destruct sc_setting as (_ & _ & _ & _ & _ & _ & _ & _ & Hl & Hf).
  exact (scale_runge_kutta fac pair_f (proj2 scales_f) Ex_Region.mon_r Ex_Region.mon_r cfg_f 2 _ 0 Hf eq_refl 4 _ _ 0 0 st_f w w' log log' e e' Hl E E').
Qed.

(** A stepper that halves the depth and reports the tendency. *)
Definition sinp_f : pdict := [("depth", mkprops (Some ["*"]) false (Some "m") None false)].
Definition s_f : scomp := mkscomp true sinp_f [("depth_tendency_from_leak", mkprops (Some ["*"]) false (Some "m s^-1") None false)] sinp_f "leak" true ["depth_tendency_from_leak"] None 1000000%Z.
Definition sac_f (u : nat) (raw : dict (rval Qc)) (dt : Z) : nat * res (dict (nd Qc) * dict (nd Qc)) :=
  (S u, let* d := get_raw_array "depth" raw in Ok ([], [("depth", nd_map (fun x => Q2Qc (1 # 2) * x)%Qc d)])).
Lemma sc_stepper : s_packer s_f = None /\ homogeneous fac fac fac sac_f /\ input_factors fac fac (s_inp s_f) /\ output_factors fac fac (s_diag s_f) (s_inp s_f) /\ output_factors fac fac (s_out s_f) (s_inp s_f) /\
  change_factors fac fac fac s_f /\ no_offsets fac (s_inp s_f) st_f /\
  exists d n, stepper_call empty_treg s_f sac_f 0 (by_name times_value fac st_f) 2000000%Z = (1, Ok (d, n)) /\ vals (dget "depth_tendency_from_leak" d) = [Q2Qc (-5); 0%Qc; Q2Qc (-7)].
Proof.
  split; [reflexivity | ]. split.
  { intros u raw dt. unfold sac_f. cbn [fst snd]. apply (f_equal (pair (S u))). rewrite raw_get, bind_map, map_bind. apply bind_ext. intros d _. cbn [result_map fst snd by_name map].
    unfold nd_map, times; cbn [shape data]. rewrite !map_map.
    rewrite (map_ext (fun x => Q2Qc (1 # 2) * (fac "depth" * x))%Qc (fun x => fac "depth" * (Q2Qc (1 # 2) * x))%Qc) by (intro; ring). reflexivity. }
  split; [split; [reflexivity | ] | ]. { intros name p [E | []]; injection E as <- <-; reflexivity. }
  split. { intros name [<- | []]; reflexivity. } split. { intros name [<- | []]; reflexivity. }
  split. { intros _ name _. split; [reflexivity | apply fac_rates]. } split. { intros name a _ _. apply ex_linear. }
  destruct (stepper_call empty_treg s_f sac_f 0 (by_name times_value fac st_f) 2000000%Z) as [u [[d n] | ]] eqn:E; [ | exfalso; revert E; vm_compute; discriminate].
  exists d, n. revert E. vm_compute. intros E. injection E as <- <- <-. repeat split.
Qed.

(** A diagnostic that reads the depth. *)
Definition d_f : dcomp := mkdcomp true sinp_f diag_f.
Definition dac_f (u : nat) (raw : dict (rval Qc)) : nat * res (dict (nd Qc)) := (S u, let* d := get_raw_array "depth" raw in Ok [("drive", d)]).
Lemma sc_diagnostic : homogeneous1 fac fac dac_f /\ input_factors fac fac (d_inp d_f) /\ output_factors fac fac (d_diag d_f) (d_inp d_f) /\ no_offsets fac (d_inp d_f) st_f /\
  exists d, diagnostic_call d_f dac_f 0 (by_name times_value fac st_f) = (1, Ok d) /\ vals (dget "drive" d) = [Q2Qc 20; 0%Qc; Q2Qc 28].
Proof.
  split. { intros u raw. unfold dac_f. cbn [fst snd]. apply (f_equal (pair (S u))). rewrite raw_get, bind_map, map_bind. apply bind_ext. intros d _. reflexivity. }
  split; [split; [reflexivity | ] | ]. { intros name p [E | []]; injection E as <- <-; reflexivity. }
  split. { intros name [<- | []]; reflexivity. } split. { intros name a _ _. apply ex_linear. }
  destruct (diagnostic_call d_f dac_f 0 (by_name times_value fac st_f)) as [u [d | ]] eqn:E; [ | exfalso; revert E; vm_compute; discriminate].
  exists d. revert E. vm_compute. intros E. injection E as <- <-. repeat split.
Qed.
