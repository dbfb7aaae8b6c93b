(** Concrete cases for the property theorems about taking up a run that died (C88). *)
From Coq Require Import String List Bool Arith ZArith QArith Qcanon Lia.
From Verif Require Import Prelude PreludeFacts ArithM NdArray Units DataArrayM ExampleRegistry Checks Tracers Components Composite Steppers Basic MainLoop NetCDF
  SpecNetCDF NetCDFRestart SpecMainLoop SpecResume ResumeFacts ResumeMain Ex_Components Ex_NetCDF Ex_Steppers Ex_MainLoop Ex_Resume SpecDies DiesFacts DiesMain DiesRK.
From Verif Require SpecLocal.
Import ListNotations.
Open Scope string_scope.
Open Scope nat_scope.
Open Scope list_scope.

#[local] Existing Instance ex_registry | 5.

(** The loop of the quickstart with forward Euler and a RestartMonitor. *)
Definition parts_d : list (tcomp * (Z -> nat -> dict (rval Qc) -> nat * res (dict (nd Qc) * dict (nd Qc)))) := [(c_t false, fun _ => ac_t)].
Definition euler_d : process (T:=Qc) (ab Qc * nat) := adams_bashforth cfg_0 (SpecLocal.called empty_treg parts_d).
Definition procs_d : list (process (T:=Qc) (ab Qc * nat)) := [euler_d; dynamics_f].
Definition given_d : list (list string) := [["speed"]; ["speed"]].
Definition fit_d (w : ab Qc * nat) : Prop := euler_object (T:=Qc) 10000000 (fst w) /\ True.

Lemma memoryless_d : Forall (memoryless fit_d (concat given_d) 10000000) procs_d.
Proof.
  constructor; [|constructor; [|constructor]].
  - apply (main_euler_memoryless (T:=Qc) (fun _ : nat => True)); [|intros X []].
    apply (main_components_heedless ["time"; "T"; "wind"]).
    + intros ca [<-|[]]. split; [left; reflexivity|]. split; [|split]; intros X HX; vm_compute in HX; cbn; intuition.
    + intros ca [<-|[]] dt u u' raw. reflexivity.
    + intros X HX K. cbn in HX, K. intuition (subst; discriminate).
  - apply (main_beside_memoryless (T:=Qc) (euler_object (T:=Qc) 10000000) (fun _ : nat => True)). apply main_stepper_memoryless.
    + intros u u' raw. reflexivity.
    + intros X HX K. vm_compute in HX. cbn in K. intuition (subst; discriminate).
Qed.

Lemma diagnoses_d : Forall2 (diagnoses (T:=Qc) 10000000) procs_d given_d.
Proof.
  constructor; [|constructor; [|constructor]].
  - apply (main_euler_diagnoses (T:=Qc) cfg_0 empty_treg parts_d 10000000); [reflexivity|]. intros ca [<-|[]]. vm_compute. auto.
  - apply (main_beside_diagnoses (T:=Qc) (S:=ab Qc)). apply (main_stepper_diagnoses (T:=Qc) empty_treg c_f ac_f 10000000).
Qed.

Definition restartableb (st : state Qc) : bool :=
  grid_stateb Lr st && mem "T" (keys st) &&
  forallb (fun nv => match snd nv with
                     | VDA a => forallb (fun d => mem d ["x"; "z"]) (dims a) && negb (mem (fst nv) ["x"; "z"]) &&
                                match dget "units" (attrs a) with Some u => match unit_of u with None => true | Some _ => false end | None => true end
                     | VTime _ => true
                     end) st.

Lemma restartableb_ok : forall st, restartableb st = true -> restartable Lr st.
Proof.
  intros st Hb. unfold restartableb in Hb. apply andb_true_iff in Hb as [Hb H]. apply andb_true_iff in Hb as [Hb HT]. rewrite forallb_forall in H.
  assert (HD : forall n a, dget n st = Some (VDA a) -> incl (dims a) ["x"; "z"] /\ ~ In n ["x"; "z"] /\ match dget "units" (attrs a) with Some u => unit_of u = None | None => True end).
  { intros n a Ha. apply dget_In in Ha. apply H in Ha. cbn [fst snd] in Ha. apply andb_true_iff in Ha as [Ha K3]. apply andb_true_iff in Ha as [K1 K2].
    rewrite forallb_forall in K1. split; [intros d Hd; apply mem_In; apply K1; auto|]. split; [apply mem_false; apply negb_true_iff; auto|].
    destruct (dget "units" (attrs a)) as [u|]; auto. destruct (unit_of u); auto; discriminate. }
  split; [apply grid_stateb_ok; auto|]. split; [exists "T"; split; [discriminate|apply mem_In; auto]|]. split; [|split].
  - intros n a n' a' Ha Ha' Hi. apply HD in Ha as (_ & Hn & _). apply HD in Ha' as (Hc & _). apply Hn, Hc; auto.
  - intros n a Ha. apply HD in Ha as (_ & _ & Hu). cbn. destruct (dget "units" (attrs a)) as [u|]; auto. rewrite Hu. auto.
  - intros t z _ E. cbn in E. injection E as <-. cbn. f_equal. rewrite Z.sub_diag. cbn. lia.
Qed.

Definition to_two := main_loop 2 (map beside procs_d) (to_restart "r.nc") 40000000 10000000 ([], (ab1, 0)) st_f.
Definition quiet_three := main_loop 3 procs_d quiet 40000000 10000000 (ab1, 0) st_f.
Definition files_two : files Qc := fst (fst (fst to_two)).
Definition third_d : state Qc := nth 2 (snd (fst quiet_three)) [].
Definition writing : files Qc := snd (write_new "r.nc" false third_d files_two).

Lemma tidy_d : tidy (concat given_d) st_f.
Proof.
  split; [apply nodupb_ok; vm_compute; reflexivity|]. intros X t HX. cbn in HX. destruct HX as [<-|[<-|[]]]; vm_compute; discriminate.
Qed.

(** The program dies in the third pass, when <file> has been renamed to <file>.old. *)
Lemma ex_dies : exists fs1 u1 log1 X fs2,
  Forall (memoryless fit_d (concat given_d) 10000000) procs_d /\ Forall2 (diagnoses (T:=Qc) 10000000) procs_d given_d /\ ~ In "time" (concat given_d) /\
  fit_d (ab1, 0) /\ tidy (concat given_d) st_f /\ plain_fit ex_lib /\
  main_loop 2 (map beside procs_d) (to_restart "r.nc") 40000000 10000000 ([], (ab1, 0)) st_f = (((fs1, u1), log1), None) /\
  (forall Y, In Y (snd (fst quiet_three)) -> restartable Lr Y) /\
  nth_error (snd (fst quiet_three)) 2 = Some X /\ crash_points "r.nc" false X fs1 fs2 /\
  dget "r.nc" fs2 = None /\ dmem "r.nc.old" fs2 = true /\ length log1 = 2.
Proof.
  assert (E : snd to_two = None) by (vm_compute; reflexivity).
  assert (El : length (snd (fst to_two)) = 2) by (vm_compute; reflexivity).
  exists files_two, (snd (fst (fst to_two))), (snd (fst to_two)), third_d, (backup "r.nc" writing).
  split; [exact memoryless_d|]. split; [exact diagnoses_d|]. split; [cbn; intuition discriminate|]. split; [repeat split; cbn; auto|].
  split; [exact tidy_d|].
  split; [exact ex_fit|]. split.
  { fold to_two. unfold files_two. destruct to_two as [[[fs u] log] r]. cbn [fst snd] in *. subst r. reflexivity. }
  split. { intros Y HY. apply restartableb_ok. revert Y HY. refine (proj1 (forallb_forall restartableb (snd (fst quiet_three))) _). vm_compute. reflexivity. }
  split. { assert (Hl : length (snd (fst quiet_three)) = 3) by (vm_compute; reflexivity). unfold third_d. apply nth_error_nth'. rewrite Hl. auto. }
  split. { right. right. exists writing. split; [|auto]. unfold writing.
    assert (K : is_ok (fst (write_new "r.nc" false third_d files_two)) = true) by (vm_compute; reflexivity).
    destruct (write_new "r.nc" false third_d files_two) as [[[]|e] w]; [reflexivity|discriminate]. }
  split; [vm_compute; reflexivity|]. split; [vm_compute; reflexivity|exact El].
Qed.

(** Anything that fits may take the run up, such as newly created objects. *)
Lemma ex_fits : fit_d (ab1, 0) /\ fit_d (ab1, 41) /\ fit_d (mkab 1 (Some 10000000%Z) [], 7).
Proof. repeat split; cbn; auto. Qed.

(** ** The same with SSPRungeKutta *)

Definition rk_d : process (T:=Qc) (rk Qc * nat) := ssp_rk cfg_0 (SpecLocal.called empty_treg parts_d).
Definition rprocs_d : list (process (T:=Qc) (rk Qc * nat)) := [rk_d; beside (stepper_process empty_treg c_f ac_f)].
Definition rk3_d : rk Qc := mkrk 3 ab1.
Definition rfit_d (w : rk Qc * nat) : Prop := rk_stages (fst w) = 3 /\ euler_object (T:=Qc) 10000000 (rk_euler (fst w)) /\ True.

Lemma rmemoryless_d : Forall (memoryless rfit_d (concat given_d) 10000000) rprocs_d.
Proof.
  constructor; [|constructor; [|constructor]].
  - apply (main_rk_memoryless (T:=Qc) (fun _ : nat => True)); [|cbn; intuition discriminate|intros X []].
    apply (main_components_heedless ["time"; "T"; "wind"]).
    + intros ca [<-|[]]. split; [left; reflexivity|]. split; [|split]; intros X HX; vm_compute in HX; cbn; intuition.
    + intros ca [<-|[]] dt u u' raw. reflexivity.
    + intros X HX K. cbn in HX, K. intuition (subst; discriminate).
  - intros u u' st st' (H1 & H2 & _) (H1' & H2' & _) Hs.
    assert (M : memoryless (fun w : rk Qc * nat => (rk_stages (fst w) = 3 /\ euler_object (T:=Qc) 10000000 (rk_euler (fst w))) /\ True) (concat given_d) 10000000
      (beside (stepper_process empty_treg c_f ac_f))).
    { apply (main_beside_memoryless (T:=Qc) (fun k => rk_stages k = 3 /\ euler_object (T:=Qc) 10000000 (rk_euler k)) (fun _ : nat => True)). apply main_stepper_memoryless.
      + intros v v' raw. reflexivity.
      + intros X HX K. vm_compute in HX. cbn in K. intuition (subst; discriminate). }
    destruct (M u u' st st') as (M1 & M2 & M3); try tauto. unfold rfit_d. tauto.
Qed.

Lemma rdiagnoses_d : Forall2 (diagnoses (T:=Qc) 10000000) rprocs_d given_d.
Proof.
  constructor; [|constructor; [|constructor]].
  - apply (main_rk_diagnoses (T:=Qc) cfg_0 empty_treg parts_d 10000000); [reflexivity|]. intros ca [<-|[]]. vm_compute. auto.
  - apply (main_beside_diagnoses (T:=Qc) (S:=rk Qc)). apply (main_stepper_diagnoses (T:=Qc) empty_treg c_f ac_f 10000000).
Qed.

Definition rto_two := main_loop 2 (map beside rprocs_d) (to_restart "r.nc") 40000000 10000000 ([], (rk3_d, 0)) st_f.
Definition rquiet_three := main_loop 3 rprocs_d quiet 40000000 10000000 (rk3_d, 0) st_f.

(** It dies between two stores; the run is taken up with a new object. *)
Lemma ex_rk_dies : exists fs1 u1 log1,
  Forall (memoryless rfit_d (concat given_d) 10000000) rprocs_d /\ Forall2 (diagnoses (T:=Qc) 10000000) rprocs_d given_d /\ ~ In "time" (concat given_d) /\
  rfit_d (rk3_d, 0) /\ rfit_d (rk3_d, 41) /\ tidy (concat given_d) st_f /\ plain_fit ex_lib /\
  rto_two = (((fs1, u1), log1), None) /\
  (forall Y, In Y (snd (fst rquiet_three)) -> restartable Lr Y) /\ dmem "r.nc" fs1 = true /\ length log1 = 2.
Proof.
  assert (E : snd rto_two = None) by (vm_compute; reflexivity).
  assert (El : length (snd (fst rto_two)) = 2) by (vm_compute; reflexivity).
  assert (Ef : dmem "r.nc" (fst (fst (fst rto_two))) = true) by (vm_compute; reflexivity).
  assert (Q : exists fs1 u1 log1, rto_two = (((fs1, u1), log1), None) /\ dmem "r.nc" fs1 = true /\ length log1 = 2).
  { generalize dependent rto_two. intros [[[fs u] log] r] E1 E2 E3. cbn [fst snd] in *. subst r. exists fs, u, log. auto. }
  clear E El Ef. destruct Q as (fs1 & u1 & log1 & Q & Ef & El). exists fs1, u1, log1.
  split; [exact rmemoryless_d|]. split; [exact rdiagnoses_d|]. split; [cbn; intuition discriminate|]. split; [repeat split; cbn; auto|]. split; [repeat split; cbn; auto|].
  split; [exact tidy_d|]. split; [exact ex_fit|]. split; [exact Q|].
  split. { intros Y HY. apply restartableb_ok. revert Y HY. refine (proj1 (forallb_forall restartableb (snd (fst rquiet_three))) _). vm_compute. reflexivity. }
  split; [exact Ef|exact El].
Qed.

(** ** A component that reads one of its own diagnostics *)
Definition prog_r : icaller (T:=Qc) unit := fun u st dt =>
  match dget "w" st, dget "depth" st with
  | Some (VDA a), Some (VDA b) => (u, Ok ([("w", mkda (dims b) (arr b) [("units", "m s^-1")])], [("depth", a)]))
  | _, _ => (u, Err EKey)
  end.
Definition st_r : state Qc := [("time", VTime 0%Z); ("w", VDA (mkda ["x"] (cramp [1]) [("units", "m")])); ("depth", VDA (mkda ["x"] (nd_map (Qcplus (cz 5)) (cramp [1])) [("units", "m")]))].
Definition euler_r : process (T:=Qc) (ab Qc * unit) := adams_bashforth cfg_0 prog_r.

Lemma reads_r : reads_by_name prog_r.
Proof.
  split.
  - intros u st st' dt (_ & _ & H). unfold prog_r. rewrite !H. auto.
  - intros u st dt u' t d H. unfold prog_r in H. destruct (dget "w" st) as [[a|]|]; try discriminate. destruct (dget "depth" st) as [[b|]|]; try discriminate.
    injection H as <- <- <-. cbn. repeat constructor. intros [].
Qed.

Definition into_r := main_loop 1 (map beside [euler_r]) (to_restart "r.nc") 20000000 1000000 ([], (ab1, tt)) st_r.
Definition loaded_r : state Qc := match NetCDF.load "r.nc" (fst (fst (fst into_r))) with Ok s => s | Err _ => [] end.
Definition whole_r := main_loop 2 [euler_r] quiet 20000000 1000000 (ab1, tt) st_r.
Definition again_r := main_loop 2 [euler_r] quiet 20000000 1000000 (ab1, tt) loaded_r.

Lemma two_logs : forall {W} (x y : (W * list (state Qc)) * option (res (state Qc))),
  match x, y with (_, [X; Y], None), (_, [X'; Y'], None) => w_differs Y Y' | _, _ => false end = true ->
  exists w X Y w' X' Y', x = ((w, [X; Y]), None) /\ y = ((w', [X'; Y']), None) /\ dget "w" Y <> dget "w" Y'.
Proof.
  intros W [[w l] r] [[w' l'] r'] H. destruct l as [|X [|Y [|Z l]]]; try discriminate. destruct r as [r|]; try discriminate.
  destruct l' as [|X' [|Y' [|Z l']]]; try discriminate. destruct r' as [r'|]; try discriminate.
  exists w, X, Y, w', X', Y'. split; [reflexivity|]. split; [reflexivity|]. apply w_differs_ok. exact H.
Qed.

(** One pass, stored; the second pass of the run taken up is not that of the whole run. *)
Lemma ex_reads_own : exists (prog : icaller (T:=Qc) unit) st fs1 u1 log1 st2 w X Y w' X' Y',
  reads_by_name prog /\ (forall u s dt u' t d, prog u s dt = (u', Ok (t, d)) -> keys t = ["w"] /\ keys d = ["depth"]) /\
  main_loop 1 (map beside [adams_bashforth cfg_0 prog]) (to_restart "r.nc") 20000000 1000000 ([], (mkab 1 None [], tt)) st = (((fs1, u1), log1), None) /\
  NetCDF.load "r.nc" fs1 = Ok st2 /\
  main_loop 2 [adams_bashforth cfg_0 prog] quiet 20000000 1000000 (mkab 1 None [], tt) st = ((w, [X; Y]), None) /\
  main_loop 2 [adams_bashforth cfg_0 prog] quiet 20000000 1000000 (mkab 1 None [], tt) st2 = ((w', [X'; Y']), None) /\
  dget "w" X = dget "w" X' /\ dget "depth" X = dget "depth" X' /\ dget "w" Y <> dget "w" Y'.
Proof.
  exists prog_r, st_r.
  assert (K : match into_r with (((fs1, u1), log1), None) => is_ok (NetCDF.load "r.nc" fs1) | _ => false end = true) by (vm_compute; reflexivity).
  assert (K2 : match whole_r, again_r with (_, [X; Y], _), (_, [X'; Y'], _) => (dget "w" X = dget "w" X' /\ dget "depth" X = dget "depth" X') | _, _ => False end : Prop)
    by (vm_compute; split; reflexivity).
  destruct (two_logs whole_r again_r) as (w & X & Y & w' & X' & Y' & E3 & E4 & K1); [vm_compute; reflexivity|]. rewrite E3, E4 in K2.
  destruct into_r as [[[fs1 u1] log1] [r|]] eqn:E1; [discriminate K|]. destruct (NetCDF.load "r.nc" fs1) as [st2|e] eqn:E2; [|discriminate K].
  assert (El : loaded_r = st2) by (unfold loaded_r; rewrite E1; cbn [fst]; rewrite E2; reflexivity).
  exists fs1, u1, log1, st2, w, X, Y, w', X', Y'. split; [exact reads_r|]. split.
  { clear. intros u s dt u' t d H. unfold prog_r in H. destruct (dget "w" s) as [[a|]|]; try discriminate. destruct (dget "depth" s) as [[b|]|]; try discriminate.
    injection H as <- <- <-. auto. }
  split; [exact E1|]. split; [exact E2|]. split; [exact E3|]. split; [rewrite <- El; exact E4|]. destruct K2 as (K2 & K3). split; [exact K2|]. split; [exact K3|exact K1].
Qed.
