(** Concrete cases for the property theorems about resumed runs (C78). *)
From Coq Require Import String List Bool Arith ZArith QArith Qcanon Lia.
From Verif Require Import Prelude PreludeFacts ArithM NdArray Units DataArrayM ExampleRegistry Checks Tracers Components Composite Steppers Basic MainLoop NetCDF
  SpecNetCDF NetCDFRestart SpecMainLoop SpecResume ResumeFacts ResumeMain Ex_Components Ex_NetCDF Ex_Steppers Ex_MainLoop.
Import ListNotations.
Open Scope string_scope.
Open Scope nat_scope.
Open Scope list_scope.

#[local] Existing Instance ex_registry | 5.

(** The loop of the quickstart with forward Euler, and a Stepper that returns all there is. *)
Definition prog_q : icaller (T:=Qc) nat := fun u s dt => implicit_composite_call cs_q dt u s.
Definition euler_q : process (T:=Qc) (ab Qc * nat) := adams_bashforth cfg_0 prog_q.
Definition ab1 : ab Qc := mkab 1 None [].
Definition first_run : ((ab Qc * nat) * list (state Qc)) * option (res (state Qc)) :=
  main_loop 9 [euler_q; dynamics_f] store_q 20000000 10000000 (ab1, 0) st_f.
Definition mid : state Qc := match snd first_run with Some (Ok s) => s | _ => [] end.
Definition Lr (d : string) : nat := if String.eqb d "x" then 3 else 2.

Definition storableb (st : state Qc) : bool :=
  grid_stateb Lr st && nodupb (keys st) && mem "T" (keys st) && negb (mem "" (keys st)) &&
  match dget "time" st with Some (VTime 20000000) => true | _ => false end &&
  forallb (fun nv => match snd nv with
                     | VDA a => negb (String.eqb (fst nv) "time") && forallb (fun d => mem d ["x"; "z"]) (dims a) && negb (match dims a with [] => true | _ => false end) &&
                                nodupb (keys (attrs a)) && negb (mem (fst nv) ["x"; "z"]) &&
                                match dget "units" (attrs a) with Some u => match unit_of u with None => true | Some _ => false end | None => true end
                     | VTime _ => String.eqb (fst nv) "time"
                     end) st.

Lemma ex_mid : storableb mid = true /\ length (snd (fst first_run)) = 2 /\ euler_pair 10000000 (fst (fst first_run)) (ab1, snd (fst (fst first_run))).
Proof. split; [vm_compute; reflexivity|]. split; [vm_compute; reflexivity|]. split; [reflexivity|]. split; split; vm_compute; auto. Qed.

Lemma ex_reads : reads_by_name prog_q.
Proof.
  apply main_components_read; intros f [H|[]]; [discriminate H|]. injection H as <-. exists empty_treg, (c_t false), ac_t. reflexivity.
Qed.

Lemma euler_pair_beside : forall {U} (p : process (T:=Qc) U) dt, interchangeable eq dt p -> interchangeable (euler_pair (T:=Qc) (U:=U) dt) dt (beside p).
Proof. intros U p dt H. exact (main_beside (fun a a' => euler_object dt a /\ euler_object dt a') p dt H). Qed.

Lemma ex_resume : let '((w1, log1), r) := first_run in
  Forall (interchangeable (euler_pair (T:=Qc) 10000000) 10000000) [euler_q; dynamics_f] /\ store_interchangeable (euler_pair 10000000) store_q /\ r = Some (Ok mid) /\
  plain_fit ex_lib /\ grid_state Lr mid /\ (exists n, n <> "time" /\ In n (keys mid)) /\
  (forall n a n' a', dget n mid = Some (VDA a) -> dget n' mid = Some (VDA a') -> ~ In n (dims a')) /\
  (forall n a, dget n mid = Some (VDA a) -> xr_decode (attrs a) (arr a) = Ok (attrs a, arr a)) /\
  (forall t z, dget "time" mid = Some (VTime t) -> date_code "seconds" t t = Ok z -> date_decode "seconds" t z = Ok t) /\
  (exists fs', restart_store "r.nc" false mid [] = (Ok tt, fs')) /\ euler_pair 10000000 w1 (ab1, snd w1) /\ length log1 = 2.
Proof.
  destruct ex_mid as (Hb & Hl & Hp). assert (Em : snd first_run = Some (Ok mid)).
  { unfold mid. destruct (snd first_run) as [[s|e]|] eqn:E; auto; exfalso.
    - assert (K : match snd first_run with Some (Ok _) => true | _ => false end = true) by (vm_compute; reflexivity). rewrite E in K. discriminate K.
    - assert (K : match snd first_run with Some (Ok _) => true | _ => false end = true) by (vm_compute; reflexivity). rewrite E in K. discriminate K. }
  destruct first_run as [[w1 log1] r]. cbn [fst snd] in *. revert Hb. generalize mid Em. clear Em. intros st Em Hb.
  split. { constructor; [apply euler_interchangeable, ex_reads|]. constructor; [|constructor]. apply euler_pair_beside. apply main_stepper_keeps_nothing. }
  split. { intros w w' s s' Hw Hs. split; auto. exact I. }
  split; auto. split; [exact ex_fit|]. unfold storableb in Hb. apply andb_true_iff in Hb as [Hb H]. apply andb_true_iff in Hb as [Hb Htm]. apply andb_true_iff in Hb as [Hb Hem]. apply andb_true_iff in Hb as [Hb HT]. apply andb_true_iff in Hb as [Hb _].
  assert (G : grid_state Lr st) by (apply grid_stateb_ok; auto). rewrite forallb_forall in H.
  assert (HD : forall n a, dget n st = Some (VDA a) -> n <> "time" /\ incl (dims a) ["x"; "z"] /\ dims a <> [] /\ NoDup (keys (attrs a)) /\ ~ In n ["x"; "z"] /\
    match dget "units" (attrs a) with Some u => unit_of u = None | None => True end).
  { intros n a Ha. apply dget_In in Ha. apply H in Ha. cbn [fst snd] in Ha. 
    apply andb_true_iff in Ha as [Ha K5]. apply andb_true_iff in Ha as [Ha K4]. apply andb_true_iff in Ha as [Ha K1]. apply andb_true_iff in Ha as [Ha K2]. apply andb_true_iff in Ha as [Ha K3].
    apply negb_true_iff in Ha. apply String.eqb_neq in Ha. split; auto. rewrite forallb_forall in K3. split; [intros d Hd; apply mem_In; apply K3; auto|].
    split; [intros E; rewrite E in K2; discriminate|]. split; [apply nodupb_ok; auto|]. split; [apply mem_false; apply negb_true_iff; auto|].
    destruct (dget "units" (attrs a)) as [u|]; auto. destruct (unit_of u); auto; discriminate. }
  assert (Hin : exists n, n <> "time" /\ In n (keys st)) by (exists "T"; split; [discriminate|apply mem_In; auto]).
  split; auto. split; auto. split. { intros n a n' a' Ha Ha' Hi. apply HD in Ha as (_ & _ & _ & _ & Hn & _). apply HD in Ha' as (_ & Hc & _). apply Hn, Hc; auto. }
  split. { intros n a Ha. apply HD in Ha as (_ & _ & _ & _ & _ & Hu). cbn. destruct (dget "units" (attrs a)) as [u|]; auto. rewrite Hu. auto. }
  split. { intros t0 z _ E. cbn in E. injection E as <-. cbn. f_equal. rewrite Z.sub_diag. cbn. lia. }
  split; [|auto]. destruct (dget "time" st) as [[?|t]|] eqn:Et; try discriminate.
  eapply main_restart_succeeds; eauto; try exact ex_fit.
  - intros r' t'; cbn; eauto.
  - apply mem_false. apply negb_true_iff; auto.
  - intros n v Hv Hn. destruct v as [a|t'].
    + exists a. split; auto. apply HD in Hv. tauto.
    + apply dget_In in Hv. apply H in Hv. cbn [fst snd] in Hv. apply String.eqb_eq in Hv. contradiction.
Qed.

(** ** Objects that keep something *)
Definition prog_g : icaller (T:=Qc) unit := fun u st dt =>
  match dget "w" st with
  | Some (VDA a) => (u, Ok ([("w", mkda (dims a) (arr a) [("units", "m s^-1")])], []))
  | _ => (u, Err EKey)
  end.
Definition st_g : state Qc := [("time", VTime 0%Z); ("w", VDA (scalar 8 "m"))].

Lemma reads_g : reads_by_name prog_g.
Proof.
  split.
  - intros u st st' dt (_ & _ & H). unfold prog_g. rewrite H. auto.
  - intros u st dt u' t d H. unfold prog_g in H. destruct (dget "w" st) as [[a|]|]; try discriminate. injection H as <- <- <-. cbn. repeat constructor. intros [].
Qed.

Definition store_g {S : Type} (w : S * unit) (st : state Qc) : (S * unit) * res unit := (w, Ok tt).

Definition w_differs (st st' : state Qc) : bool :=
  match dget "w" st, dget "w" st' with
  | Some (VDA a), Some (VDA a') => match data (arr a), data (arr a') with [x], [y] => negb (Qc_eqb x y) | _, _ => false end
  | _, _ => false
  end.

Lemma w_differs_ok : forall st st', w_differs st st' = true -> dget "w" st <> dget "w" st'.
Proof.
  intros st st' H E. unfold w_differs in H. rewrite E in H. destruct (dget "w" st') as [[a|]|]; try discriminate.
  destruct (data (arr a)) as [|x [|]]; try discriminate. apply negb_true_iff in H. rewrite (proj2 (UnitsFacts.Qc_eqb_eq x x) eq_refl) in H. discriminate.
Qed.

(** AdamsBashforth of order 2, two steps. *)
Definition euler_g : process (T:=Qc) (ab Qc * unit) := adams_bashforth cfg_0 prog_g.
Definition run_g (n : nat) (stop : Z) (st : state Qc) : ((ab Qc * unit) * list (state Qc)) * option (res (state Qc)) :=
  main_loop n [euler_g] store_g stop 1000000 (ab2, tt) st.

Lemma ex_ab_differs : exists (prog : icaller (T:=Qc) unit) st w1 log1 st1 w2 log2 st2 w3 log3 st3, reads_by_name prog /\
  main_loop 9 [adams_bashforth cfg_0 prog] store_g 1000000 1000000 (mkab 2 None [], tt) st = ((w1, log1), Some (Ok st1)) /\
  main_loop 9 [adams_bashforth cfg_0 prog] store_g 2000000 1000000 (mkab 2 None [], tt) st = ((w2, log2), Some (Ok st2)) /\
  main_loop 9 [adams_bashforth cfg_0 prog] store_g 2000000 1000000 (mkab 2 None [], tt) st1 = ((w3, log3), Some (Ok st3)) /\
  dget "w" st2 <> dget "w" st3.
Proof.
  exists prog_g, st_g.
  assert (K : match snd (run_g 9 1000000 st_g), snd (run_g 9 2000000 st_g) with
              | Some (Ok st1), Some (Ok st2) => match snd (run_g 9 2000000 st1) with Some (Ok st3) => w_differs st2 st3 | _ => false end
              | _, _ => false
              end = true) by (vm_compute; reflexivity).
  destruct (run_g 9 1000000 st_g) as [[w1 log1] [[st1|]|]] eqn:E1; try discriminate. destruct (run_g 9 2000000 st_g) as [[w2 log2] [[st2|]|]] eqn:E2; try discriminate. cbn [snd] in K.
  destruct (run_g 9 2000000 st1) as [[w3 log3] [[st3|]|]] eqn:E3; try discriminate. cbn [snd] in K. unfold run_g, ab2, euler_g in E1, E2, E3.
  exists w1, log1, st1, w2, log2, st2, w3, log3, st3. split; [exact reads_g|]. split; auto. split; auto. split; auto. apply w_differs_ok; auto.
Qed.

(** Leapfrog, two steps. *)
Lemma ex_leap_differs : exists (prog : icaller (T:=Qc) unit) nu alpha dt st s1 st1 d1 new1 s2 st2 d2 new2 s3 st3 d3 new3, reads_by_name prog /\
  leapfrog cfg_0 prog (new_leap nu alpha, tt) st dt = (s1, st1, Ok (d1, new1)) /\
  leapfrog cfg_0 prog s1 new1 dt = (s2, st2, Ok (d2, new2)) /\
  leapfrog cfg_0 prog (new_leap nu alpha, tt) new1 dt = (s3, st3, Ok (d3, new3)) /\
  dget "w" new2 <> dget "w" new3.
Proof.
  exists prog_g, nu_e, half, 1000000%Z, st_g.
  assert (K : match leapfrog cfg_0 prog_g (new_leap nu_e half, tt) st_g 1000000 with
              | (s1, st1, Ok (d1, new1)) =>
                  match leapfrog cfg_0 prog_g s1 new1 1000000, leapfrog cfg_0 prog_g (new_leap nu_e half, tt) new1 1000000 with
                  | (_, _, Ok (_, new2)), (_, _, Ok (_, new3)) => w_differs new2 new3
                  | _, _ => false
                  end
              | _ => false
              end = true) by (vm_compute; reflexivity).
  destruct (leapfrog cfg_0 prog_g (new_leap nu_e half, tt) st_g 1000000) as [[s1 st1] [[d1 new1]|]] eqn:E1; try discriminate.
  destruct (leapfrog cfg_0 prog_g s1 new1 1000000) as [[s2 st2] [[d2 new2]|]] eqn:E2; try discriminate.
  destruct (leapfrog cfg_0 prog_g (new_leap nu_e half, tt) new1 1000000) as [[s3 st3] [[d3 new3]|]] eqn:E3; try discriminate.
  exists s1, st1, d1, new1, s2, st2, d2, new2, s3, st3, d3, new3. split; [exact reads_g|]. split; auto. split; auto. split; auto. apply w_differs_ok; auto.
Qed.

(** UpdateFrequencyWrapper: the new object calls its component at once. *)
Lemma ex_wrapper_differs : exists (component : unit -> state Qc -> option Z -> unit * res Z) interval st1 st2 w1 w2 w3 o o',
  (forall u st st' ts, same_state st st' -> component u st ts = component u st' ts) /\
  uf_call component interval (new_ufw, tt) st1 None = (w1, Ok (Some o)) /\
  uf_call component interval w1 st2 None = (w2, Ok (Some o)) /\
  uf_call component interval (new_ufw, tt) st2 None = (w3, Ok (Some o')) /\ o <> o'.
Proof.
  exists (fun u st ts => (u, state_time st)), 10%Z, [("time", VTime 0%Z)], [("time", VTime 5%Z)]. do 3 eexists. exists 0%Z, 5%Z. split.
  { intros u st st' ts H. f_equal. apply same_time; auto. }
  split; [reflexivity|]. split; [reflexivity|]. split; [reflexivity|]. discriminate.
Qed.
