(** Concrete cases for C82. *)
From Coq Require Import String List Bool Arith ZArith QArith Qcanon.
From Verif Require Import Prelude PreludeFacts ArithM NdArray Units DataArrayM ExampleRegistry Checks Tracers Components Composite Steppers Basic MainLoop
  SpecComponents SpecCalls SpecSteppers SpecLocal LocalMain LeapLoop LocalRuns Ex_Arrays Ex_Components Ex_Steppers.
Import ListNotations.
Open Scope string_scope.
Open Scope nat_scope.
Open Scope list_scope.

#[local] Existing Instance ex_registry | 5.

Definition names_x : list string := ["time"; "T"; "wind"; "speed"].
Definition cs_x : list (tcomp * (Z -> nat -> dict (rval Qc) -> nat * res (dict (nd Qc) * dict (nd Qc)))) := [(c_t false, fun _ => ac_t)].
Definition prog_x : icaller (T:=Qc) nat := called empty_treg cs_x.
Definition cfg_x : tstep := mktstep true "step" inp_c diag_c [("T", qprops ["z"; "*"] "K")].
(** More quantities, one of them with the dimensions of others in another length. *)
Definition st_x : state Qc := ("tracer", VDA (mkda ["z"; "q"] (cramp [5; 2]) [("units", "kg")])) :: st_c ++ [("extra", VDA (scalar 3 "m"))].

Lemma ex_uses : forall ca, In ca cs_x -> uses names_x empty_treg (fst ca).
Proof.
  intros ca [<-|[]]. split; [left; reflexivity|]. split; [|split]; intros n Hn; vm_compute in Hn |- *; intuition.
Qed.

Lemma ex_x_local : reads names_x prog_x /\ changes names_x prog_x /\ incl (keys (ts_out cfg_x)) names_x.
Proof.
  destruct (main_local_components names_x empty_treg cs_x ex_uses) as [K1 K2]. split; [exact K1|]. split; [exact K2|].
  intros n Hn; vm_compute in Hn |- *; intuition.
Qed.

Lemma ex_x_agree : agree_on names_x st_c st_x /\ dget "extra" st_c = None.
Proof. split; [|vm_compute; reflexivity]. intros n Hn. cbn in Hn. intuition; subst; vm_compute; reflexivity. Qed.

Definition plainb (names : list string) (st : state Qc) : bool :=
  nodupb (keys st) && forallb (fun kv => match snd kv with VTime _ => String.eqb (fst kv) "time" | VDA a => wf_dab a end) st.

Lemma plainb_ok : forall names st, plainb names st = true -> plain names st.
Proof.
  intros names st H. apply andb_true_iff in H as [H1 H2]. apply nodupb_ok in H1. rewrite forallb_forall in H2. split; [auto|]. split.
  - intros X t E. apply dget_In in E. apply H2 in E. cbn in E. apply String.eqb_eq. auto.
  - intros X a _ E. apply dget_In in E. apply H2 in E. cbn in E. apply wf_dab_ok. auto.
Qed.

Lemma ex_x_plain : plain names_x st_c /\ plain names_x st_x.
Proof. split; apply plainb_ok; vm_compute; reflexivity. Qed.

(** Three calls of each scheme succeed. *)
Definition calls_x (st : state Qc) : list (state Qc * Z) := [(st, 1000000%Z); (st, 1000000%Z); (st, 1000000%Z)].
Definition leap_x (s : leap Qc * nat) (st : state Qc) (dt : Z) : (leap Qc * nat) * (state Qc * res (stepped Qc)) :=
  let '(s', st', r) := leapfrog cfg_x prog_x s st dt in (s', (st', r)).

Lemma ex_x_calls : same_calls names_x (calls_x st_c) (calls_x st_x) /\
  map is_ok (snd (trace (adams_bashforth cfg_x prog_x) (mkab 3 None [], 0) (calls_x st_x))) = [true; true; true] /\
  map is_ok (snd (trace (ssp_rk cfg_x prog_x) (mkrk 3 (mkab 1 None []), 0) (calls_x st_x))) = [true; true; true] /\
  map (fun o => is_ok (snd o)) (snd (trace leap_x (new_leap nu_e half, 0) (calls_x st_x))) = [true; true; true].
Proof.
  split; [|vm_compute; auto]. repeat constructor; cbn [fst snd]; try reflexivity; apply ex_x_agree.
Qed.

(** A run of three passes with each. *)
Definition run_x (st : state Qc) : ((nat * (ab Qc * nat)) * list (state Qc)) * option (res (state Qc)) :=
  main_loop 9 (map beside [adams_bashforth cfg_x prog_x]) (fun x S0 => ((Datatypes.S (fst x), snd x), Ok tt)) 3000000 1000000 (0, (mkab 2 None [], 0)) st.
Lemma ex_x_run : length (snd (fst (run_x st_c))) = 3 /\ length (snd (fst (run_x st_x))) = 3 /\
  option_map is_ok (snd (run_x st_c)) = Some true /\ option_map is_ok (snd (run_x st_x)) = Some true.
Proof. vm_compute. auto. Qed.

(** Leapfrog first and AdamsBashforth after it, three passes. *)
Definition lrun_x (st : state Qc) : ((leap Qc * nat) * (ab Qc * nat) * list (state Qc)) * option (res (state Qc)) :=
  leap_main_loop 9 cfg_x prog_x [adams_bashforth cfg_x prog_x] (fun v _ => (v, Ok tt)) 3000000 1000000 (new_leap nu_e half, 0) (mkab 2 None [], 0) st.
Lemma ex_x_leap_run : (exists rel, rel (mkab 2 None [], 0) (mkab 2 None [], 0) /\
    forall p, In p [adams_bashforth cfg_x prog_x] -> respects (fun _ => True) rel names_x 1000000 p) /\
  length (snd (fst (lrun_x st_c))) = 3 /\ length (snd (fst (lrun_x st_x))) = 3 /\
  option_map is_ok (snd (lrun_x st_c)) = Some true /\ option_map is_ok (snd (lrun_x st_x)) = Some true.
Proof.
  split; [|vm_compute; auto]. destruct ex_x_local as (H1 & H2 & H3).
  destruct (main_local_process_ab names_x cfg_x prog_x (OInt 2) (mkab 2 None []) 0 H1 H2 H3 eq_refl) as (rel & Hr & Hp).
  exists rel. split; [exact Hr|]. intros p [<-|[]]. apply Hp.
Qed.

(** The Stepper of Ex_Components, and a state with one more quantity. *)
Lemma ex_x_stepper : In "time" ("q" :: names_x) /\ incl (keys (s_inp (c_s 1000000))) ("q" :: names_x) /\ incl (read_tracers empty_treg (s_packer (c_s 1000000))) ("q" :: names_x) /\
  agree_on ("q" :: names_x) st_s (dset "extra" (VDA (scalar 3 "m")) st_s) /\ dget "extra" st_s = None /\
  is_ok (snd (stepper_process empty_treg (c_s 1000000) ac_s 0 st_s 10000000%Z)) = true.
Proof.
  split; [right; left; reflexivity|]. split; [|split; [|split; [|split; vm_compute; reflexivity]]].
  - intros k Hk. vm_compute in Hk. vm_compute. intuition subst; auto 10.
  - intros k Hk. vm_compute in Hk. contradiction.
  - intros k Hk. symmetry. apply dget_dset_neq. intros ->. vm_compute in Hk. intuition discriminate.
Qed.

(** One more datetime in the state. *)
Lemma err_of : forall {B} (r : res B), is_ok r = false -> exists e, r = Err e.
Proof. intros B [b|e] H; [discriminate|eauto]. Qed.

Lemma datetime_breaks_rk : exists (prog : icaller (T:=Qc) nat) names k st X t dt e,
  new_rk (T:=Qc) 3 = Ok k /\ reads names prog /\ changes names prog /\ plain names st /\ ~ In X names /\ dget X st = None /\
  is_ok (snd (ssp_rk cfg_0 prog (k, 0) st dt)) = true /\ snd (ssp_rk cfg_0 prog (k, 0) (dset X (VTime t) st) dt) = Err e.
Proof.
  destruct (err_of (snd (ssp_rk cfg_0 prog_x (mkrk 3 (mkab 1 None []), 0) (dset "start_time" (VTime 0%Z) st_c) 1000000%Z))) as (e & He); [vm_compute; reflexivity|].
  exists prog_x, names_x, (mkrk 3 (mkab 1 None [])), st_c, "start_time", 0%Z, 1000000%Z, e.
  split; [reflexivity|]. split; [apply ex_x_local|]. split; [apply ex_x_local|]. split; [apply ex_x_plain|].
  split; [vm_compute; intuition congruence|]. split; [vm_compute; reflexivity|]. split; [vm_compute; reflexivity|exact He].
Qed.
