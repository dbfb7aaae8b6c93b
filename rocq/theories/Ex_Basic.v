(** Concrete cases for the property theorems about the basic components and wrappers
    (C39-C41, C64). *)
From Coq Require Import String Ascii List Bool Arith ZArith QArith Qcanon Lia.
From Verif Require Import Prelude PreludeFacts ArithM NdArray Units DataArrayM SpecUnits UnitsFacts ExampleRegistry Checks
  SpecArrays SpecDa Tracers Components Composite SpecComposite Steppers SpecSteppers Basic SpecBasic UpdateFreq
  Ex_Components Ex_Composite Ex_Steppers.
Import ListNotations.
Open Scope string_scope.
Open Scope nat_scope.
Open Scope list_scope.

#[local] Existing Instance ex_registry | 5.

(** Runs of stateless programs, computed. *)
Section Drive.
  Context {T : Type} {S : Type}.
  Variables (call : S * unit -> state T -> Z -> (S * unit) * res (stepped T)) (prog : icaller (T:=T) unit) (dt : Z).

  Fixpoint driveu (n : nat) (s : S) (st : state T) : option (list (entry T) * (S * unit)) :=
    match n with
    | 0 => Some ([], (s, tt))
    | Datatypes.S n' =>
        match prog tt st dt, call (s, tt) st dt with
        | (_, Ok (tend, _)), ((s', _), Ok (diag, new)) =>
            match driveu n' s' new with
            | Some (log, sf) => Some (mkentry st tend diag new :: log, sf)
            | None => None
            end
        | _, _ => None
        end
    end.

  Lemma historyu_cons : forall s st tend pdiag s' diag new, prog tt st dt = (tt, Ok (tend, pdiag)) ->
    call (s, tt) st dt = ((s', tt), Ok (diag, new)) -> forall s1 log sf, history call prog dt s1 log sf -> s1 = (s', tt) ->
    history call prog dt (s, tt) (mkentry st tend diag new :: log) sf.
  Proof.
    intros s st tend pdiag s' diag new Hp Hc s1 log sf H. induction H as [s1|s1 log s2 u2 st2 u2' tend2 pdiag2 s2' diag2 new2 H IH Hp2 Hc2]; intros E.
    - subst s1. apply (history_snoc call prog dt (s, tt) [] s tt st tt tend pdiag s' diag new); auto. constructor.
    - rewrite app_comm_cons. eapply history_snoc; eauto.
  Qed.

  Lemma driveu_ok : forall n s st log sf, driveu n s st = Some (log, sf) ->
    history call prog dt (s, tt) log sf /\ length log = n.
  Proof.
    induction n as [|n IH]; intros s st log sf H; cbn [driveu] in H.
    - injection H as <- <-. split; [constructor|auto].
    - destruct (prog tt st dt) as [[] [[tend pdiag]|e]] eqn:Ep; [|discriminate].
      destruct (call (s, tt) st dt) as [[s' []] [[diag new]|e]] eqn:Ec; [|discriminate].
      destruct (driveu n s' new) as [[log1 sf1]|] eqn:Ed; [|discriminate]. injection H as <- <-.
      apply IH in Ed as [Hh Hl]. split; [|simpl; auto]. eapply historyu_cons; eauto.
  Qed.
End Drive.

(** ** Relaxation *)

Definition over_ex (u : string) : res string := Ok (u ++ " s^-1")%string.

Lemma over_ex_law : over_second_law ex_registry over_ex.
Proof. intros u tu x x' H. injection H as <-. intros H1 H2. exact (ex_registry_per_second u _ x x' (or_introl eq_refl) H1 H2). Qed.

Definition st_r : state Qc :=
  [ ("time", VTime 0%Z);
    ("T", VDA (mkda ["x"] (cramp [3]) [("units", "K"); ("note", "n")]));
    ("equilibrium_T", VDA (mkda ["y"; "x"] (mknd [2; 3] (repeat (cz 300) 6)) [("units", "K")]));
    ("T_relaxation_timescale", VDA (mkda [] (mknd [] [cz 2]) [("units", "day")]));
    ("w", VDA (mkda ["y"] (cramp [2]) [("units", "m")])) ].

Definition comp_r (tid : bool) : tcomp :=
  mktcomp true (relaxation_inputs "T" "K") [("T", qprops ["*"] "K s^-1")]
    (if tid then [("T_tendency_from_relax", qprops ["*"] "K s^-1")] else []) "relax" tid
    (if tid then ["T_tendency_from_relax"] else []) None "s^-1".

Definition prog_r (tid : bool) : icaller (T:=Qc) unit :=
  fun w st d => implicit_composite_call [inr (stateless (relaxation_call (comp_r tid) "T"))] d w st.

Definition cfg_r : tstep := mktstep false "step" (relaxation_inputs "T" "K") [] [("T", qprops ["*"] "K")].

Definition run_r (tid : bool) := driveu (adams_bashforth cfg_r (prog_r tid)) (prog_r tid) 3600000000 3 (mkab 1 None []) st_r.

Definition log_rb (log : list (entry Qc)) : bool :=
  forallb (fun e => wf_stateb (e_st e) && nodupb (keys (e_st e))) log.

Lemma log_rb_ok : forall log, log_rb log = true -> forall e, In e log -> wf_state (e_st e) /\ NoDup (keys (e_st e)).
Proof.
  intros log H e He. unfold log_rb in H. rewrite forallb_forall in H. specialize (H e He). apply andb_true_iff in H as [H1 H2].
  split; [apply wf_stateb_ok; auto|apply nodupb_ok; auto].
Qed.

Lemma ex_relaxation_run : forall tid, over_second_law ex_registry over_ex /\ sane_registry ex_registry /\ per_second_law ex_registry /\
  new_relaxation over_ex "T" "K" "relax" tid = Ok (comp_r tid) /\
  exists log s, history (adams_bashforth cfg_r (prog_r tid)) (prog_r tid) 3600000000 (mkab 1 None [], tt) log s /\ length log = 3 /\
    (forall e, In e log -> wf_state (e_st e) /\ NoDup (keys (e_st e))) /\
    map (fun e => match dget "T" (e_new e) with Some (VDA a) => (dims a, hd 0%Qc (data (arr a))) | _ => ([], 0%Qc) end) log =
      [(["x"; "y"], Q2Qc (25 # 4)); (["x"; "y"], Q2Qc (2375 # 192)); (["x"; "y"], Q2Qc (169225 # 9216))].
Proof.
  intros tid. split; [apply over_ex_law|]. split; [apply ex_registry_sane|]. split; [apply ex_registry_per_second|].
  split; [destruct tid; reflexivity|].
  assert (Hr : match run_r tid with Some (log, _) => log_rb log &&
     (fix eqb (l1 l2 : list (list string * Qc)) := match l1, l2 with
        | [], [] => true | (d1, v1) :: r1, (d2, v2) :: r2 => (if list_eq_dec string_dec d1 d2 then true else false) && Qc_eqb v1 v2 && eqb r1 r2
        | _, _ => false end)
       (map (fun e => match dget "T" (e_new e) with Some (VDA a) => (dims a, hd 0%Qc (data (arr a))) | _ => ([], 0%Qc) end) log)
       [(["x"; "y"], Q2Qc (25 # 4)); (["x"; "y"], Q2Qc (2375 # 192)); (["x"; "y"], Q2Qc (169225 # 9216))] | None => false end = true).
  { destruct tid; vm_compute; reflexivity. }
  destruct (run_r tid) as [[log s]|] eqn:E; [|discriminate Hr]. exists log, s.
  apply driveu_ok in E as [Hh Hl]. apply andb_true_iff in Hr as [Hr1 Hr2].
  split; auto. split; auto. split; [apply log_rb_ok; auto|].
  revert Hr2. generalize (map (fun e : entry Qc => match dget "T" (e_new e) with Some (VDA a) => (dims a, hd 0%Qc (data (arr a))) | _ => ([], 0%Qc) end) log).
  generalize [(["x"; "y"], Q2Qc (25 # 4)); (["x"; "y"], Q2Qc (2375 # 192)); (["x"; "y"], Q2Qc (169225 # 9216))].
  clear. intros l2 l1; revert l2. induction l1 as [|[d1 v1] l1 IH]; intros [|[d2 v2] l2] H; auto; try discriminate H.
  apply andb_true_iff in H as [H H3]. apply andb_true_iff in H as [H1 H2].
  destruct (list_eq_dec string_dec d1 d2); [|discriminate H1]. apply Qc_eqb_eq in H2. subst. f_equal. auto.
Qed.

Lemma ex_relaxation_returns : exists x e s : da Qc, wf_state st_r /\ dget "T" st_r = Some (VDA x) /\
  dget ("equilibrium_" ++ "T") st_r = Some (VDA e) /\ dget ("T" ++ "_relaxation_timescale") st_r = Some (VDA s) /\
  convertible x "K" /\ convertible e "K" /\ convertible s "s" /\ same_sizes [x; e; s].
Proof.
  do 3 eexists. split; [apply wf_stateb_ok; reflexivity|]. split; [reflexivity|]. split; [reflexivity|]. split; [reflexivity|].
  repeat match goal with |- _ /\ _ => split end.
  1-3: do 3 eexists; repeat (split; [reflexivity|]); reflexivity.
  intros a b Ha Hb d n m Hn Hm. cbn [In] in Ha, Hb. unfold dim_len in Hn, Hm.
  destruct Ha as [<-|[<-|[<-|[]]]], Hb as [<-|[<-|[<-|[]]]]; cbn [dims arr shape cramp combine dget] in Hn, Hm;
    repeat match type of Hn with context [String.eqb d ?k] => destruct (String.eqb d k) eqn:?; [idtac|] end;
    repeat match goal with H : String.eqb d _ = true |- _ => apply String.eqb_eq in H; subst d end; cbn in Hm; congruence.
Qed.

(** ** Time differencing *)

(** A Stepper that doubles [a] and gives it in grams, and counts its calls. *)
Definition stepper_d : nat -> state Qc -> Z -> nat * res (stepped Qc) := fun n st _ =>
  (S n, match dget "a" st with
        | Some (VDA a) =>
            match to_units a "g" with
            | Ok g => if wf_dab g then Ok ([("d", mkda [] (cramp []) [("units", "K")])],
                                           [("a", VDA (da_map (fun v => (v + v)%Qc) (attrs g) g)); ("time", VTime 7)]) else Err EValue
            | Err e => Err e
            end
        | _ => Err EKey
        end).

Definition outp_d : pdict := [("a", qprops ["x"] "kg")].

Definition prog_d : icaller (T:=Qc) nat :=
  fun w st d => implicit_composite_call [inl (differencing_call outp_d stepper_d)] d w st.

Lemma stepper_d_proper : forall u st dt u' diag new, stepper_d u st dt = (u', Ok (diag, new)) -> proper_state new.
Proof.
  intros u st dt u' diag new H. unfold stepper_d in H. destruct (dget "a" st) as [[a|]|]; try discriminate H.
  destruct (to_units a "g") as [g|]; [|discriminate H]. destruct (wf_dab g) eqn:E; [|discriminate H].
  injection H as _ _ <-. apply wf_dab_ok in E. split; [apply nodupb_ok; reflexivity|].
  intros X b. cbn [dget]. destruct (String.eqb X "a"); [|destruct (String.eqb X "time"); discriminate].
  intros Hb; injection Hb as <-. apply (DaFacts.wf_da_map (fun v => (v + v)%Qc) (attrs g) g E).
Qed.

Definition st_d : state Qc :=
  [ ("time", VTime 0%Z); ("a", VDA (mkda ["x"] (cramp [3]) [("units", "kg")])); ("w", VDA (mkda ["y"] (cramp [2]) [("units", "m")])) ].

Definition cfg_d : tstep := mktstep false "step" [("a", qprops ["x"] "kg")] [("d", qprops [] "K")] outp_d.

Definition run_d := drive (adams_bashforth cfg_d prog_d) prog_d 10000000 (repeat (fun st => dset "time" (VTime 0) st) 3) (mkab 1 None []) 0 st_d.

Lemma ex_differencing_run :
  (forall u st dt u' diag new, stepper_d u st dt = (u', Ok (diag, new)) -> proper_state new) /\
  exists log s, history (adams_bashforth cfg_d prog_d) prog_d 10000000 (mkab 1 None [], 0) log s /\ length log = 3 /\
    (forall e, In e log -> proper_state (e_st e)) /\
    forallb (fun e => match dget "a" (e_st e), dget "a" (e_tend e), dget "a" (e_new e) with
                      | Some (VDA a), Some t, Some (VDA b) => Qc_eqb (da_at b (fun _ => 2)) (da_at a (fun _ => 2) + da_at a (fun _ => 2))%Qc &&
                          Qc_eqb (da_at t (fun _ => 2) * cz 10)%Qc (da_at a (fun _ => 2)) && negb (Qc_eqb (da_at a (fun _ => 2)) 0%Qc)
                      | _, _, _ => false
                      end) log = true.
Proof.
  split; [apply stepper_d_proper|].
  assert (Hr : match run_d with Some (log, _) => forallb (fun e => proper_stateb (e_st e)) log &&
    forallb (fun e => match dget "a" (e_st e), dget "a" (e_tend e), dget "a" (e_new e) with
                      | Some (VDA a), Some t, Some (VDA b) => Qc_eqb (da_at b (fun _ => 2)) (da_at a (fun _ => 2) + da_at a (fun _ => 2))%Qc &&
                          Qc_eqb (da_at t (fun _ => 2) * cz 10)%Qc (da_at a (fun _ => 2)) && negb (Qc_eqb (da_at a (fun _ => 2)) 0%Qc)
                      | _, _, _ => false
                      end) log | None => false end = true) by (vm_compute; reflexivity).
  destruct run_d as [[log s]|] eqn:E; [|discriminate Hr]. exists log, s. apply drive_ok in E as [Hh Hl].
  rewrite repeat_length in Hl. apply andb_true_iff in Hr as [H1 H2]. split; auto. split; auto. split; auto.
  intros e He. rewrite forallb_forall in H1. apply proper_stateb_ok; auto.
Qed.

Lemma ex_differencing_declared : exists tp, differencing_tendencies outp_d = Ok tp /\ keys tp = ["a"] /\ proper_state st_d.
Proof. eexists. split; [reflexivity|]. split; [reflexivity|]. apply proper_stateb_ok. vm_compute. reflexivity. Qed.

Lemma ex_differencing_missing : exists new b, stepper_d 0 st_d 1 = (1, Ok ([("d", mkda [] (cramp []) [("units", "K")])], new)) /\
  In ("a", VDA b) new /\ In "a" (keys outp_d).
Proof. do 2 eexists. split; [reflexivity|]. split; [left; reflexivity|left; reflexivity]. Qed.

(** ** Update frequency *)

(** Counts its successful calls; refuses a timestep of 1; fails at time 5. *)
Definition comp_u : nat -> state Qc -> option Z -> nat * res nat := fun n st ts =>
  match ts, dget "time" st with
  | Some 1%Z, _ => (n, Err EType)
  | _, Some (VTime 5) => (n, Err EValue)
  | _, _ => (S n, Ok n)
  end.

Definition st_u (t : Z) : state Qc := [("time", VTime t)].

Fixpoint driveuf (w : ufw nat) (n : nat) (l : list (Z * option Z)) : list (ucall nat) * (ufw nat * nat) :=
  match l with
  | [] => ([], (w, n))
  | (t, ts) :: r =>
      match uf_call (recording comp_u) 3 (w, (n, [])) (st_u t) ts with
      | ((w', (n', tried)), out) => let (log, s) := driveuf w' n' r in (mkucall t ts tried out :: log, s)
      end
  end.

Lemma uhistory_cons : forall {T O U : Type} (call : ufw O * (U * list (option Z * res O)) -> state T -> option Z ->
      (ufw O * (U * list (option Z * res O))) * res (option O)) w u st t ts w' u' tried out,
  dget "time" st = Some (VTime t) -> call (w, (u, [])) st ts = ((w', (u', tried)), out) ->
  forall s1 log s, uhistory call s1 log s -> s1 = (w', u') -> uhistory call (w, u) (mkucall t ts tried out :: log) s.
Proof.
  intros T O U call w u st t ts w' u' tried out Ht Hc s1 log s H.
  induction H as [s1|s1 log w2 u2 st2 t2 ts2 w2' u2' tried2 out2 H IH Ht2 Hc2]; intros E.
  - subst s1. apply (uhistory_snoc call (w, u) [] w u st t ts w' u' tried out); auto. constructor.
  - rewrite app_comm_cons. eapply uhistory_snoc; eauto.
Qed.

Lemma driveuf_ok : forall l w n, uhistory (uf_call (recording comp_u) 3) (w, n) (fst (driveuf w n l)) (snd (driveuf w n l)).
Proof.
  induction l as [|[t ts] l IH]; intros w n; [constructor|]. cbn [driveuf].
  destruct (uf_call (recording comp_u) 3 (w, (n, [])) (st_u t) ts) as [[w' [n' tried]] out] eqn:E.
  specialize (IH w' n'). destruct (driveuf w' n' l) as [log s]. cbn [fst snd] in *.
  eapply uhistory_cons; eauto. reflexivity.
Qed.

Lemma ex_update_run : uhistory (uf_call (recording comp_u) 3) (new_ufw, 0)
  [ mkucall 1 (Some 2%Z) [(Some 2%Z, Ok 0)] (Ok (Some 0)); mkucall 3 (Some 2%Z) [] (Ok (Some 0));
    mkucall 5 None [(None, Err EValue)] (Err EValue); mkucall 2 None [] (Ok (Some 0));
    mkucall 4 (Some 1%Z) [(Some 1%Z, Err EType); (None, Ok 1)] (Ok (Some 1)); mkucall 6 None [] (Ok (Some 1));
    mkucall 8 None [(None, Ok 2)] (Ok (Some 2)) ] (mkufw (Some 2) (Some 8%Z), 3).
Proof. exact (driveuf_ok [(1, Some 2); (3, Some 2); (5, None); (2, None); (4, Some 1); (6, None); (8, None)]%Z new_ufw 0). Qed.

(** A timestep of 2 and an interval of 5: every third call computes. *)
Definition comp_w (u : nat) (st : state Qc) (ts : option Z) : nat * res nat := (S u, Ok u).
Definition log_r : list (ucall nat) :=
  [ mkucall 1 None [(None, Ok 0)] (Ok (Some 0)); mkucall 3 None [] (Ok (Some 0)); mkucall 5 None [] (Ok (Some 0));
    mkucall 7 None [(None, Ok 1)] (Ok (Some 1)); mkucall 9 None [] (Ok (Some 1)) ].

Lemma ex_regular : uhistory (uf_call (recording comp_w) 5) (new_ufw, 0) log_r (mkufw (Some 1) (Some 7%Z), 2) /\
  (forall k e, nth_error log_r k = Some e -> uc_time e = (1 + Z.of_nat k * 2)%Z /\ exists o, uc_out e = Ok o) /\
  (5 <= Z.of_nat 3 * 2)%Z /\ (Z.of_nat (3 - 1) * 2 < 5)%Z.
Proof.
  split; [|split; [|split; reflexivity || discriminate]].
  - unfold log_r.
    eapply uhistory_cons with (st := st_u 1) (w' := (mkufw (Some 0) (Some 1%Z))) (u' := 1); [reflexivity|reflexivity| |reflexivity].
    eapply uhistory_cons with (st := st_u 3) (w' := (mkufw (Some 0) (Some 1%Z))) (u' := 1); [reflexivity|reflexivity| |reflexivity].
    eapply uhistory_cons with (st := st_u 5) (w' := (mkufw (Some 0) (Some 1%Z))) (u' := 1); [reflexivity|reflexivity| |reflexivity].
    eapply uhistory_cons with (st := st_u 7) (w' := (mkufw (Some 1) (Some 7%Z))) (u' := 2); [reflexivity|reflexivity| |reflexivity].
    eapply uhistory_cons with (st := st_u 9) (w' := (mkufw (Some 1) (Some 7%Z))) (u' := 2); [reflexivity|reflexivity| |reflexivity].
    constructor.
  - intros k e. do 5 (destruct k as [|k]; [intros E; injection E as <-; split; [reflexivity|eexists; reflexivity]|]). destruct k; discriminate.
Qed.

(** The component is not called exactly once when due. *)
Lemma called_twice : exists (component : nat -> state Qc -> option Z -> nat * res nat) interval st ts w' u' tried out,
  uf_call (recording component) interval (new_ufw, (0, [])) st ts = ((w', (u', tried)), out) /\ length tried = 2.
Proof. exists comp_u, 3%Z, (st_u 0), (Some 1%Z). do 4 eexists. split; reflexivity. Qed.

(** The time may differ from that of the last update by more than the interval. *)
Lemma backwards : exists (component : nat -> state Qc -> option Z -> nat * res nat) interval s1 s2 t0 t1 tried out,
  uhistory (uf_call (recording component) interval) (new_ufw, 0) s1 s2 /\ last_update s1 = Some (t0, 0) /\
  (interval < Z.abs (t0 - t1))%Z /\
  uf_call (recording component) interval (fst s2, (snd s2, [])) (st_u t1) None = ((fst s2, (snd s2, tried)), out) /\ tried = [].
Proof.
  exists comp_u, 3%Z, [mkucall 100 None [(None, Ok 0)] (Ok (Some 0))], (mkufw (Some 0) (Some 100%Z), 1), 100%Z, 1%Z. do 2 eexists.
  split; [exact (driveuf_ok [(100, None)]%Z new_ufw 0)|]. repeat split.
Qed.

(** ** Constants *)

Definition const_t : dict (da Qc) :=
  [("T", mkda ["x"] (cramp [3]) [("units", "K s^-1"); ("note", "n")]); ("w", mkda ["y"; "x"] (cramp [2; 5]) [("units", "m")])].
Definition const_d : dict (da Qc) := [("d", mkda [] (cramp []) [("units", "K")])].

Definition constantsb (d : dict (da Qc)) : bool :=
  nodupb (keys d) && forallb (fun na => wf_dab (snd na) && negb (mem "*" (dims (snd na))) &&
     match units_of (snd na) with Some _ => true | None => false end) d.

Lemma constantsb_ok : forall d, constantsb d = true -> constants d.
Proof.
  intros d H. apply andb_true_iff in H as [H1 H2]. split; [apply nodupb_ok; auto|]. intros X a Hi.
  rewrite forallb_forall in H2. specialize (H2 _ Hi). cbn [snd] in H2. apply andb_true_iff in H2 as [H2 H4].
  apply andb_true_iff in H2 as [H2 H3]. split; [apply wf_dab_ok; auto|]. split; [apply mem_false, negb_true_iff; auto|].
  destruct (units_of a); [eauto|discriminate H4].
Qed.

Lemma ex_constants : constants const_t /\ constants const_d /\
  (exists c, new_constant_tendency const_t const_d "c" false = Ok c) /\ exists c, new_constant_diagnostic const_d = Ok c.
Proof.
  split; [apply constantsb_ok; reflexivity|]. split; [apply constantsb_ok; reflexivity|].
  split; apply is_ok_ex; reflexivity.
Qed.
