(** Concrete cases for the property theorems about what composites and time steppers return (C84). *)
From Coq Require Import String List Bool Arith ZArith QArith Qcanon Lia Permutation.
From Verif Require Import Prelude PreludeFacts ArithM NdArray NdFacts Units DataArrayM SpecDa SpecUnits SpecArrays Wildcard GetNp ExtractFacts
  ExampleRegistry Checks Tracers SpecTracers Components SpecComponents SpecCalls CallFacts Composite SpecComposite Steppers SpecSteppers SpecNested SpecInputs InputsFacts
  Ex_Components Ex_Composite Ex_Tracers Ex_Steppers Ex_Inputs SpecReturns ReturnsFacts.
Import ListNotations.
Open Scope string_scope.
Open Scope nat_scope.
Open Scope list_scope.

#[local] Existing Instance ex_registry | 5.

(** ** Decidable hypotheses *)

Definition same_names (a b : list string) : bool := forallb (fun k => mem k b) a && forallb (fun k => mem k a) b.

Definition deliversb {T} (outp : pdict) (extra : list string) (out : dict (da T)) : bool :=
  same_names (keys out) (keys outp ++ extra) &&
  forallb (fun k => mem k extra ||
    match dget k outp, dget k out with
    | Some p, Some q => match p_units p, units_of q with Some u, Some u' => String.eqb u u' | _, _ => false end
    | _, _ => true
    end) (keys outp).

Lemma deliversb_ok : forall {T} outp extra (out : dict (da T)), deliversb outp extra out = true -> delivers outp extra out.
Proof.
  intros T outp extra out H. unfold deliversb, same_names in H. apply andb_true_iff in H. destruct H as (H & H3). apply andb_true_iff in H. destruct H as (H1 & H2).
  rewrite forallb_forall in H1, H2, H3. split.
  - intros X. rewrite <- in_app_iff. split; intros HX; apply mem_In; auto.
  - intros X p q Hp Hn Hq. assert (HX : In X (keys outp)) by (apply (dget_In_keys X p); exact Hp). specialize (H3 X HX).
    rewrite Hp, Hq in H3. apply orb_true_iff in H3. destruct H3 as [H3|H3]; [exfalso; apply Hn; apply mem_In; exact H3|].
    destruct (p_units p) as [u|]; [|discriminate]. destruct (units_of q) as [u'|]; [|discriminate]. apply String.eqb_eq in H3. subst. eauto.
Qed.

Definition returnsb (p : cprops) (trs : list string) (r : res (dict (da Qc) * dict (da Qc))) : bool :=
  match r with
  | Ok (t, d) => properb t && nodupb (keys d) && deliversb (cp_tend p) trs t && deliversb (cp_diag p) [] d
  | Err _ => true
  end.

Lemma keeps_ok : forall {U} (st : state Qc) (c : comp_obj Qc U),
  (forall dt u, returnsb (o_props c) (o_tracers c) (snd (call_at dt (o_call c) u st)) = true) -> keeps st c.
Proof.
  intros U st c H dt u u' t d Hc. specialize (H dt u). rewrite Hc in H. cbn [snd returnsb] in H.
  do 3 (apply andb_true_iff in H; destruct H as [H ?]).
  split; [apply properb_ok; exact H|]. split; [apply nodupb_ok; assumption|]. split; apply deliversb_ok; assumption.
Qed.

(** ** A component with tracers and an implicit one that shares a tendency with it *)

Definition ac_r1 (n : nat) (raw : dict (rval Qc)) : nat * res (dict (nd Qc) * dict (nd Qc)) :=
  (S n, Ok ([("tracers", nd_map (fun x => (x + x)%Qc) (get_arr "tracers" raw)); ("temperature", get_arr "temperature" raw)], [])).
Definition ac_r2 (n : nat) (raw : dict (rval Qc)) : nat * res (dict (nd Qc) * dict (nd Qc)) :=
  (S n, Ok ([("temperature", get_arr "temperature" raw)], [("heat", get_arr "temperature" raw)])).
Definition k_r2 : tcomp := mktcomp true [("temperature", qprops ["z"; "*"] "K")] [("temperature", qprops ["z"; "*"] "K day^-1")] [("heat", qprops ["z"; "*"] "J")] "b" false [] None "s^-1".
Definition cs_r : list (comp_obj Qc nat) :=
  [ mkcomp (seen c_i1) ["vapour"; "soot"; "ash"] (inr (tendency_call g_tr c_i1 ac_r1));
    mkcomp (seen k_r2) [] (inl (fun u st dt => tendency_call g_tr k_r2 ac_r2 u st)) ].
Definition made_r : list (bool * cprops) := map (fun c => (true, o_props c)) cs_r.
Definition comp_r : tcomp := match make_tendency_composite (fun l => l) true g_tr made_r with Ok c => c | Err _ => c_i1 end.
Definition cfg_r : tstep := match make_tstep (fun l => l) ex_clean g_tr made_r "step" true with Ok c => c | Err _ => mktstep false "" [] [] [] end.

Lemma cs_r_keeps : forall c, In c cs_r -> keeps st_tr c.
Proof. intros c [<-|[<-|[]]]; apply keeps_ok; intros dt u; vm_compute; reflexivity. Qed.

Lemma ex_returns : (forall l : list string, NoDup l -> Permutation ((fun l => l) l) l) /\
  make_tendency_composite (fun l => l) true g_tr (map (fun c => (true, o_props c)) cs_r) = Ok comp_r /\
  keys (t_tend comp_r) = ["temperature"] /\ keys (t_diag comp_r) = ["heat"] /\
  known (tends cs_r) /\ dictionaries cs_r /\ apart cs_r /\ (forall c, In c cs_r -> keeps st_tr c) /\
  exists u' t d, implicit_composite_call (map o_call cs_r) 1000000%Z 0 st_tr = (u', Ok (t, d)) /\ keys t = ["soot"; "ash"; "vapour"; "temperature"].
Proof.
  split; [auto|]. split; [vm_compute; reflexivity|]. split; [vm_compute; reflexivity|]. split; [vm_compute; reflexivity|].
  split; [apply knownb_ok; vm_compute; reflexivity|].
  split. { intros c [<-|[<-|[]]]; apply nodupb_ok; reflexivity. }
  split. { intros c c' X [<-|[<-|[]]] [<-|[<-|[]]] HX Hk; cbn in HX, Hk; intuition (subst; discriminate). }
  split; [exact cs_r_keeps|].
  assert (E : match snd (implicit_composite_call (map o_call cs_r) 1000000%Z 0 st_tr) with Ok (t, d) => keys t = ["soot"; "ash"; "vapour"; "temperature"] | Err _ => False end) by (vm_compute; reflexivity).
  destruct (implicit_composite_call (map o_call cs_r) 1000000%Z 0 st_tr) as (u', [(t, d)|e]); [|destruct E]. exists u', t, d. auto.
Qed.

(** ** Two steps of a stepper of them *)

Definition run_r : option (list (entry Qc) * (ab Qc * nat)) :=
  drive (adams_bashforth cfg_r (all_of cs_r)) (all_of cs_r) 1000000 [fun _ => st_tr; fun _ => st_tr] (mkab 2 None []) 0 st_tr.

Lemma ex_returns_run : make_tstep (fun l => l) ex_clean g_tr (map (fun c => (true, o_props c)) cs_r) "step" true = Ok cfg_r /\
  keys (ts_out cfg_r) = ["temperature"] /\ keys (ts_diag cfg_r) = ["heat"; "temperature_tendency_from_step"] /\
  exists a log s, new_ab (T:=Qc) (OInt 2) = Ok a /\ history (adams_bashforth cfg_r (all_of cs_r)) (all_of cs_r) 1000000 (a, 0) log s /\
    wf_log log /\ length log = 2 /\ forall e c, In e log -> In c cs_r -> keeps (e_st e) c.
Proof.
  split; [vm_compute; reflexivity|]. split; [vm_compute; reflexivity|]. split; [vm_compute; reflexivity|].
  exists (mkab 2 None []).
  assert (E : match run_r with Some (log, _) => map e_st log = [st_tr; st_tr] /\ forallb (fun e => proper_stateb (e_st e) && properb (e_tend e)) log = true | None => False end).
  { vm_compute. split; reflexivity. }
  destruct run_r as [(log, s)|] eqn:Er; [|destruct E]. destruct E as (E1 & E2). unfold run_r in Er. apply drive_ok in Er. destruct Er as (Hh & Hl).
  exists log, s. split; [reflexivity|]. split; [exact Hh|]. split; [|split; [exact Hl|]].
  - intros e He. rewrite forallb_forall in E2. apply E2 in He. apply andb_true_iff in He. destruct He as (H1 & H2). split; [apply proper_stateb_ok; exact H1|apply properb_ok; exact H2].
  - intros e c He Hc. assert (Hs : In (e_st e) [st_tr; st_tr]) by (rewrite <- E1; apply in_map; exact He).
    assert (Es : e_st e = st_tr) by (destruct Hs as [<-|[<-|[]]]; reflexivity). rewrite Es. apply cs_r_keeps. exact Hc.
Qed.

(** Leapfrog: three steps of the component without tracers. *)
Definition k_l : tcomp := mktcomp true [("temperature", qprops ["z"; "*"] "K")] [("temperature", qprops ["z"; "*"] "K s^-1")] [("heat", qprops ["z"; "*"] "J")] "b" false [] None "s^-1".
Definition cs_l : list (comp_obj Qc nat) := [mkcomp (seen k_l) [] (inl (fun u st dt => tendency_call g_tr k_l ac_r2 u st))].
Definition cfg_l : tstep := match make_tstep (fun l => l) ex_clean g_tr (map (fun c => (true, o_props c)) cs_l) "step" true with Ok c => c | Err _ => mktstep false "" [] [] [] end.
Definition lrun_r : option (list (lentry Qc) * (leap Qc * nat)) :=
  ldrive cfg_l (all_of cs_l) 1000000 (repeat (fun _ => st_tr) 3) (new_leap nu_e half) 0 st_tr.

Lemma ex_returns_leap : make_tstep (fun l => l) ex_clean g_tr (map (fun c => (true, o_props c)) cs_l) "step" true = Ok cfg_l /\
  known (tends cs_l) /\ dictionaries cs_l /\ apart cs_l /\
  exists log s, lhistory cfg_l (all_of cs_l) 1000000 (new_leap nu_e half, 0) log s /\
    wf_llog log /\ length log = 3 /\ forall e c, In e log -> In c cs_l -> keeps (l_st e) c.
Proof.
  split; [vm_compute; reflexivity|]. split; [apply knownb_ok; vm_compute; reflexivity|].
  split. { intros c [<-|[]]; apply nodupb_ok; reflexivity. }
  split. { intros c c' X [<-|[]] _ []. }
  assert (E : match lrun_r with Some (log, _) => map l_st log = [st_tr; st_tr; st_tr] /\ forallb (fun e => proper_stateb (l_st e) && properb (l_tend e)) log = true | None => False end).
  { vm_compute. split; reflexivity. }
  destruct lrun_r as [(log, s)|] eqn:Er; [|destruct E]. destruct E as (E1 & E2). unfold lrun_r in Er. apply ldrive_ok in Er. destruct Er as (Hh & Hl).
  exists log, s. split; [exact Hh|]. split; [|split; [exact Hl|]].
  - intros e He. rewrite forallb_forall in E2. apply E2 in He. apply andb_true_iff in He. destruct He as (H1 & H2). split; [apply proper_stateb_ok; exact H1|apply properb_ok; exact H2].
  - intros e c He Hc. assert (Hs : In (l_st e) [st_tr; st_tr; st_tr]) by (rewrite <- E1; apply in_map; exact He).
    assert (Es : l_st e = st_tr) by (destruct Hs as [<-|[<-|[<-|[]]]]; reflexivity). rewrite Es. destruct Hc as [<-|[]]. apply keeps_ok. intros dt u. vm_compute. reflexivity.
Qed.

(** SSPRungeKutta: a component that always returns the same. *)
Definition t_f : dict (da Qc) := [("temperature", mkda ["z"] (cramp [2]) [("units", "K s^-1")])].
Definition d_f : dict (da Qc) := [("heat", mkda ["z"] (cramp [2]) [("units", "J")])].
Definition cs_f : list (comp_obj Qc nat) := [mkcomp (seen k_l) [] (inr (fun u st => (S u, Ok (t_f, d_f))))].

Lemma ex_returns_rk : make_tstep (fun l => l) ex_clean g_tr (map (fun c => (true, o_props c)) cs_f) "step" true = Ok cfg_l /\
  known (tends cs_f) /\ dictionaries cs_f /\ apart cs_f /\ proper_components (all_of cs_f) /\ proper_state st_tr /\
  (forall st c, In c cs_f -> keeps st c) /\
  exists k0 s' diag new, new_rk (T:=Qc) 3 = Ok k0 /\ ssp_rk cfg_l (all_of cs_f) (k0, 0) st_tr 1000000 = (s', Ok (diag, new)).
Proof.
  split; [vm_compute; reflexivity|]. split; [apply knownb_ok; vm_compute; reflexivity|].
  split. { intros c [<-|[]]; apply nodupb_ok; reflexivity. }
  split. { intros c c' X [<-|[]] _ []. }
  split. { intros u st dt u' t d H. assert (E : all_of cs_f u st dt = (S u, Ok (t_f, d_f))) by (vm_compute; reflexivity). rewrite E in H. injection H as _ <- _.
    apply properb_ok. vm_compute. reflexivity. }
  split; [apply proper_stateb_ok; vm_compute; reflexivity|].
  split. { intros st c [<-|[]]. apply keeps_ok. intros dt u. vm_compute. reflexivity. }
  set (k0 := match new_rk (T:=Qc) 3 with Ok k => k | Err _ => mkrk 3 (mkab 1 None []) end). exists k0.
  assert (E : is_ok (snd (ssp_rk cfg_l (all_of cs_f) (k0, 0) st_tr 1000000)) = true) by (vm_compute; reflexivity).
  destruct (ssp_rk cfg_l (all_of cs_f) (k0, 0) st_tr 1000000) as (s', [(d, n)|?]) eqn:Er; [|discriminate E].
  exists s', d, n. split; reflexivity.
Qed.

(** ** What is returned but not as declared *)

Lemma tendency_units_differ : exists cfg (prog : icaller (T:=Qc) nat) (a : ab Qc) st dt s' diag new k p q,
  make_tstep (fun l => l) ex_clean empty_treg [(true, cp_e)] "step" true = Ok cfg /\ new_ab (OInt 1) = Ok a /\
  adams_bashforth cfg prog (a, 0) st dt = (s', Ok (diag, new)) /\
  dget k (ts_diag cfg) = Some p /\ dget k diag = Some q /\ p_units p = Some "m day^-1" /\ units_of q = Some "m s^-1".
Proof.
  exists (cfg_e true), (ex_prog "g" "kg"), (mkab 1 None []), (st_e "g" "kg"), 1000000%Z.
  assert (E : match snd (adams_bashforth (cfg_e true) (ex_prog "g" "kg") (mkab 1 None [], 0) (st_e "g" "kg") 1000000) with
              | Ok (diag, new) => exists q, dget "w_tendency_from_step" diag = Some q /\ units_of q = Some "m s^-1" | Err _ => False end).
  { vm_compute. eexists. split; reflexivity. }
  destruct (adams_bashforth _ _ _ _ _) as (s', [(d, n)|?]) eqn:Er; [|destruct E]. destruct E as (q & E1 & E2).
  exists s', d, n, "w_tendency_from_step", (qprops ["y"] "m day^-1"), q.
  split; [apply ex_made|]. split; [reflexivity|]. split; [reflexivity|]. split; [reflexivity|]. auto.
Qed.

Lemma output_units_differ : exists cfg (prog : icaller (T:=Qc) nat) (a : ab Qc) st dt s' diag new X p r,
  make_tstep (fun l => l) ex_clean empty_treg [(true, cp_e)] "step" false = Ok cfg /\ new_ab (OInt 1) = Ok a /\
  adams_bashforth cfg prog (a, 0) st dt = (s', Ok (diag, new)) /\
  dget X (ts_out cfg) = Some p /\ dget X new = Some (VDA r) /\ p_units p = Some "kg" /\ units_of r = Some "g".
Proof.
  exists (cfg_e false), (ex_prog "g" "kg"), (mkab 1 None []), (st_e "g" "kg"), 1000000%Z.
  assert (E : match snd (adams_bashforth (cfg_e false) (ex_prog "g" "kg") (mkab 1 None [], 0) (st_e "g" "kg") 1000000) with
              | Ok (diag, new) => exists q, dget "a" new = Some (VDA q) /\ units_of q = Some "g" | Err _ => False end).
  { vm_compute. eexists. split; reflexivity. }
  destruct (adams_bashforth _ _ _ _ _) as (s', [(d, n)|?]) eqn:Er; [|destruct E]. destruct E as (q & E1 & E2).
  exists s', d, n, "a", (qprops ["x"] "kg"), q.
  split; [apply ex_made|]. split; [reflexivity|]. split; [reflexivity|]. split; [reflexivity|]. auto.
Qed.

Lemma tracer_not_declared : exists (cs : list (comp_obj Qc nat)) cfg (a : ab Qc) (st : state Qc) dt s' diag new X,
  make_tstep (fun l => l) ex_clean g_tr (map (fun c => (true, o_props c)) cs) "step" true = Ok cfg /\ new_ab (OInt 1) = Ok a /\
  (forall c, In c cs -> keeps st c) /\
  adams_bashforth cfg (all_of cs) (a, 0) st dt = (s', Ok (diag, new)) /\
  dget X new <> dget X st /\ ~ In X (keys (ts_out cfg)).
Proof.
  exists cs_r, cfg_r, (mkab 1 None []), st_tr, 1000000%Z.
  assert (E : match snd (adams_bashforth cfg_r (all_of cs_r) (mkab 1 None [], 0) st_tr 1000000) with
              | Ok (diag, new) => match dget "soot" new with Some (VDA q) => dims q = ["y"; "z"; "x"] | _ => False end | Err _ => False end).
  { vm_compute. reflexivity. }
  destruct (adams_bashforth _ _ _ _ _) as (s', [(d, n)|?]) eqn:Er; [|destruct E]. exists s', d, n, "soot".
  split; [vm_compute; reflexivity|]. split; [reflexivity|]. split; [exact cs_r_keeps|]. split; [reflexivity|]. split.
  - cbn [snd] in E. intros H. rewrite H in E. vm_compute in E. discriminate E.
  - assert (K : keys (ts_out cfg_r) = ["temperature"]) by (vm_compute; reflexivity). rewrite K. intros [H|[]]. discriminate H.
Qed.

(** ** Diagnostic components *)

Definition d_r1 : dcomp := mkdcomp true [("temperature", qprops ["z"; "*"] "K")] [("p", qprops ["z"; "*"] "K")].
Definition d_r2 : dcomp := mkdcomp true [("temperature", qprops ["z"; "*"] "K")] [("q", qprops ["z"; "*"] "kg")].
Definition ac_d1 (out : string) (n : nat) (raw : dict (rval Qc)) : nat * res (dict (nd Qc)) := (S n, Ok [(out, get_arr "temperature" raw)]).
Definition ds_r : list (cprops * dcaller (T:=Qc) nat) :=
  [ (dseen d_r1, diagnostic_call d_r1 (ac_d1 "p")); (dseen d_r2, diagnostic_call d_r2 (ac_d1 "q")) ].

Definition dreturnsb (p : cprops) (r : res (dict (da Qc))) : bool :=
  match r with Ok d => nodupb (keys d) && deliversb (cp_diag p) [] d | Err _ => true end.

Lemma ex_returns_diagnostics :
  (exists c, make_diagnostic_composite (fun l => l) g_tr (map (fun x => (true, fst x)) ds_r) = Ok c /\ keys (d_diag c) = ["p"; "q"]) /\
  (forall x, In x ds_r -> NoDup (keys (cp_diag (fst x)))) /\
  (forall x u u' o, In x ds_r -> snd x u st_tr = (u', Ok o) -> NoDup (keys o) /\ delivers (cp_diag (fst x)) [] o) /\
  exists u' d, diagnostic_composite_call (map snd ds_r) 0 st_tr = (u', Ok d).
Proof.
  split. { eexists. split; vm_compute; reflexivity. }
  split. { intros x [<-|[<-|[]]]; apply nodupb_ok; reflexivity. }
  split.
  - intros x u u' o Hx Hc. assert (E : dreturnsb (fst x) (snd (snd x u st_tr)) = true) by (destruct Hx as [<-|[<-|[]]]; vm_compute; reflexivity).
    rewrite Hc in E. cbn [snd dreturnsb] in E. apply andb_true_iff in E. destruct E as (E1 & E2). split; [apply nodupb_ok; exact E1|apply deliversb_ok; exact E2].
  - assert (E : is_ok (snd (diagnostic_composite_call (map snd ds_r) 0 st_tr)) = true) by (vm_compute; reflexivity).
    destruct (diagnostic_composite_call (map snd ds_r) 0 st_tr) as (u', [d|?]); [eauto|discriminate E].
Qed.

(** A constructed component. *)
Definition made_k := make_tendency_component false g_tr [("temperature", qprops ["z"; "*"] "K")] [("temperature", qprops ["z"; "*"] "K day^-1")] [("heat", qprops ["z"; "*"] "J")] "b" true None "s^-1".
Definition c_k : tcomp := match snd made_k with Ok c => c | Err _ => k_r2 end.

Lemma ex_component_keeps : made_k = (g_tr, Ok c_k) /\ wf_state st_tr /\
  (forall u u' t d, tendency_call g_tr c_k ac_r2 u st_tr = (u', Ok (t, d)) -> proper t /\ NoDup (keys d)) /\
  exists u' t d, tendency_call g_tr c_k ac_r2 0 st_tr = (u', Ok (t, d)).
Proof.
  split; [vm_compute; reflexivity|]. split; [apply wf_stateb_ok; reflexivity|]. split.
  - intros u u' t d H. assert (E : match snd (tendency_call g_tr c_k ac_r2 u st_tr) with Ok (t, d) => properb t && nodupb (keys d) | Err _ => true end = true) by (vm_compute; reflexivity).
    rewrite H in E. cbn [snd] in E. apply andb_true_iff in E. destruct E as (E1 & E2). split; [apply properb_ok; exact E1|apply nodupb_ok; exact E2].
  - assert (E : is_ok (snd (tendency_call g_tr c_k ac_r2 0 st_tr)) = true) by (vm_compute; reflexivity).
    destruct (tendency_call g_tr c_k ac_r2 0 st_tr) as (u', [(t, d)|?]); [eauto|discriminate E].
Qed.
