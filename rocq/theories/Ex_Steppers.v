(** Concrete cases for the property theorems about time steppers (C24-C38). *)
From Coq Require Import String Ascii List Bool Arith ZArith QArith Qcanon Lia Permutation PrimFloat.
From Verif Require Import Prelude PreludeFacts ArithM NdArray NdFacts Units DataArrayM GetNp SpecUnits UnitsFacts ExampleRegistry Checks
  SpecDa DaFacts Tracers Components Composite SpecComposite Steppers SpecSteppers SteppersFacts ABFacts RKFacts LeapFacts StepAlgebra
  StepRuns StepExact StepSteady StepUnits StepDiag Ex_Components Ex_Composite.
Import ListNotations.
Open Scope string_scope.
Open Scope nat_scope.
Open Scope list_scope.

#[local] Existing Instance ex_registry | 5.

(** ** The example registry knows units per second *)

Lemma append_nil_r : forall s : string, (s ++ "")%string = s.
Proof. induction s as [|c s IH]; simpl; [auto|rewrite IH; auto]. Qed.

Lemma append_assoc : forall a b c : string, ((a ++ b) ++ c)%string = (a ++ (b ++ c))%string.
Proof. induction a as [|x a IH]; intros b c; simpl; [auto|rewrite IH; auto]. Qed.

Lemma words_app : forall s cur r, words cur (s ++ String " "%char r) = words cur s ++ words "" r.
Proof.
  induction s as [|c s IH]; intros cur r; [reflexivity|].
  change ((String c s ++ String " "%char r)%string) with (String c (s ++ String " "%char r)). cbn [words].
  destruct (Ascii.eqb c " "%char); [rewrite IH, app_assoc; auto|apply IH].
Qed.

Lemma uproduct_app : forall ws acc vs, uproduct acc (ws ++ vs) =
  match uproduct acc ws with Some u => uproduct u vs | None => None end.
Proof.
  induction ws as [|w ws IH]; intros acc vs; [reflexivity|]. cbn [app uproduct]. destruct (dget w table); auto.
Qed.

Lemma ex_registry_per_second : per_second_law ex_registry.
Proof.
  assert (Hw : words "" "s^-1" = ["s^-1"]) by reflexivity.
  intros s t u u' Ht Hs H. cbn [parse ex_registry] in Hs, H.
  assert (Hf : (u_fac u * 1)%Qc = u_fac u) by ring.
  destruct Ht as [->|[-> ->]].
  - change (" s^-1") with (String " "%char "s^-1") in H. rewrite words_app, uproduct_app, Hs, Hw in H.
    cbn [uproduct] in H. change (dget "s^-1" table) with (Some (mkunit [0; 0; -1; 0]%Z 1%Qc 0%Qc)) in H.
    injection H as <-. cbn [u_fac u_off umul]. auto.
  - rewrite Hw in H. cbn in Hs. injection Hs as <-. cbn [uproduct] in H.
    change (dget "s^-1" table) with (Some (mkunit [0; 0; -1; 0]%Z 1%Qc 0%Qc)) in H.
    injection H as <-. cbn [u_fac u_off umul one_unit]. split; auto.
Qed.

(** ** Runs, computed *)

Section Drive.
  Context {T : Type} {S : Type}.
  Variables (call : S * nat -> state T -> Z -> (S * nat) * res (stepped T)) (prog : icaller (T:=T) nat) (dt : Z).

  (** One call per function of the list, which makes the next state of the last one. *)
  Fixpoint drive (fs : list (state T -> state T)) (s : S) (u : nat) (st : state T) : option (list (entry T) * (S * nat)) :=
    match fs with
    | [] => Some ([], (s, u))
    | f :: fs' =>
        match prog u (f st) dt, call (s, u) (f st) dt with
        | (u1, Ok (tend, _)), ((s', u2), Ok (diag, new)) =>
            if Nat.eqb u1 u2 then
              match drive fs' s' u2 new with
              | Some (log, sf) => Some (mkentry (f st) tend diag new :: log, sf)
              | None => None
              end
            else None
        | _, _ => None
        end
    end.

  Lemma history_cons : forall s u st u' tend pdiag s' diag new, prog u st dt = (u', Ok (tend, pdiag)) ->
    call (s, u) st dt = ((s', u'), Ok (diag, new)) -> forall s1 log sf, history call prog dt s1 log sf -> s1 = (s', u') ->
    history call prog dt (s, u) (mkentry st tend diag new :: log) sf.
  Proof.
    intros s u st u' tend pdiag s' diag new Hp Hc s1 log sf H. induction H as [s1|s1 log s2 u2 st2 u2' tend2 pdiag2 s2' diag2 new2 H IH Hp2 Hc2]; intros E.
    - subst s1. apply (history_snoc call prog dt (s, u) [] s u st u' tend pdiag s' diag new); auto. constructor.
    - rewrite app_comm_cons. eapply history_snoc; eauto.
  Qed.

  Lemma drive_ok : forall fs s u st log sf, drive fs s u st = Some (log, sf) ->
    history call prog dt (s, u) log sf /\ length log = length fs.
  Proof.
    induction fs as [|f fs IH]; intros s u st log sf H; cbn [drive] in H.
    - injection H as <- <-. split; [constructor|auto].
    - destruct (prog u (f st) dt) as [u1 [[tend pdiag]|e]] eqn:Ep; [|discriminate].
      destruct (call (s, u) (f st) dt) as [[s' u2] [[diag new]|e]] eqn:Ec; [|discriminate].
      destruct (Nat.eqb u1 u2) eqn:Eu; [|discriminate]. apply Nat.eqb_eq in Eu. subst u2.
      destruct (drive fs s' u1 new) as [[log1 sf1]|] eqn:Ed; [|discriminate]. injection H as <- <-.
      apply IH in Ed as [Hh Hl]. split; [|simpl; auto].
      eapply history_cons; eauto.
  Qed.

  Lemma drive_chained : forall n s u st log sf, drive (repeat (fun x => x) n) s u st = Some (log, sf) ->
    chained log /\ forall e l, log = e :: l -> e_st e = st.
  Proof.
    induction n as [|n IH]; intros s u st log sf H; cbn [repeat drive] in H.
    - injection H as <- <-. split; [intros pre e1 e2 post E; destruct pre; discriminate|discriminate].
    - destruct (prog u st dt) as [u1 [[tend pdiag]|e]] eqn:Ep; [|discriminate].
      destruct (call (s, u) st dt) as [[s' u2] [[diag new]|e]] eqn:Ec; [|discriminate].
      destruct (Nat.eqb u1 u2) eqn:Eu; [|discriminate].
      destruct (drive (repeat (fun x => x) n) s' u2 new) as [[log1 sf1]|] eqn:Ed; [|discriminate]. injection H as <- <-.
      apply IH in Ed as [Hc Hf]. split; [|intros e l E; injection E as <- _; auto].
      intros pre e1 e2 post E. destruct pre as [|e0 pre]; injection E as <- E; [|eapply Hc; eauto].
      simpl. eapply Hf; eauto.
  Qed.
End Drive.

Lemma history_prog : forall {T S U} call (prog : icaller (T:=T) U) dt s0 log (s : S * U), history call prog dt s0 log s ->
  forall e : entry T, In e log -> exists u u' pdiag, prog u (e_st e) dt = (u', Ok (e_tend e, pdiag)).
Proof.
  intros T S U call prog dt s0 log s H. induction H as [|s0 log s u st u' tend pdiag s' diag new H IH Hp Hc]; intros e He; [destruct He|].
  apply in_app_or in He as [He|[<-|[]]]; [auto|]. exists u, u', pdiag. auto.
Qed.

Section LDrive.
  Context {T : Type} {A : Arith T} {R : Registry}.
  Variables (cfg : tstep) (prog : icaller (T:=T) nat) (dt : Z).

  Fixpoint ldrive (fs : list (state T -> state T)) (l : leap T) (u : nat) (st : state T) : option (list (lentry T) * (leap T * nat)) :=
    match fs with
    | [] => Some ([], (l, u))
    | f :: fs' =>
        match prog u (f st) dt, leapfrog cfg prog (l, u) (f st) dt with
        | (u1, Ok (tend, _)), ((l', u2), st', Ok (diag, new)) =>
            if Nat.eqb u1 u2 then
              match ldrive fs' l' u2 new with
              | Some (log, sf) => Some (mklentry (f st) tend st' diag new :: log, sf)
              | None => None
              end
            else None
        | _, _ => None
        end
    end.

  Lemma lhistory_cons : forall l u st u' tend pdiag l' st' diag new, prog u st dt = (u', Ok (tend, pdiag)) ->
    leapfrog cfg prog (l, u) st dt = ((l', u'), st', Ok (diag, new)) -> forall s1 log sf, lhistory cfg prog dt s1 log sf -> s1 = (l', u') ->
    lhistory cfg prog dt (l, u) (mklentry st tend st' diag new :: log) sf.
  Proof.
    intros l u st u' tend pdiag l' st' diag new Hp Hc s1 log sf H.
    induction H as [s1|s1 log l2 u2 st2 u2' tend2 pdiag2 l2' st2' diag2 new2 H IH Hp2 Hc2]; intros E.
    - subst s1. apply (lhistory_snoc cfg prog dt (l, u) [] l u st u' tend pdiag l' st' diag new); auto. constructor.
    - rewrite app_comm_cons. eapply lhistory_snoc; eauto.
  Qed.

  Lemma ldrive_ok : forall fs l u st log sf, ldrive fs l u st = Some (log, sf) ->
    lhistory cfg prog dt (l, u) log sf /\ length log = length fs.
  Proof.
    induction fs as [|f fs IH]; intros l u st log sf H; cbn [ldrive] in H.
    - injection H as <- <-. split; [constructor|auto].
    - destruct (prog u (f st) dt) as [u1 [[tend pdiag]|e]] eqn:Ep; [|discriminate].
      destruct (leapfrog cfg prog (l, u) (f st) dt) as [[[l' u2] st'] [[diag new]|e]] eqn:Ec; [|discriminate].
      destruct (Nat.eqb u1 u2) eqn:Eu; [|discriminate]. apply Nat.eqb_eq in Eu. subst u2.
      destruct (ldrive fs l' u1 new) as [[log1 sf1]|] eqn:Ed; [|discriminate]. injection H as <- <-.
      apply IH in Ed as [Hh Hl]. split; [|simpl; auto].
      eapply lhistory_cons; eauto.
  Qed.

  Lemma ldrive_chained : forall n l u st log sf, ldrive (repeat (fun x => x) n) l u st = Some (log, sf) ->
    lchained log /\ forall e r, log = e :: r -> l_st e = st.
  Proof.
    induction n as [|n IH]; intros l u st log sf H; cbn [repeat ldrive] in H.
    - injection H as <- <-. split; [intros pre e1 e2 post E; destruct pre; discriminate|discriminate].
    - destruct (prog u st dt) as [u1 [[tend pdiag]|e]] eqn:Ep; [|discriminate].
      destruct (leapfrog cfg prog (l, u) st dt) as [[[l' u2] st'] [[diag new]|e]] eqn:Ec; [|discriminate].
      destruct (Nat.eqb u1 u2) eqn:Eu; [|discriminate].
      destruct (ldrive (repeat (fun x => x) n) l' u2 new) as [[log1 sf1]|] eqn:Ed; [|discriminate]. injection H as <- <-.
      apply IH in Ed as [Hc Hf]. split; [|intros e r E; injection E as <- _; auto].
      intros pre e1 e2 post E. destruct pre as [|e0 pre]; injection E as <- E; [|eapply Hc; eauto].
      simpl. eapply Hf; eauto.
  Qed.

  Lemma lhistory_prog : forall s0 log s, lhistory cfg prog dt s0 log s ->
    forall e, In e log -> exists u u' pdiag, prog u (l_st e) dt = (u', Ok (l_tend e, pdiag)).
  Proof.
    intros s0 log s H. induction H as [|s0 log l u st u' tend pdiag l' st' diag new H IH Hp Hc]; intros e He; [destruct He|].
    apply in_app_or in He as [He|[<-|[]]]; [auto|]. exists u, u', pdiag. auto.
  Qed.
End LDrive.

(** ** A program: T decays, mass moves from b to a faster and faster, w rests *)

Definition has_units (a : da Qc) (s : string) : bool :=
  (wf_dab a && match dget "units" (attrs a) with Some s' => String.eqb s' s | None => false end)%bool.

Definition tend_of (a : da Qc) (f : Qc -> Qc) (s : string) : da Qc := da_map f [("units", s)] a.

Definition speed (u : nat) : Qc := cz (3 + 2 * Z.of_nat u).

Definition ex_prog (ua ub : string) : icaller (T:=Qc) nat := fun u st dt =>
  (S u,
   match dget "T" st, dget "a" st, dget "b" st, dget "w" st with
   | Some (VDA t), Some (VDA x), Some (VDA y), Some (VDA w) =>
       if (has_units t "K" && has_units x ua && has_units y ub && has_units w "m")%bool then
         Ok ([("T", tend_of t (fun v => (Q2Qc (-1 # 1000) * v)%Qc) "K s^-1");
              ("a", tend_of x (fun _ => speed u) "kg s^-1");
              ("b", tend_of y (fun _ => (- speed u)%Qc) "kg s^-1");
              ("w", tend_of w (fun _ => 0%Qc) "m day^-1")],
             [("d", mkda [] (cramp []) [("units", "K")])])
       else Err EValue
   | _, _, _, _ => Err EKey
   end).

Definition st_e (ua ub : string) : state Qc :=
  [ ("time", VTime 0%Z);
    ("T", VDA (mkda ["x"] (cramp [3]) [("units", "K"); ("note", "n")]));
    ("a", VDA (mkda ["x"] (mknd [3] (repeat (cz (if String.eqb ua "g" then 7000 else 7)) 3)) [("units", ua)]));
    ("b", VDA (mkda ["x"] (mknd [3] (repeat (cz (if String.eqb ub "g" then 9000 else 9)) 3)) [("units", ub)]));
    ("w", VDA (mkda ["y"] (cramp [2]) [("units", "m")]));
    ("c", VDA (mkda ["z"] (cramp [2]) [("units", "km")])) ].

Definition in_e : pdict :=
  [ ("T", qprops ["x"] "K"); ("a", qprops ["x"] "kg"); ("b", qprops ["x"] "kg"); ("w", qprops ["y"] "m") ].
Definition tend_e : pdict :=
  [ ("T", qprops ["x"] "K s^-1"); ("a", qprops ["x"] "kg s^-1"); ("b", qprops ["x"] "kg s^-1"); ("w", qprops ["y"] "m day^-1") ].

(** clean_units on the units that occur. *)
Definition ex_clean (s : string) : res string :=
  match s with
  | "K s^-1 s" => Ok "K"
  | "kg s^-1 s" | "g s^-1 s" => Ok "kg"
  | "m day^-1 s" => Ok "m"
  | _ => Err EUndefinedUnit
  end.

(** The stepper built from these properties. *)
Definition cp_e : cprops := mkcprops in_e tend_e [("d", qprops [] "K")] None.
Definition out_e : pdict :=
  [ ("T", qprops ["x"] "K"); ("a", qprops ["x"] "kg"); ("b", qprops ["x"] "kg"); ("w", qprops ["y"] "m") ].
Definition diag_e (tid : bool) : pdict :=
  ("d", qprops [] "K") :: if tid then
    [ ("T_tendency_from_step", qprops ["x"] "K s^-1"); ("a_tendency_from_step", qprops ["x"] "kg s^-1");
      ("b_tendency_from_step", qprops ["x"] "kg s^-1"); ("w_tendency_from_step", qprops ["y"] "m day^-1") ] else [].
Definition cfg_e (tid : bool) : tstep := mktstep tid "step" in_e (diag_e tid) out_e.

Lemma ex_made : forall tid, make_tstep (fun l => l) ex_clean empty_treg [(true, cp_e)] "step" tid = Ok (cfg_e tid).
Proof. intros []; vm_compute; reflexivity. Qed.

Lemma cfg_e_keys : forall tid, NoDup (keys (ts_out (cfg_e tid))).
Proof. intros tid. apply nodupb_ok. vm_compute. reflexivity. Qed.

Lemma has_units_ok : forall a s, has_units a s = true -> wf_da a /\ units_of a = Some s.
Proof.
  intros a s H. unfold has_units in H. apply andb_true_iff in H as [H1 H2]. split; [apply wf_dab_ok; auto|].
  unfold units_of. destruct (dget "units" (attrs a)) as [s'|]; [|discriminate]. apply String.eqb_eq in H2. congruence.
Qed.

Lemma ex_prog_ok : forall ua ub u st dt u' tend diag, ex_prog ua ub u st dt = (u', Ok (tend, diag)) -> u' = S u /\
  exists t x y w, dget "T" st = Some (VDA t) /\ dget "a" st = Some (VDA x) /\ dget "b" st = Some (VDA y) /\ dget "w" st = Some (VDA w) /\
    (wf_da t /\ units_of t = Some "K") /\ (wf_da x /\ units_of x = Some ua) /\ (wf_da y /\ units_of y = Some ub) /\
    (wf_da w /\ units_of w = Some "m") /\
    tend = [("T", tend_of t (fun v => (Q2Qc (-1 # 1000) * v)%Qc) "K s^-1");
            ("a", tend_of x (fun _ => speed u) "kg s^-1");
            ("b", tend_of y (fun _ => (- speed u)%Qc) "kg s^-1");
            ("w", tend_of w (fun _ => 0%Qc) "m day^-1")].
Proof.
  intros ua ub u st dt u' tend diag H. unfold ex_prog in H. injection H as <- H. split; auto.
  destruct (dget "T" st) as [[t|]|]; try discriminate. destruct (dget "a" st) as [[x|]|]; try discriminate.
  destruct (dget "b" st) as [[y|]|]; try discriminate. destruct (dget "w" st) as [[w|]|]; try discriminate.
  destruct (has_units t "K" && has_units x ua && has_units y ub && has_units w "m")%bool eqn:E; [|discriminate].
  apply andb_true_iff in E as [E E4]. apply andb_true_iff in E as [E E3]. apply andb_true_iff in E as [E1 E2].
  apply has_units_ok in E1, E2, E3, E4. injection H as <- _.
  exists t, x, y, w. repeat match goal with |- _ /\ _ => split end; tauto.
Qed.

Lemma ex_prog_proper : forall ua ub, proper_components (ex_prog ua ub).
Proof.
  intros ua ub u st dt u' tend diag H.
  apply ex_prog_ok in H as (_ & t & x & y & w & _ & _ & _ & _ & [Wt _] & [Wx _] & [Wy _] & [Ww _] & ->).
  split; [apply nodupb_ok; vm_compute; reflexivity|]. intros X a Ha. apply dget_In in Ha.
  destruct Ha as [Ha|[Ha|[Ha|[Ha|[]]]]]; injection Ha as _ <-; apply wf_da_map; auto.
Qed.

(** The mass in a and b at one point. *)
Definition ex_terms (c : string -> nat) : list term := [("a", c, 1%Qc); ("b", c, Q2Qc (1 # 1000))].

Lemma conv_same : forall (s : string) u (x : Qc), parse s = Some u -> converted s s x x.
Proof.
  intros s u x H. exists u, u. repeat split; auto. left. split; auto. apply one_eqb_refl.
Qed.

Lemma conv_factor : forall s1 s2 u1 u2 f (x : Qc), parse s1 = Some u1 -> parse s2 = Some u2 -> u_dim u1 = u_dim u2 ->
  one_eqb u1 u2 = false -> u_off u1 = 0%Qc -> u_off u2 = 0%Qc -> (u_fac u1 / u_fac u2)%Qc = f -> converted s1 s2 x (x * f)%Qc.
Proof.
  intros s1 s2 u1 u2 f x H1 H2 Hd Ho O1 O2 <-. exists u1, u2. repeat split; auto. right. split; auto.
  unfold uconv. rewrite O1, O2. change (Qc_eqb 0%Qc 0%Qc) with true. cbn [andb]. cbn [amul aofQ ArithQc]. f_equal.
  symmetry. apply Qc_is_canon. cbn [this Q2Qc]. apply Qred_correct.
Qed.

Lemma ex_balanced : forall c u st dt u' tend diag, ex_prog "kg" "g" u st dt = (u', Ok (tend, diag)) ->
  on_grid (ex_terms c) st -> balanced (ex_terms c) st tend.
Proof.
  intros c u st dt u' tend diag H Hg.
  apply ex_prog_ok in H as (_ & t & x & y & w & _ & Ex & Ey & _ & _ & [Wx Ux] & [Wy Uy] & _ & ->).
  apply on_grid_cons in Hg as [(x' & Ex' & Gx) Hg]. apply on_grid_cons in Hg as [(y' & Ey' & Gy) _].
  rewrite Ex in Ex'. injection Ex' as <-. rewrite Ey in Ey'. injection Ey' as <-.
  exists [speed u; (Q2Qc (1000 # 1) * - speed u)%Qc]. split.
  - constructor; [|constructor; [|constructor]].
    + eexists. split; [reflexivity|]. split; [apply in_grid_map; auto|].
      exists x, "kg". split; auto. split; auto. unfold tend_of. rewrite da_at_map by auto.
      eapply conv_same. reflexivity.
    + eexists. split; [reflexivity|]. split; [apply in_grid_map; auto|].
      exists y, "g". split; auto. split; auto. unfold tend_of. rewrite da_at_map by auto.
      rewrite Qcmult_comm. eapply conv_factor; reflexivity.
  - cbn [map snd ex_terms dot].
    replace (Q2Qc (1 # 1000) * (Q2Qc (1000 # 1) * - speed u))%Qc with (Q2Qc (1 # 1000) * Q2Qc (1000 # 1) * - speed u)%Qc by ring.
    replace (Q2Qc (1 # 1000) * Q2Qc (1000 # 1))%Qc with 1%Qc by (apply Qc_is_canon; reflexivity). ring.
Qed.

Lemma ex_no_change : forall ua ub u st dt u' tend diag t, ex_prog ua ub u st dt = (u', Ok (tend, diag)) ->
  dget "w" tend = Some t -> no_change st "w" t.
Proof.
  intros ua ub u st dt u' tend diag t0 H Ht.
  apply ex_prog_ok in H as (_ & t & x & y & w & _ & _ & _ & Ew & _ & _ & _ & [Ww Uw] & ->).
  injection Ht as <-. split.
  - intros c v Hc (w' & us & _ & _ & u1 & u2 & H1 & H2 & _ & Hv). apply in_grid_map in Hc.
    unfold tend_of in Hv. rewrite da_at_map in Hv by auto. destruct Hv as [[_ Hv]|[Ho Hv]]; auto.
    subst v. unfold uconv. apply ex_registry_plain in H1 as [_ H1]. apply ex_registry_plain in H2 as [_ H2].
    rewrite H1, H2. change (Qc_eqb 0%Qc 0%Qc) with true. cbn [andb amul ArithQc]. ring.
  - intros w' Ew'. rewrite Ew in Ew'. injection Ew' as <-. apply incl_refl.
Qed.

Lemma amount_tend : forall a f s us c, wf_da a -> in_grid a c -> parse s = Some us ->
  amount (tend_of a f s) c = Some (base_value us (f (da_at a c))).
Proof.
  intros a f s us c Wa Hg Hs. unfold amount. change (dget "units" (attrs (tend_of a f s))) with (Some s).
  cbv iota. rewrite Hs. unfold tend_of. rewrite da_at_map by auto. auto.
Qed.

(** Calling the program on the same physical state in other units. *)
Lemma ex_alike : forall dt u st1 st2 u1 u2 tend1 tend2 diag1 diag2, alike_states st1 st2 ->
  ex_prog "kg" "g" u st1 dt = (u1, Ok (tend1, diag1)) -> ex_prog "g" "kg" u st2 dt = (u2, Ok (tend2, diag2)) ->
  u1 = u2 /\ alike_tendencies tend1 tend2 /\ forall X, In X (keys tend1) <-> In X ["T"; "a"; "b"; "w"].
Proof.
  intros dt u st1 st2 u1 u2 tend1 tend2 diag1 diag2 Ha H1 H2.
  apply ex_prog_ok in H1 as (-> & t & x & y & w & Et & Ex & Ey & Ew & [Wt Ut] & [Wx Ux] & [Wy Uy] & [Ww Uw] & ->).
  apply ex_prog_ok in H2 as (-> & t' & x' & y' & w' & Et' & Ex' & Ey' & Ew' & [Wt' Ut'] & [Wx' Ux'] & [Wy' Uy'] & [Ww' Uw'] & ->).
  split; auto. split; [|intros X; simpl; tauto].
  assert (Hc : forall X a a' s v, wf_da a -> wf_da a' -> dget X st1 = Some (VDA a) -> dget X st2 = Some (VDA a') ->
             (exists u, parse s = Some u) -> alike (tend_of a (fun _ => v) s) (tend_of a' (fun _ => v) s)).
  { intros X a a' s v Wa Wa' E E' [us Hs]. specialize (Ha X). rewrite E, E' in Ha. destruct Ha as [Hl Hv].
    split; [intros d; unfold tend_of; rewrite !dim_len_map; auto|]. intros c Hg. apply in_grid_map in Hg.
    assert (Hg' : in_grid a' c) by (intros d n; rewrite <- Hl; auto).
    exists (base_value us v). split; apply (amount_tend _ (fun _ => v)); auto. }
  intros X. cbn [dget]. destruct (String.eqb X "T"); [|destruct (String.eqb X "a");
    [exact (Hc "a" _ _ "kg s^-1" _ Wx Wx' Ex Ex' (ex_intro _ _ eq_refl))|destruct (String.eqb X "b");
    [exact (Hc "b" _ _ "kg s^-1" _ Wy Wy' Ey Ey' (ex_intro _ _ eq_refl))|destruct (String.eqb X "w");
    [exact (Hc "w" _ _ "m day^-1" _ Ww Ww' Ew Ew' (ex_intro _ _ eq_refl))|exact I]]]].
  pose proof (Ha "T") as HT. rewrite Et, Et' in HT. destruct HT as [Hl Hv].
  split; [intros d; unfold tend_of; rewrite !dim_len_map; auto|]. intros c Hg. apply in_grid_map in Hg.
  assert (Hg' : in_grid t' c) by (intros d n; rewrite <- Hl; auto).
  destruct (Hv c Hg) as (v & V1 & V2). unfold amount in V1, V2. unfold units_of in Ut, Ut'. rewrite Ut in V1. rewrite Ut' in V2.
  destruct (parse "K") as [uk|] eqn:Ek; [|discriminate].
  assert (Heq : da_at t c = da_at t' c).
  { assert (Hb : base_value uk (da_at t c) = base_value uk (da_at t' c)) by congruence.
    apply ex_registry_plain in Ek as [Hf Ho]. unfold base_value in Hb. rewrite Ho, !Qcplus_0_r in Hb.
    apply (f_equal (fun q => (q / u_fac uk)%Qc)) in Hb. unfold Qcdiv in Hb. rewrite <- !Qcmult_assoc, Qcmult_inv_r, !Qcmult_1_r in Hb; auto. }
  destruct (parse "K s^-1") as [uks|] eqn:Eks; [|discriminate Eks].
  eexists. split; [rewrite (amount_tend _ _ _ uks), Heq by auto; reflexivity|apply amount_tend; auto].
Qed.

(** With a timestep below a thousand seconds T stays between its bounds. *)
Lemma ex_decay : forall ua ub dt hi u st u' tend diag st', (0 <= dt <= 1000000000)%Z ->
  ex_prog ua ub u st dt = (u', Ok (tend, diag)) -> euler_step dt st tend st' -> within "T" 0%Qc hi st -> within "T" 0%Qc hi st'.
Proof.
  intros ua ub dt hi u st u' tend diag st' Hdt H He (t0 & Et0 & Hw).
  apply ex_prog_ok in H as (_ & t & x & y & w & Et & _ & _ & _ & [Wt Ut] & _ & _ & _ & ->).
  rewrite Et in Et0. injection Et0 as <-.
  destruct He as [_ He]. destruct (He "T" _ eq_refl) as (t1 & r & Et1 & Er & (_ & _ & _ & Hl) & Hv).
  rewrite Et in Et1. injection Et1 as <-. exists r. split; auto. intros c Hc.
  assert (Hg : in_grid t c).
  { intros d n Hd. apply (Hc d n). rewrite Hl. cbn [first_len]. rewrite Hd. auto. }
  destruct (Hw c Hg) as [W1 W2]. destruct (Hv c Hc) as (_ & v & (t2 & us & Et2 & Us & Hcv) & ->).
  rewrite Et in Et2. injection Et2 as <-. rewrite Ut in Us. injection Us as <-.
  unfold tend_of in Hcv. rewrite da_at_map in Hcv by auto.
  assert (Hvv : v = (Q2Qc (-1 # 1000) * da_at t c)%Qc).
  { eapply converted_fun; [exact Hcv|]. eapply conv_same. reflexivity. }
  subst v. cbn [aadd amul aofQ ArithQc].
  set (m := Q2Qc (1 - (dt # 1000000000))).
  assert (Hm : (Q2Qc (-1 # 1000) * Q2Qc (dt # 1000000))%Qc = (m - 1)%Qc).
  { apply Qc_is_canon. unfold m, Qcminus, Qcopp, Qcplus, Qcmult. cbn [this Q2Qc]. rewrite !Qred_correct.
    unfold Qeq. cbn [Qnum Qden Qplus Qmult Qminus Qopp inject_Z]. lia. }
  assert (Hm0 : (0 <= m)%Qc).
  { unfold Qcle, m. cbn [this Q2Qc]. rewrite !Qred_correct. unfold Qle. cbn [Qnum Qden Qplus Qminus Qopp inject_Z]. lia. }
  assert (Hm1 : (m <= 1)%Qc).
  { unfold Qcle, m. cbn [this Q2Qc]. rewrite !Qred_correct. unfold Qle. cbn [Qnum Qden Qplus Qminus Qopp inject_Z]. lia. }
  replace (da_at t c + Q2Qc (-1 # 1000) * da_at t c * Q2Qc (dt # 1000000))%Qc
    with (da_at t c + da_at t c * (Q2Qc (-1 # 1000) * Q2Qc (dt # 1000000)))%Qc by ring.
  rewrite Hm. replace (da_at t c + da_at t c * (m - 1))%Qc with (m * da_at t c)%Qc by ring. split.
  - replace 0%Qc with (0 * da_at t c)%Qc by ring. apply Qcmult_le_compat_r; auto.
  - eapply Qcle_trans; [|exact W2]. rewrite <- (Qcmult_1_l (da_at t c)) at 2. apply Qcmult_le_compat_r; auto.
Qed.

(** ** Example runs *)

Definition proper_stateb {T} (st : state T) : bool :=
  nodupb (keys st) && forallb (fun kv => match snd kv with VDA a => wf_dab a | VTime _ => true end) st.

Lemma proper_stateb_ok : forall {T} (st : state T), proper_stateb st = true -> proper_state st.
Proof.
  intros T st H. apply andb_true_iff in H as [H1 H2]. split; [apply nodupb_ok; auto|].
  intros X a Ha. apply dget_In in Ha. rewrite forallb_forall in H2. specialize (H2 _ Ha). apply wf_dab_ok; auto.
Qed.

Definition log_okb (log : list (entry Qc)) : bool :=
  forallb (fun e => proper_stateb (e_st e) && properb (e_tend e) &&
                    (if list_eq_dec string_dec (keys (e_tend e)) ["T"; "a"; "b"; "w"] then true else false)) log.

Lemma log_okb_ok : forall log, log_okb log = true -> wf_log log /\ forall e, In e log -> keys (e_tend e) = ["T"; "a"; "b"; "w"].
Proof.
  intros log H. unfold log_okb in H. rewrite forallb_forall in H. split; intros e He; specialize (H e He);
    apply andb_true_iff in H as [H K]; apply andb_true_iff in H as [H1 H2].
  - split; [apply proper_stateb_ok; auto|apply properb_ok; auto].
  - destruct (list_eq_dec string_dec (keys (e_tend e)) ["T"; "a"; "b"; "w"]); [auto|discriminate].
Qed.

Definition llog_okb (log : list (lentry Qc)) : bool :=
  forallb (fun e => proper_stateb (l_st e) && properb (l_tend e)) log.

Lemma llog_okb_ok : forall log, llog_okb log = true -> wf_llog log.
Proof.
  intros log H. unfold llog_okb in H. rewrite forallb_forall in H. intros e He; specialize (H e He);
    apply andb_true_iff in H as [H1 H2]. split; [apply proper_stateb_ok; auto|apply properb_ok; auto].
Qed.

Definition ab_run (tid : bool) (ua ub : string) (n m : nat) : option (list (entry Qc) * (ab Qc * nat)) :=
  drive (adams_bashforth (cfg_e tid) (ex_prog ua ub)) (ex_prog ua ub) 1000000 (repeat (fun x => x) m) (mkab n None []) 0 (st_e ua ub).

Definition leap_run (tid : bool) (ua ub : string) (nu alpha : Qc) (m : nat) : option (list (lentry Qc) * (leap Qc * nat)) :=
  ldrive (cfg_e tid) (ex_prog ua ub) 1000000 (repeat (fun x => x) m) (new_leap nu alpha) 0 (st_e ua ub).

Lemma ab_run_ok : forall tid ua ub n m, match ab_run tid ua ub n (S m) with Some (log, _) => log_okb log | None => false end = true ->
  exists e0 log s, history (adams_bashforth (cfg_e tid) (ex_prog ua ub)) (ex_prog ua ub) 1000000 (mkab n None [], 0) (e0 :: log) s /\
    wf_log (e0 :: log) /\ chained (e0 :: log) /\ length log = m /\ e_st e0 = st_e ua ub /\
    forall e, In e (e0 :: log) -> keys (e_tend e) = ["T"; "a"; "b"; "w"].
Proof.
  intros tid ua ub n m H. destruct (ab_run tid ua ub n (S m)) as [[log s]|] eqn:E; [|discriminate].
  unfold ab_run in E. apply log_okb_ok in H as [Hw Hk]. pose proof (drive_chained _ _ _ _ _ _ _ _ _ E) as [Hc Hf].
  apply drive_ok in E as [Hh Hl]. rewrite repeat_length in Hl. destruct log as [|e0 log]; [discriminate|].
  exists e0, log, s. repeat match goal with |- _ /\ _ => split end; auto. eapply Hf; eauto.
Qed.

Lemma leap_run_ok : forall tid ua ub nu alpha m, match leap_run tid ua ub nu alpha (S m) with Some (log, _) => llog_okb log | None => false end = true ->
  exists e0 log s, lhistory (cfg_e tid) (ex_prog ua ub) 1000000 (new_leap nu alpha, 0) (e0 :: log) s /\
    wf_llog (e0 :: log) /\ lchained (e0 :: log) /\ length log = m /\ l_st e0 = st_e ua ub.
Proof.
  intros tid ua ub nu alpha m H. destruct (leap_run tid ua ub nu alpha (S m)) as [[log s]|] eqn:E; [|discriminate].
  unfold leap_run in E. apply llog_okb_ok in H. pose proof (ldrive_chained _ _ _ _ _ _ _ _ _ E) as [Hc Hf].
  apply ldrive_ok in E as [Hh Hl]. rewrite repeat_length in Hl. destruct log as [|e0 log]; [discriminate|].
  exists e0, log, s. repeat match goal with |- _ /\ _ => split end; auto. eapply Hf; eauto.
Qed.

Lemma ex_ab_run : forall tid, exists e0 log s,
  history (adams_bashforth (cfg_e tid) (ex_prog "kg" "g")) (ex_prog "kg" "g") 1000000 (mkab 3 None [], 0) (e0 :: log) s /\
  wf_log (e0 :: log) /\ chained (e0 :: log) /\ length log = 4 /\ e_st e0 = st_e "kg" "g" /\
  forall e, In e (e0 :: log) -> keys (e_tend e) = ["T"; "a"; "b"; "w"].
Proof. intros []; apply ab_run_ok; vm_compute; reflexivity. Qed.

Lemma ex_ab_run' : exists e0 log s,
  history (adams_bashforth (cfg_e false) (ex_prog "g" "kg")) (ex_prog "g" "kg") 1000000 (mkab 3 None [], 0) (e0 :: log) s /\
  wf_log (e0 :: log) /\ chained (e0 :: log) /\ length log = 4 /\ e_st e0 = st_e "g" "kg" /\
  forall e, In e (e0 :: log) -> keys (e_tend e) = ["T"; "a"; "b"; "w"].
Proof. apply ab_run_ok; vm_compute; reflexivity. Qed.

Definition nu_e : Qc := Q2Qc (1 # 10).
Definition half : Qc := Q2Qc (1 # 2).

Lemma ex_leap_run : forall tid alpha, alpha = half \/ alpha = 1%Qc -> exists e0 log s,
  lhistory (cfg_e tid) (ex_prog "kg" "g") 1000000 (new_leap nu_e alpha, 0) (e0 :: log) s /\
  wf_llog (e0 :: log) /\ lchained (e0 :: log) /\ length log = 4 /\ l_st e0 = st_e "kg" "g".
Proof. intros [] alpha [->| ->]; apply leap_run_ok; vm_compute; reflexivity. Qed.

Lemma ex_leap_run' : exists e0 log s,
  lhistory (cfg_e false) (ex_prog "g" "kg") 1000000 (new_leap nu_e half, 0) (e0 :: log) s /\
  wf_llog (e0 :: log) /\ lchained (e0 :: log) /\ length log = 4 /\ l_st e0 = st_e "g" "kg".
Proof. apply leap_run_ok; vm_compute; reflexivity. Qed.

(** Runge-Kutta: the first and the second call. *)
Lemma ex_rk_run : forall tid z, z = 2%Z \/ z = 3%Z -> exists k0 k u s' diag new s'' diag2 new2,
  new_rk z = Ok k0 /\ ssp_rk (cfg_e tid) (ex_prog "kg" "g") (k0, 0) (st_e "kg" "g") 1000000 = (s', Ok (diag, new)) /\
  after (ssp_rk (cfg_e tid) (ex_prog "kg" "g")) [(st_e "kg" "g", 1000000%Z)] (k0, 0) = (k, u) /\
  ssp_rk (cfg_e tid) (ex_prog "kg" "g") (k, u) new 1000000 = (s'', Ok (diag2, new2)) /\
  proper_components (ex_prog "kg" "g") /\ proper_state (st_e "kg" "g") /\ proper_state new.
Proof.
  assert (H : forall tid n, (n = 2 \/ n = 3) ->
    match ssp_rk (cfg_e tid) (ex_prog "kg" "g") (mkrk n (mkab 1 None []), 0) (st_e "kg" "g") 1000000 with
    | (s', Ok (_, new)) => proper_stateb new && is_ok (snd (ssp_rk (cfg_e tid) (ex_prog "kg" "g") s' new 1000000))
    | _ => false
    end = true) by (intros [] n [->| ->]; vm_compute; reflexivity).
  intros tid z Hz. set (n := Z.to_nat z). assert (Hn : n = 2 \/ n = 3) by (unfold n; destruct Hz; subst; auto).
  specialize (H tid n Hn).
  destruct (ssp_rk (cfg_e tid) (ex_prog "kg" "g") (mkrk n (mkab 1 None []), 0) (st_e "kg" "g") 1000000) as [[k u] [[diag new]|]] eqn:E; [|discriminate].
  apply andb_true_iff in H as [Hp H].
  destruct (ssp_rk (cfg_e tid) (ex_prog "kg" "g") (k, u) new 1000000) as [s2 [[diag2 new2]|]] eqn:E2; [|discriminate].
  exists (mkrk n (mkab 1 None [])), k, u, (k, u), diag, new, s2, diag2, new2.
  split; [destruct Hz; subst z; reflexivity|]. split; auto. split; [unfold after; cbn [fold_left fst snd]; rewrite E; auto|].
  split; auto. split; [apply ex_prog_proper|]. split; [apply proper_stateb_ok; vm_compute; reflexivity|apply proper_stateb_ok; auto].
Qed.

(** ** The two physically equal initial states *)

Lemma Forall2_nth_lt : forall {B C} (P : B -> C -> Prop) l l' k d d', Forall2 P l l' -> k < length l -> P (nth k l d) (nth k l' d').
Proof.
  intros B C P l l' k d d' H. revert k. induction H as [|x y l l' Hxy H IH]; intros [|k] Hk; simpl in *; auto; try lia.
  apply IH. lia.
Qed.

Lemma alike_lists : forall ds sh at1 at2 (l1 l2 : list Qc) s1 s2 u1 u2, dget "units" at1 = Some s1 -> dget "units" at2 = Some s2 ->
  parse s1 = Some u1 -> parse s2 = Some u2 -> wf_da (mkda ds (mknd sh l1) at1) ->
  Forall2 (fun x y => base_value u1 x = base_value u2 y) l1 l2 ->
  alike (mkda ds (mknd sh l1) at1) (mkda ds (mknd sh l2) at2).
Proof.
  intros ds sh at1 at2 l1 l2 s1 s2 u1 u2 A1 A2 P1 P2 W HF. split; [reflexivity|]. intros c Hc.
  unfold amount. cbn [attrs]. rewrite A1, A2, P1, P2. eexists. split; [reflexivity|]. f_equal.
  pose proof (in_range_grid _ c W Hc) as Hr. unfold da_at, at_. cbn [dims arr shape data] in *.
  destruct W as (_ & _ & Hd). unfold wf_nd in Hd. cbn [arr shape data] in Hd.
  symmetry. apply (Forall2_nth_lt (fun x y => base_value u1 x = base_value u2 y)); auto. rewrite Hd. apply ravel_lt; auto.
Qed.

Lemma Forall2_refl_map : forall {B} (P : B -> B -> Prop) l, (forall x, P x x) -> Forall2 P l l.
Proof. intros B P l H. induction l; constructor; auto. Qed.

Lemma alike_self : forall (a : da Qc) s u, units_of a = Some s -> parse s = Some u -> alike a a.
Proof.
  intros a s u Ha Hs. split; auto. intros c _. unfold amount. unfold units_of in Ha. rewrite Ha, Hs. eauto.
Qed.

Lemma ex_states_alike : alike_states (st_e "kg" "g") (st_e "g" "kg").
Proof.
  intros X. unfold st_e. cbn [dget].
  destruct (String.eqb X "time"); [reflexivity|].
  destruct (String.eqb X "T"); [eapply alike_self; reflexivity|].
  destruct (String.eqb X "a").
  { eapply alike_lists; [reflexivity|reflexivity|reflexivity|reflexivity|apply wf_dab_ok; reflexivity|].
    repeat constructor; apply Qc_is_canon; vm_compute; reflexivity. }
  destruct (String.eqb X "b").
  { eapply alike_lists; [reflexivity|reflexivity|reflexivity|reflexivity|apply wf_dab_ok; reflexivity|].
    repeat constructor; apply Qc_is_canon; vm_compute; reflexivity. }
  destruct (String.eqb X "w"); [eapply alike_self; reflexivity|].
  destruct (String.eqb X "c"); [eapply alike_self; reflexivity|exact I].
Qed.

(** ** C25: a grows at the rate 3 + 2 t *)

Definition in_gridb {T} (a : da T) (c : string -> nat) : bool :=
  forallb (fun dn => Nat.ltb (c (fst dn)) (snd dn)) (combine (dims a) (shape (arr a))).

Lemma in_gridb_ok : forall {T} (a : da T) c, in_gridb a c = true -> in_grid a c.
Proof.
  intros T a c H d n Hd. unfold dim_len in Hd. apply dget_In in Hd. unfold in_gridb in H. rewrite forallb_forall in H.
  apply (H (d, n)) in Hd. apply Nat.ltb_lt in Hd. auto.
Qed.

Lemma ex_polynomial : exists pre e s x, let c := fun _ : string => 1 in
  history (adams_bashforth (cfg_e false) (ex_prog "kg" "g")) (ex_prog "kg" "g") 1000000 (mkab 2 None [], 0) (pre ++ [e]) s /\
  wf_log (pre ++ [e]) /\ Nat.min 2 (S (length pre)) = 2 /\
  rates_of (latest 2 pre e) "a" c (map (peval (pderiv [0; cz 3; 1]%Qc)) (times_back 2 1%Qc (Q2Qc (1000000 # 1000000)))) /\
  dget "a" (e_st e) = Some (VDA x) /\ in_grid x c.
Proof.
  set (prog := ex_prog "kg" "g"). set (call := adams_bashforth (cfg_e false) prog). set (st := st_e "kg" "g").
  assert (H : match prog 0 st 1000000%Z, call (mkab 2 None [], 0) st 1000000%Z with
              | (1, Ok (tend, _)), ((s1, 1), Ok (_, new)) =>
                  match prog 1 new 1000000%Z, call (s1, 1) new 1000000%Z with
                  | (2, Ok (tend2, _)), ((s2, 2), Ok (_, _)) =>
                      (proper_stateb new && properb tend && properb tend2 &&
                       match dget "a" new with Some (VDA x) => in_gridb x (fun _ => 1) | _ => false end)%bool
                  | _, _ => false
                  end
              | _, _ => false
              end = true) by (vm_compute; reflexivity).
  destruct (prog 0 st 1000000%Z) as [u1 [[tend1 pd1]|]] eqn:P1; [|destruct u1 as [|[|]]; discriminate].
  assert (u1 = 1) by (apply ex_prog_ok in P1 as [-> _]; auto). subst u1.
  destruct (call (mkab 2 None [], 0) st 1000000%Z) as [[s1 v1] [[d1 new]|]] eqn:C1; [|destruct v1 as [|[|]]; discriminate].
  destruct v1 as [|[|v1]]; try discriminate H.
  destruct (prog 1 new 1000000%Z) as [u2 [[tend2 pd2]|]] eqn:P2; [|destruct u2 as [|[|[|]]]; discriminate].
  assert (u2 = 2) by (apply ex_prog_ok in P2 as [-> _]; auto). subst u2.
  destruct (call (s1, 1) new 1000000%Z) as [[s2 v2] [[d2 new2]|]] eqn:C2; [|destruct v2 as [|[|[|]]]; discriminate].
  destruct v2 as [|[|[|v2]]]; try discriminate H.
  apply andb_true_iff in H as [H H4]. apply andb_true_iff in H as [H H3]. apply andb_true_iff in H as [H1 H2].
  destruct (dget "a" new) as [[x|]|] eqn:Ex; try discriminate H4. apply in_gridb_ok in H4.
  exists [mkentry st tend1 d1 new], (mkentry new tend2 d2 new2), (s2, 2), x. cbv zeta.
  split; [|split; [|split; [reflexivity|split; [|split; auto]]]].
  - eapply history_snoc; [|exact P2|exact C2]. apply (history_snoc call prog 1000000 _ [] (mkab 2 None []) 0 st 1 tend1 pd1 s1 d1 new); auto.
    constructor.
  - intros e [<-|[<-|[]]]; cbn [e_st e_tend]; (split; [apply proper_stateb_ok|apply properb_ok]); auto.
  - apply ex_prog_ok in P1 as (_ & t & x1 & y & w & _ & E1 & _ & _ & _ & [W1 U1] & _ & _ & ->).
    apply ex_prog_ok in P2 as (_ & t' & x2 & y' & w' & _ & E2 & _ & _ & _ & [W2 U2] & _ & _ & ->).
    rewrite Ex in E2. injection E2 as <-.
    assert (G1 : in_grid x1 (fun _ => 1)) by (injection E1 as <-; apply in_gridb_ok; reflexivity).
    cbn [latest rev app firstn times_back map]. constructor; [|constructor; [|constructor]].
    + eexists. split; [reflexivity|]. split; [apply in_grid_map; auto|]. exists x, "kg". split; auto. split; auto.
      unfold tend_of. rewrite da_at_map by auto. replace (peval _ _) with (speed 1) by (apply Qc_is_canon; vm_compute; reflexivity).
      eapply conv_same. reflexivity.
    + eexists. split; [reflexivity|]. split; [apply in_grid_map; auto|]. exists x1, "kg". split; auto. split; auto.
      unfold tend_of. rewrite da_at_map by auto. replace (peval _ _) with (speed 0) by (apply Qc_is_canon; vm_compute; reflexivity).
      eapply conv_same. reflexivity.
Qed.

(** ** Refutations *)

Definition cfg_0 : tstep := mktstep false "step" [] [] [].
Definition scalar (z : Z) (s : string) : da Qc := mkda [] (mknd [] [cz z]) [("units", s)].
(** C24: w gets a tendency from the second call on. *)
Definition prog_late : icaller (T:=Qc) nat := fun u st dt =>
  (S u, Ok (("T", scalar 1 "K s^-1") :: match u with 0 => [] | _ => [("w", scalar 5 "m s^-1")] end, [])).
Definition st_late : state Qc := [("T", VDA (scalar 300 "K")); ("w", VDA (scalar 2 "m"))].

Definition da_eqb (a b : da Qc) : bool :=
  (if list_eq_dec string_dec (dims a) (dims b) then true else false) &&
  (if list_eq_dec Nat.eq_dec (shape (arr a)) (shape (arr b)) then true else false) &&
  (if list_eq_dec Qc_eq_dec (data (arr a)) (data (arr b)) then true else false) &&
  (if list_eq_dec (fun p q : string * string => ltac:(decide equality; apply string_dec)) (attrs a) (attrs b) then true else false).

Lemma da_eqb_ok : forall a b, da_eqb a b = true -> a = b.
Proof.
  intros [d1 [s1 l1] a1] [d2 [s2 l2] a2] H. unfold da_eqb in H. cbn [dims arr shape data attrs] in H.
  destruct (list_eq_dec string_dec d1 d2); [|discriminate]. destruct (list_eq_dec Nat.eq_dec s1 s2); [|discriminate].
  destruct (list_eq_dec Qc_eq_dec l1 l2); [|discriminate]. destruct (list_eq_dec _ a1 a2); [|discriminate]. congruence.
Qed.

Lemma late_quantity : exists (prog : icaller (T:=Qc) nat) dt pre e s X x t c y,
  history (adams_bashforth cfg_0 prog) prog dt (mkab 2 None [], 0) (pre ++ [e]) s /\ wf_log (pre ++ [e]) /\
  dget X (e_st e) = Some (VDA x) /\ dget X (e_tend e) = Some t /\ in_grid t c /\ rate (e_st e) X t c y /\ y <> 0%Qc /\
  dget X (e_new e) = dget X (e_st e).
Proof.
  exists prog_late, 1000000%Z.
  assert (H : match drive (adams_bashforth cfg_0 prog_late) prog_late 1000000 [fun x => x; fun x => x] (mkab 2 None []) 0 st_late with
              | Some ([e1; e2], s) =>
                  proper_stateb (e_st e1) && properb (e_tend e1) && proper_stateb (e_st e2) && properb (e_tend e2) &&
                  match dget "w" (e_st e2), dget "w" (e_tend e2), dget "w" (e_new e2) with
                  | Some (VDA x), Some t, Some (VDA x') =>
                      da_eqb x' x && da_eqb x (scalar 2 "m") && da_eqb t (scalar 5 "m s^-1")
                  | _, _, _ => false
                  end
              | _ => false
              end = true) by (vm_compute; reflexivity).
  destruct (drive _ _ _ _ _ _ _) as [[[|e1 [|e2 [|]]] s]|] eqn:E; try discriminate H.
  apply drive_ok in E as [Hh _]. apply andb_true_iff in H as [H H5]. apply andb_true_iff in H as [H H4].
  apply andb_true_iff in H as [H H3]. apply andb_true_iff in H as [H1 H2].
  destruct (dget "w" (e_st e2)) as [[x|]|] eqn:Ex; try discriminate H5.
  destruct (dget "w" (e_tend e2)) as [t|] eqn:Et; try discriminate H5.
  destruct (dget "w" (e_new e2)) as [[x'|]|] eqn:Ex'; try discriminate H5.
  apply andb_true_iff in H5 as [H5 H7]. apply andb_true_iff in H5 as [H5 H6]. apply da_eqb_ok in H5, H6, H7. subst x' x t.
  exists [e1], e2, s, "w", (scalar 2 "m"), (scalar 5 "m s^-1"), (fun _ => 0), (cz 5).
  split; [exact Hh|]. split.
  { intros e [<-|[<-|[]]]; (split; [apply proper_stateb_ok|apply properb_ok]); auto. }
  split; auto. split; auto. split; [apply in_gridb_ok; reflexivity|]. split.
  - exists (scalar 2 "m"), "m". split; auto. split; [reflexivity|]. eapply conv_same. reflexivity.
  - split; [|congruence]. intros Hz; apply (f_equal this) in Hz; vm_compute in Hz; discriminate Hz.
Qed.

(** C27: the components return a tendency of an array that the bad state has in another shape. *)
Definition prog_fix : icaller (T:=Qc) unit := fun u st dt => (u, Ok ([("w", mkda ["x"] (cramp [2]) [("units", "m s^-1")])], [])).
Definition st_bad : state Qc := [("w", VDA (mkda ["x"] (cramp [3]) [("units", "km")]))].
Definition st_good : state Qc := [("w", VDA (mkda ["x"] (cramp [2]) [("units", "m")]))].

Lemma failed_step_remembered : exists (prog : icaller (T:=Qc) unit) (a a1 : ab Qc) bad st dt e r1 r2 x1 x2 X c,
  new_ab (OInt 2) = Ok a /\ adams_bashforth cfg_0 prog (a, tt) bad dt = ((a1, tt), Err e) /\
  snd (adams_bashforth cfg_0 prog (a, tt) st dt) = Ok r1 /\ snd (adams_bashforth cfg_0 prog (a1, tt) st dt) = Ok r2 /\
  dget X (snd r1) = Some (VDA x1) /\ dget X (snd r2) = Some (VDA x2) /\ in_grid x1 c /\ in_grid x2 c /\ da_at x1 c <> da_at x2 c.
Proof.
  assert (H : match adams_bashforth cfg_0 prog_fix (mkab 2 None [], tt) st_bad 1000000%Z with
              | ((a1, tt), Err _) =>
                  match snd (adams_bashforth cfg_0 prog_fix (mkab 2 None [], tt) st_good 1000000%Z),
                        snd (adams_bashforth cfg_0 prog_fix (a1, tt) st_good 1000000%Z) with
                  | Ok r1, Ok r2 =>
                      match dget "w" (snd r1), dget "w" (snd r2) with
                      | Some (VDA x1), Some (VDA x2) =>
                          in_gridb x1 (fun _ => 1) && in_gridb x2 (fun _ => 1) && negb (Qc_eqb (da_at x1 (fun _ => 1)) (da_at x2 (fun _ => 1)))
                      | _, _ => false
                      end
                  | _, _ => false
                  end
              | _ => false
              end = true) by (vm_compute; reflexivity).
  destruct (adams_bashforth cfg_0 prog_fix (mkab 2 None [], tt) st_bad 1000000%Z) as [[a1 []] [|e]] eqn:E1; [discriminate H|].
  destruct (snd (adams_bashforth cfg_0 prog_fix (mkab 2 None [], tt) st_good 1000000%Z)) as [r1|] eqn:E2; [|discriminate H].
  destruct (snd (adams_bashforth cfg_0 prog_fix (a1, tt) st_good 1000000%Z)) as [r2|] eqn:E3; [|discriminate H].
  destruct (dget "w" (snd r1)) as [[x1|]|] eqn:E4; try discriminate H. destruct (dget "w" (snd r2)) as [[x2|]|] eqn:E5; try discriminate H.
  apply andb_true_iff in H as [H H3]. apply andb_true_iff in H as [H1 H2]. apply in_gridb_ok in H1, H2.
  exists prog_fix, (mkab 2 None []), a1, st_bad, st_good, 1000000%Z, e, r1, r2, x1, x2, "w", (fun _ => 1).
  repeat match goal with |- _ /\ _ => split end; auto. intros Hx. rewrite Hx in H3.
  rewrite (proj2 (Qc_eqb_eq _ _) eq_refl) in H3. discriminate H3.
Qed.

(** C27: after a failed call the stored history grows with every call. *)
Lemma history_unbounded : exists (prog : icaller (T:=Qc) unit) (a a1 : ab Qc) bad dt e,
  new_ab (OInt 1) = Ok a /\ adams_bashforth cfg_0 prog (a, tt) bad dt = ((a1, tt), Err e) /\
  forall m, exists log a', history (adams_bashforth cfg_0 prog) prog dt (a1, tt) log (a', tt) /\
    length log = m /\ m <= length (ab_hist a').
Proof.
  set (tend := [("w", mkda ["x"] (cramp [2]) [("units", "m s^-1")])]).
  assert (E1 : exists a1 e, adams_bashforth cfg_0 prog_fix (mkab 1 None [], tt) st_bad 1000000%Z = ((a1, tt), Err e) /\
                 ab_order a1 = 1 /\ ab_dt a1 = Some 1000000%Z /\ length (ab_hist a1) = 1).
  { assert (H : match adams_bashforth cfg_0 prog_fix (mkab 1 None [], tt) st_bad 1000000%Z with
                | ((a1, tt), Err _) => Nat.eqb (ab_order a1) 1 && match ab_dt a1 with Some z => Z.eqb z 1000000 | None => false end &&
                                       Nat.eqb (length (ab_hist a1)) 1
                | _ => false
                end = true) by (vm_compute; reflexivity).
    destruct (adams_bashforth cfg_0 prog_fix (mkab 1 None [], tt) st_bad 1000000%Z) as [[a1 []] [|e]]; [discriminate H|].
    apply andb_true_iff in H as [H H3]. apply andb_true_iff in H as [H1 H2]. apply Nat.eqb_eq in H1, H3.
    exists a1, e. destruct (ab_dt a1) as [z|]; [|discriminate H2]. apply Z.eqb_eq in H2. subst z. auto. }
  destruct E1 as (a1 & e & E1 & Ho & Hd & Hl).
  exists prog_fix, (mkab 1 None []), a1, st_bad, 1000000%Z, e. split; [reflexivity|]. split; [exact E1|].
  assert (Hgo : forall m, exists log a', history (adams_bashforth cfg_0 prog_fix) prog_fix 1000000 (a1, tt) log (a', tt) /\
    length log = m /\ ab_order a' = 1 /\ ab_dt a' = Some 1000000%Z /\ length (ab_hist a') = S m).
  { induction m as [|m (log & a' & Hh & Hm & Ho' & Hd' & Hl')].
    - exists [], a1. repeat split; auto. constructor.
    - assert (Hok : exists new, step_forward_euler st_good tend 1000000 = Ok new) by (apply is_ok_ex; vm_compute; reflexivity).
      destruct Hok as (new & Hnew).
      assert (Hconv : convert_tendencies st_good tend = Ok tend).
      { unfold convert_tendencies, tend. cbn [mapM bind]. unfold convert_one. cbn [attrs].
        change (dget "units" [("units", "m s^-1")]) with (Some "m s^-1"). cbv iota.
        change (dgetE "w" st_good) with (Ok (VDA (mkda ["x"] (cramp [2]) [("units", "m")]))). cbn [bind attrs].
        change (dget "units" [("units", "m")]) with (Some "m"). cbv iota.
        change ("m" ++ " s^-1")%string with "m s^-1".
        erewrite to_units_own; [reflexivity|reflexivity|reflexivity]. }
      exists (log ++ [mkentry st_good tend [] (copy_untouched st_good (copy_untouched st_good new))]),
             (mkab 1 (Some 1000000%Z) (ab_hist a' ++ [tend])).
      split; [|split; [rewrite app_length; simpl; lia|split; [auto|split; [auto|cbn [ab_hist]; rewrite app_length; simpl; lia]]]].
      eapply history_snoc; [exact Hh|reflexivity|].
      unfold adams_bashforth, ab_call. rewrite Hd', Ho'. unfold ensure_timestep. rewrite Z.eqb_refl. cbn [negb raise_if].
      unfold prog_fix. cbn [bind fst snd]. fold tend. rewrite Hconv. cbn [bind].
      unfold perform_step. rewrite app_length, Hl'. cbn [length]. replace (Nat.min 1 (S m + 1)) with 1 by lia.
      rewrite rev_app_distr. cbn [rev app nth_error]. rewrite Hnew.
      replace (Nat.eqb (S m + 1) 1) with false by (symmetry; apply Nat.eqb_neq; lia). cbn [finish_step bind fst snd ts_tid cfg_0]. reflexivity. }
  intros m. destruct (Hgo m) as (log & a' & Hh & Hm & _ & _ & Hl'). exists log, a'. split; auto. split; auto. lia.
Qed.

(** C32: x/3 + 2x/3 in binary64. *)
Definition prog_idle {T} : icaller (T:=T) unit := fun u st dt => (u, Ok ([], [])).
Definition st_seven : state float := [("q", VDA (mkda [] (mknd [] [float_of_Z 7]) [("units", "m")]))].

Lemma untouched_changes : exists (prog : icaller (T:=float) unit) k st dt s' diag new X x r,
  new_rk 3 = Ok k /\ proper_state st /\ (forall u st dt, snd (prog u st dt) = Ok ([], [])) /\
  ssp_rk cfg_0 prog (k, tt) st dt = (s', Ok (diag, new)) /\
  dget X st = Some (VDA x) /\ dget X new = Some (VDA r) /\ dims x = [] /\ PrimFloat.eqb (da_at r (fun _ => 0)) (da_at x (fun _ => 0)) = false.
Proof.
  assert (H : match ssp_rk cfg_0 prog_idle (mkrk 3 (mkab 1 None []), tt) st_seven 1000000%Z with
              | (_, Ok (_, new)) =>
                  match dget "q" new with Some (VDA r) => negb (PrimFloat.eqb (da_at r (fun _ => 0)) (float_of_Z 7)) | _ => false end
              | _ => false
              end = true) by (vm_compute; reflexivity).
  destruct (ssp_rk cfg_0 prog_idle (mkrk 3 (mkab 1 None []), tt) st_seven 1000000%Z) as [s' [[diag new]|]] eqn:E; [|discriminate H].
  destruct (dget "q" new) as [[r|]|] eqn:Er; try discriminate H. apply negb_true_iff in H.
  exists prog_idle, (mkrk 3 (mkab 1 None [])), st_seven, 1000000%Z, s', diag, new, "q", (mkda [] (mknd [] [float_of_Z 7]) [("units", "m")]), r.
  split; [reflexivity|]. split; [apply proper_stateb_ok; vm_compute; reflexivity|]. repeat split; auto.
Qed.

(** C34, C33: the second call gets the same length in km. *)
Definition prog_w {U} : icaller (T:=Qc) U := fun u st dt => (u, Ok ([("w", scalar 1 "m s^-1")], [])).
Definition st_m : state Qc := [("w", VDA (scalar 1000 "m"))].
Definition st_km : state Qc := [("w", VDA (scalar 1 "km"))].

Lemma scalar_alike : forall z1 z2 s1 s2 u1 u2, parse s1 = Some u1 -> parse s2 = Some u2 -> base_value u1 (cz z1) = base_value u2 (cz z2) ->
  alike (scalar z1 s1) (scalar z2 s2).
Proof.
  intros z1 z2 s1 s2 u1 u2 H1 H2 H. eapply alike_lists; [reflexivity|reflexivity|exact H1|exact H2|apply wf_dab_ok; reflexivity|].
  repeat constructor. exact H.
Qed.

Lemma st_m_km : alike_states st_m st_km.
Proof.
  intros X. unfold st_m, st_km. cbn [dget]. destruct (String.eqb X "w"); [|exact I].
  eapply scalar_alike; reflexivity.
Qed.

Lemma st_m_m : alike_states st_m st_m.
Proof.
  intros X. unfold st_m. cbn [dget]. destruct (String.eqb X "w"); [|exact I]. eapply alike_self; reflexivity.
Qed.

Lemma drive_states : forall {T S} call prog dt sts (s : S) u st0 log (sf : S * nat),
  drive (T:=T) call prog dt (map (fun st _ => st) sts) s u st0 = Some (log, sf) -> map e_st log = sts.
Proof.
  intros T S call prog dt sts. induction sts as [|st sts IH]; intros s u st0 log sf H; cbn [map drive] in H.
  - injection H as <- _. auto.
  - destruct (prog u st dt) as [u1 [[tend pdiag]|e]]; [|discriminate H].
    destruct (call (s, u) st dt) as [[s' u2] [[diag new]|e]]; [|discriminate H].
    destruct (Nat.eqb u1 u2); [|discriminate H].
    destruct (drive call prog dt (map (fun st _ => st) sts) s' u2 new) as [[log1 sf1]|] eqn:Ed; [|discriminate H]. injection H as <- _.
    cbn [map e_st]. f_equal. eapply IH; eauto.
Qed.

Lemma ldrive_states : forall {T} {A : Arith T} {R : Registry} cfg prog dt sts l u st0 log (sf : leap T * nat),
  ldrive cfg prog dt (map (fun st _ => st) sts) l u st0 = Some (log, sf) -> map l_st log = sts.
Proof.
  intros T A R cfg prog dt sts. induction sts as [|st sts IH]; intros l u st0 log sf H; cbn [map ldrive] in H.
  - injection H as <- _. auto.
  - destruct (prog u st dt) as [u1 [[tend pdiag]|e]]; [|discriminate H].
    destruct (leapfrog cfg prog (l, u) st dt) as [[[l' u2] st'] [[diag new]|e]]; [|discriminate H].
    destruct (Nat.eqb u1 u2); [|discriminate H].
    destruct (ldrive cfg prog dt (map (fun st _ => st) sts) l' u2 new) as [[log1 sf1]|] eqn:Ed; [|discriminate H]. injection H as <- _.
    cbn [map l_st]. f_equal. eapply IH; eauto.
Qed.

Lemma prog_w_alike : forall u1 st1 dt1 v1 tend1 diag1 u2 st2 dt2 v2 tend2 diag2,
  prog_w u1 st1 dt1 = (v1 : nat, Ok (tend1, diag1)) -> prog_w u2 st2 dt2 = (v2 : nat, Ok (tend2, diag2)) -> alike_tendencies tend1 tend2.
Proof.
  intros until diag2. intros H1 H2. injection H1 as _ <- _. injection H2 as _ <- _.
  intros X. cbn [dget]. destruct (String.eqb X "w"); [|exact I]. eapply alike_self; reflexivity.
Qed.

Lemma not_alike : forall (st1 st2 : state Qc) X x1 x2 v1 v2, dget X st1 = Some (VDA x1) -> dget X st2 = Some (VDA x2) -> in_grid x1 (fun _ => 0) ->
  amount x1 (fun _ => 0) = Some v1 -> amount x2 (fun _ => 0) = Some v2 -> Qc_eqb v1 v2 = false -> ~ alike_states st1 st2.
Proof.
  intros st1 st2 X x1 x2 v1 v2 E1 E2 G A1 A2 Hv Ha. specialize (Ha X). rewrite E1, E2 in Ha. destruct Ha as [_ Ha].
  destruct (Ha _ G) as (v & H1 & H2). rewrite A1 in H1. rewrite A2 in H2. injection H1 as ->. injection H2 as ->.
  rewrite (proj2 (Qc_eqb_eq _ _) eq_refl) in Hv. discriminate Hv.
Qed.

Definition differ (st1 st2 : state Qc) : bool :=
  match dget "w" st1, dget "w" st2 with
  | Some (VDA x1), Some (VDA x2) =>
      in_gridb x1 (fun _ => 0) &&
      match amount x1 (fun _ => 0), amount x2 (fun _ => 0) with
      | Some v1, Some v2 => negb (Qc_eqb v1 v2)
      | _, _ => false
      end
  | _, _ => false
  end.

Lemma differ_ok : forall st1 st2, differ st1 st2 = true -> ~ alike_states st1 st2.
Proof.
  intros st1 st2 H. unfold differ in H. destruct (dget "w" st1) as [[x1|]|] eqn:E1; try discriminate H.
  destruct (dget "w" st2) as [[x2|]|] eqn:E2; try discriminate H. apply andb_true_iff in H as [H1 H].
  destruct (amount x1 (fun _ => 0)) as [v1|] eqn:A1; [|discriminate H]. destruct (amount x2 (fun _ => 0)) as [v2|] eqn:A2; [|discriminate H].
  apply negb_true_iff in H. eapply not_alike; eauto. apply in_gridb_ok; auto.
Qed.

(** Two runs of one stepper on physically equal states, with physically equal
    tendencies and different results. *)
Lemma ab_unit_change : exists (prog : icaller (T:=Qc) nat) dt d1 d2 e1 e2 s1 s2,
  let call := adams_bashforth cfg_0 prog in
  history call prog dt (mkab 2 None [], 0) [d1; e1] s1 /\ history call prog dt (mkab 2 None [], 0) [d2; e2] s2 /\
  alike_states (e_st d1) (e_st d2) /\ alike_states (e_st e1) (e_st e2) /\
  alike_tendencies (e_tend d1) (e_tend d2) /\ alike_tendencies (e_tend e1) (e_tend e2) /\
  ~ alike_states (e_new e1) (e_new e2).
Proof.
  exists prog_w, 1000000%Z.
  assert (H : match drive (adams_bashforth cfg_0 prog_w) prog_w 1000000 (map (fun st _ => st) [st_m; st_m]) (mkab 2 None []) 0 [],
                    drive (adams_bashforth cfg_0 prog_w) prog_w 1000000 (map (fun st _ => st) [st_m; st_km]) (mkab 2 None []) 0 [] with
              | Some ([d1; e1], s1), Some ([d2; e2], s2) => differ (e_new e1) (e_new e2)
              | _, _ => false
              end = true) by (vm_compute; reflexivity).
  destruct (drive _ _ _ (map _ [st_m; st_m]) _ _ _) as [[[|d1 [|e1 [|]]] s1]|] eqn:E1; try discriminate H.
  destruct (drive _ _ _ (map _ [st_m; st_km]) _ _ _) as [[[|d2 [|e2 [|]]] s2]|] eqn:E2; try discriminate H.
  exists d1, d2, e1, e2, s1, s2. cbv zeta.
  pose proof (drive_ok _ _ _ _ _ _ _ _ _ E1) as [H1 _]. pose proof (drive_ok _ _ _ _ _ _ _ _ _ E2) as [H2 _].
  apply drive_states in E1, E2. injection E1 as S1 S1'. injection E2 as S2 S2'.
  apply differ_ok in H. split; [exact H1|]. split; [exact H2|].
  rewrite S1, S1', S2, S2'. split; [apply st_m_m|]. split; [apply st_m_km|].
  destruct (history_prog _ _ _ _ _ _ H1 d1) as (? & ? & ? & P1); [simpl; auto|].
  destruct (history_prog _ _ _ _ _ _ H1 e1) as (? & ? & ? & P1'); [simpl; auto|].
  destruct (history_prog _ _ _ _ _ _ H2 d2) as (? & ? & ? & P2); [simpl; auto|].
  destruct (history_prog _ _ _ _ _ _ H2 e2) as (? & ? & ? & P2'); [simpl; auto|].
  split; [exact (prog_w_alike _ _ _ _ _ _ _ _ _ _ _ _ P1 P2)|]. split; [exact (prog_w_alike _ _ _ _ _ _ _ _ _ _ _ _ P1' P2')|]. exact H.
Qed.

Lemma leap_unit_change : exists (prog : icaller (T:=Qc) nat) dt (nu alpha : Qc) d1 d2 e1 e2 s1 s2,
  lhistory cfg_0 prog dt (new_leap nu alpha, 0) [d1; e1] s1 /\ lhistory cfg_0 prog dt (new_leap nu alpha, 0) [d2; e2] s2 /\
  alike_states (l_st d1) (l_st d2) /\ alike_states (l_st e1) (l_st e2) /\
  alike_tendencies (l_tend d1) (l_tend d2) /\ alike_tendencies (l_tend e1) (l_tend e2) /\
  ~ alike_states (l_new e1) (l_new e2) /\
  exists x r, dget "w" (l_st e2) = Some (VDA x) /\ dget "w" (l_new e2) = Some (VDA r) /\ units_of x = Some "km" /\ units_of r = Some "m".
Proof.
  exists prog_w, 1000000%Z, nu_e, half.
  assert (H : match ldrive cfg_0 prog_w 1000000 (map (fun st _ => st) [st_m; st_m]) (new_leap nu_e half) 0 [],
                    ldrive cfg_0 prog_w 1000000 (map (fun st _ => st) [st_m; st_km]) (new_leap nu_e half) 0 [] with
              | Some ([d1; e1], s1), Some ([d2; e2], s2) => differ (l_new e1) (l_new e2) &&
                  match dget "w" (l_new e2) with
                  | Some (VDA r) => match units_of r with Some s => String.eqb s "m" | None => false end
                  | _ => false
                  end
              | _, _ => false
              end = true) by (vm_compute; reflexivity).
  destruct (ldrive _ _ _ (map _ [st_m; st_m]) _ _ _) as [[[|d1 [|e1 [|]]] s1]|] eqn:E1; try discriminate H.
  destruct (ldrive _ _ _ (map _ [st_m; st_km]) _ _ _) as [[[|d2 [|e2 [|]]] s2]|] eqn:E2; try discriminate H.
  exists d1, d2, e1, e2, s1, s2.
  pose proof (ldrive_ok _ _ _ _ _ _ _ _ _ E1) as [H1 _]. pose proof (ldrive_ok _ _ _ _ _ _ _ _ _ E2) as [H2 _].
  apply ldrive_states in E1, E2. injection E1 as S1 S1'. injection E2 as S2 S2'.
  apply andb_true_iff in H as [H Hu].
  apply differ_ok in H. split; [exact H1|]. split; [exact H2|].
  rewrite S1, S1', S2, S2'. split; [apply st_m_m|]. split; [apply st_m_km|].
  destruct (lhistory_prog _ _ _ _ _ _ H1 d1) as (? & ? & ? & P1); [simpl; auto|].
  destruct (lhistory_prog _ _ _ _ _ _ H1 e1) as (? & ? & ? & P1'); [simpl; auto|].
  destruct (lhistory_prog _ _ _ _ _ _ H2 d2) as (? & ? & ? & P2); [simpl; auto|].
  destruct (lhistory_prog _ _ _ _ _ _ H2 e2) as (? & ? & ? & P2'); [simpl; auto|].
  split; [exact (prog_w_alike _ _ _ _ _ _ _ _ _ _ _ _ P1 P2)|]. split; [exact (prog_w_alike _ _ _ _ _ _ _ _ _ _ _ _ P1' P2')|]. split; [exact H|].
  destruct (dget "w" (l_new e2)) as [[r|]|]; try discriminate Hu. destruct (units_of r) as [s|] eqn:Er; [|discriminate Hu].
  apply String.eqb_eq in Hu. subst s. exists (scalar 1 "km"), r. repeat split; auto.
Qed.

(** C35: units spelled otherwise than the base units. *)
Definition cp_g : cprops := mkcprops [("a", qprops ["x"] "g")] [("a", qprops ["x"] "g s^-1")] [] None.

Lemma construction_refused : exists cp, forall clean : string -> res string, clean "g s^-1 s" = Ok "kg" ->
  (exists cfg, make_tstep (fun l => l) clean empty_treg [(true, cp)] "step" false = Ok cfg) /\
  make_tstep (fun l => l) clean empty_treg [(true, cp)] "step" true = Err EInvalidProps.
Proof.
  exists cp_g. intros clean Hc. unfold make_tstep.
  assert (Ho : ts_output_properties clean [("a", qprops ["x"] "g s^-1")] = Ok [("a", qprops ["x"] "kg")]).
  { unfold ts_output_properties. cbn [mapM clean_output p_units qprops]. change ("g s^-1" ++ " s")%string with "g s^-1 s".
    rewrite Hc. reflexivity. }
  destruct (make_tendency_composite (fun l => l) true empty_treg [(true, cp_g)]) as [comp|] eqn:E; [|exfalso; vm_compute in E; discriminate E].
  assert (Hk : existsb (fun k => negb (dmem k [("a", qprops ["x"] "kg")])) (keys (t_tend comp)) = false).
  { vm_compute in E. injection E as <-. reflexivity. }
  cbn [bind map snd]. change (composite_inputs (fun l => l) empty_treg [cp_g]) with (Ok [("a", qprops ["x"] "g")]).
  change (composite_tendencies (fun l => l) empty_treg [cp_g]) with (Ok [("a", qprops ["x"] "g s^-1")]).
  cbn [bind]. rewrite Ho. cbn [bind]. split; [|vm_compute; reflexivity].
  apply is_ok_ex. rewrite Hk. vm_compute. reflexivity.
Qed.

(** C38 *)
Lemma timestep_change_refused : exists (prog : icaller (T:=Qc) unit) k st dt dt' s' r r',
  new_rk 3 = Ok k /\ ssp_rk cfg_0 prog (k, tt) st dt = (s', Ok r) /\ snd (ssp_rk cfg_0 prog (k, tt) st dt') = Ok r' /\
  snd (ssp_rk cfg_0 prog s' st dt') = Err EValue.
Proof.
  exists prog_w, (mkrk 3 (mkab 1 None [])), st_m, 1000000%Z, 2000000%Z.
  assert (H : match ssp_rk cfg_0 prog_w (mkrk 3 (mkab 1 None []), tt) st_m 1000000%Z with
              | (s', Ok r) => is_ok (snd (ssp_rk cfg_0 prog_w (mkrk 3 (mkab 1 None []), tt) st_m 2000000%Z)) &&
                              match snd (ssp_rk cfg_0 prog_w s' st_m 2000000%Z) with Err EValue => true | _ => false end
              | _ => false
              end = true) by (vm_compute; reflexivity).
  destruct (ssp_rk cfg_0 prog_w (mkrk 3 (mkab 1 None []), tt) st_m 1000000%Z) as [s' [r|]]; [|discriminate H].
  apply andb_true_iff in H as [H1 H2]. apply is_ok_ex in H1 as (r' & H1).
  destruct (snd (ssp_rk cfg_0 prog_w s' st_m 2000000%Z)) as [|[]] eqn:E; try discriminate H2.
  exists s', r, r'. auto.
Qed.
