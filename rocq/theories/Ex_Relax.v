(** Concrete cases for C97: a depth in cm relaxes towards an equilibrium in m, by a component that works in km. *)
From Coq Require Import String Ascii List Bool Arith ZArith QArith Qcanon Lia.
From Verif Require Import Prelude PreludeFacts ArithM NdArray Units DataArrayM SpecUnits UnitsFacts ExampleRegistry Checks
  SpecArrays SpecDa Tracers Components Composite SpecComposite Steppers SpecSteppers SpecOrder Basic SpecBasic SpecRelax SpecRound StepAlgebra
  Ex_Components Ex_Composite Ex_Steppers Ex_Basic.
Import ListNotations.
Open Scope string_scope.
Open Scope nat_scope.
Open Scope list_scope.

#[local] Existing Instance ex_registry | 5.

Definition st_w : state Qc :=
  [ ("time", VTime 0%Z);
    ("w", VDA (mkda ["x"] (mknd [2] [cz 0; cz 100]) [("units", "cm")]));
    ("equilibrium_w", VDA (mkda ["x"] (mknd [2] [cz 3; cz 5]) [("units", "m")]));
    ("w_relaxation_timescale", VDA (mkda [] (mknd [] [cz 2]) [("units", "day")]));
    ("n", VDA (mkda ["x"] (mknd [2] [cz 7; cz 8]) [("units", "kg")])) ].

Definition comp_w : tcomp :=
  mktcomp true (relaxation_inputs "w" "km") [("w", qprops ["*"] "km s^-1")] [] "relax" false [] None "s^-1".

Definition prog_w : icaller (T:=Qc) unit :=
  fun w st d => implicit_composite_call [inr (stateless (relaxation_call comp_w "w"))] d w st.

Definition cfg_w : tstep := mktstep false "step" (relaxation_inputs "w" "km") [] [("w", qprops ["*"] "km")].

(** The second point. *)
Definition at_1 : string -> nat := fun d => if String.eqb d "x" then 1 else 0.

Definition secs (n : Z) : Qc := Q2Qc (inject_Z n).

Lemma w_setting : sane_registry ex_registry /\ per_second_law ex_registry /\ over_second_law ex_registry over_ex /\
  over_ex "km" = Ok "km s^-1" /\ new_relaxation over_ex "w" "km" "relax" false = Ok comp_w /\
  wf_state st_w /\ NoDup (keys st_w) /\ relaxing "w" at_1 (cz 500) (secs 172800) (cz 100) st_w.
Proof.
  split; [apply ex_registry_sane|]. split; [apply ex_registry_per_second|]. split; [apply over_ex_law|]. split; [reflexivity|]. split; [reflexivity|].
  split; [apply wf_stateb_ok; reflexivity|]. split; [apply nodupb_ok; reflexivity|].
  do 4 eexists. split; [reflexivity|]. split; [reflexivity|]. split; [reflexivity|].
  assert (G : forall k, k < 2 -> forall a, dims a = ["x"] -> shape (@arr Qc a) = [2] -> in_grid a (fun d => if String.eqb d "x" then k else 0)).
  { intros k Hk a Hd Hs d n H. unfold dim_len in H. rewrite Hd, Hs in H. cbn in H. destruct (String.eqb d "x"); [|discriminate H]. injection H as <-. exact Hk. }
  split; [apply (G 1); auto|]. split; [apply (G 1); auto|]. split; [intros d n H; discriminate H|].
  split; [reflexivity|]. split; [reflexivity|]. split.
  - exists "m". split; [reflexivity|]. do 2 eexists. split; [reflexivity|]. split; [reflexivity|]. split; [reflexivity|]. right. split; [reflexivity|]. apply Qc_is_canon. vm_compute. reflexivity.
  - exists "day". split; [reflexivity|]. do 2 eexists. split; [reflexivity|]. split; [reflexivity|]. split; [reflexivity|]. right. split; [reflexivity|]. apply Qc_is_canon. vm_compute. reflexivity.
Qed.

(** Runs of one call after another, computed. *)
Section Rows.
  Context {S : Type} (call : S -> state Qc -> Z -> S * res (stepped Qc)) (dt : Z).

  Fixpoint rows (s : S) (st : state Qc) (nows : list Z) : option (S * state Qc) :=
    match nows with
    | [] => Some (s, st)
    | now :: nows' =>
        match dget "time" st, call s st dt with
        | Some (VTime t), (s1, Ok (_, new)) =>
            let next := dset "time" (VTime (now + dt)) new in
            if Z.eqb t now && proper_stateb next then rows s1 next nows' else None
        | _, _ => None
        end
    end.

  Lemma rows_ok : forall nows s st s' st', rows s st nows = Some (s', st') -> in_a_row call dt s st nows s' st'.
  Proof.
    induction nows as [|now nows IH]; intros s st s' st' H; cbn [rows in_a_row] in *.
    - injection H as <- <-. auto.
    - destruct (dget "time" st) as [[|t]|] eqn:Et; try discriminate H. destruct (call s st dt) as [s1 [[d new]|]] eqn:Ec; [|discriminate H].
      cbv zeta in H. destruct (Z.eqb t now && proper_stateb (dset "time" (VTime (now + dt)) new)) eqn:Eb; [|discriminate H].
      apply andb_true_iff in Eb as (E1 & E2). apply Z.eqb_eq in E1. subst t. exists s1, d, new. split; [reflexivity|]. split; [reflexivity|].
      exists (dset "time" (VTime (now + dt)) new). split; [intros X HX; apply dget_dset_neq; auto|]. split; [apply proper_stateb_ok; auto|]. apply IH, H.
  Qed.
End Rows.

Definition day : Z := 86400000000%Z.

Definition valueb (st : state Qc) (v : Qc) : bool := Qc_eq_bool (value st "w" at_1) v.

(** One step of a day is half a timescale. *)
Lemma w_ab_case : exists s' st', new_ab (T:=Qc) (OInt 1) = Ok (mkab 1 None []) /\ is_order (OInt 1) 1 /\
  after (adams_bashforth cfg_w prog_w) [] (mkab 1 None [], tt) = (mkab 1 None [], tt) /\
  in_a_row (adams_bashforth cfg_w prog_w) day (mkab 1 None [], tt) st_w [0%Z; day] s' st' /\ value st' "w" at_1 = cz 400 /\
  (Q2Qc (day # 1000000) <= secs 172800)%Qc.
Proof.
  assert (E : match rows (adams_bashforth cfg_w prog_w) day (mkab 1 None [], tt) st_w [0%Z; day] with Some (_, st') => valueb st' (cz 400) | None => false end = true) by (vm_compute; reflexivity).
  destruct (rows (adams_bashforth cfg_w prog_w) day (mkab 1 None [], tt) st_w [0%Z; day]) as [[s' st']|] eqn:Er; [|discriminate E].
  exists s', st'. split; [reflexivity|]. split; [reflexivity|]. split; [reflexivity|]. split; [apply rows_ok; exact Er|]. split; [apply Qc_eq_bool_correct; exact E|].
  vm_compute. discriminate.
Qed.

Lemma w_rk_case : forall z, z = 2%Z \/ z = 3%Z -> exists k0 s' st', new_rk (T:=Qc) z = Ok k0 /\ after (ssp_rk cfg_w prog_w) [] (k0, tt) = (k0, tt) /\
  in_a_row (ssp_rk cfg_w prog_w) day (k0, tt) st_w [0%Z; day] s' st' /\
  value st' "w" at_1 = if Z.eqb z 2 then Q2Qc (1375 # 4) else Q2Qc (50975 # 144).
Proof.
  intros z Hz.
  assert (E : match rows (ssp_rk cfg_w prog_w) day (mkrk (Z.to_nat z) (mkab 1 None []), tt) st_w [0%Z; day] with Some (_, st') => valueb st' (if Z.eqb z 2 then Q2Qc (1375 # 4) else Q2Qc (50975 # 144)) | None => false end = true)
    by (destruct Hz as [-> | ->]; vm_compute; reflexivity).
  destruct (rows (ssp_rk cfg_w prog_w) day (mkrk (Z.to_nat z) (mkab 1 None []), tt) st_w [0%Z; day]) as [[s' st']|] eqn:Er; [|discriminate E].
  exists (mkrk (Z.to_nat z) (mkab 1 None [])), s', st'. split; [destruct Hz as [-> | ->]; reflexivity|]. split; [reflexivity|].
  split; [apply rows_ok; exact Er|]. apply Qc_eq_bool_correct; exact E.
Qed.

(** A Leapfrog run, computed. *)
Section Leaps.
  Context (cfg : tstep) (prog : icaller (T:=Qc) unit) (dt : Z).

  Fixpoint leaps (l : leap Qc) (st : state Qc) (nows : list Z) : option (list (lentry Qc) * (leap Qc * unit)) :=
    match nows with
    | [] => Some ([], (l, tt))
    | now :: nows' =>
        let st1 := dset "time" (VTime now) st in
        match prog tt st1 dt, leapfrog cfg prog (l, tt) st1 dt with
        | (_, Ok (tend, _)), ((l', _), st', Ok (diag, new)) =>
            if proper_stateb st1 && wf_stateb st1 then
              match leaps l' new nows' with
              | Some (log, sf) => Some (mklentry st1 tend st' diag new :: log, sf)
              | None => None
              end
            else None
        | _, _ => None
        end
    end.

  Lemma lhistory_consu : forall l st tend pdiag l' st' diag new, prog tt st dt = (tt, Ok (tend, pdiag)) ->
    leapfrog cfg prog (l, tt) st dt = ((l', tt), st', Ok (diag, new)) -> forall s1 log sf, lhistory cfg prog dt s1 log sf -> s1 = (l', tt) ->
    lhistory cfg prog dt (l, tt) (mklentry st tend st' diag new :: log) sf.
  Proof.
    intros l st tend pdiag l' st' diag new Hp Hc s1 log sf H.
    induction H as [s1|s1 log l2 u2 st2 u2' tend2 pdiag2 l2' st2' diag2 new2 H IH Hp2 Hc2]; intros E.
    - subst s1. apply (lhistory_snoc cfg prog dt (l, tt) [] l tt st tt tend pdiag l' st' diag new); auto. constructor.
    - rewrite app_comm_cons. eapply lhistory_snoc; eauto.
  Qed.

  Lemma leaps_ok : forall nows l st log sf, leaps l st nows = Some (log, sf) ->
    lhistory cfg prog dt (l, tt) log sf /\ length log = length nows /\
    (forall e, In e log -> wf_state (l_st e) /\ NoDup (keys (l_st e)) /\ exists now, dget "time" (l_st e) = Some (VTime now)) /\
    (forall pre a b post, log = pre ++ a :: b :: post -> forall X, X <> "time" -> dget X (l_st b) = dget X (l_new a)) /\
    (forall e post, log = e :: post -> forall X, X <> "time" -> dget X (l_st e) = dget X st).
  Proof.
    induction nows as [|now nows IH]; intros l st log sf H; cbn [leaps] in H.
    - injection H as <- <-. split; [constructor|]. split; [auto|]. split; [intros e []|]. split; [intros [|? ?]; discriminate|discriminate].
    - cbv zeta in H. set (st1 := dset "time" (VTime now) st) in *.
      destruct (prog tt st1 dt) as [[] [[tend pdiag]|]] eqn:Ep; [|discriminate].
      destruct (leapfrog cfg prog (l, tt) st1 dt) as [[[l' []] st'] [[diag new]|]] eqn:Ec; [|discriminate].
      destruct (proper_stateb st1 && wf_stateb st1) eqn:Eb; [|discriminate].
      destruct (leaps l' new nows) as [[log1 sf1]|] eqn:Ed; [|discriminate]. injection H as <- <-.
      apply IH in Ed as (Hh & Hl & Hp & Hc & Hf). apply andb_true_iff in Eb as (E2 & E1). apply proper_stateb_ok in E2 as (E2 & _). apply wf_stateb_ok in E1.
      split; [eapply lhistory_consu; eauto|]. split; [cbn; auto|]. split; [|split].
      + intros e [<- | He]; [|auto]. cbn. split; [exact E1|]. split; [exact E2|]. exists now. apply dget_dset_eq.
      + intros [|e0 pre] a b post E; injection E as <- E; [|exact (Hc pre a b post E)]. intros X HX. cbn. exact (Hf b post E X HX).
      + intros e post E. injection E as <- _. intros X HX. cbn. apply dget_dset_neq. auto.
  Qed.
End Leaps.

Definition st_b : state Qc := dset "w_relaxation_timescale" (VDA (mkda ["x"] (mknd [2] [cz 2; cz 1]) [("units", "day")])) st_w.

Lemma b_relaxing : wf_state st_b /\ NoDup (keys st_b) /\ relaxing "w" at_1 (cz 500) (secs 86400) (cz 100) st_b.
Proof.
  split; [apply wf_stateb_ok; reflexivity|]. split; [apply nodupb_ok; reflexivity|].
  do 4 eexists. split; [reflexivity|]. split; [reflexivity|]. split; [reflexivity|].
  assert (G : forall k, k < 2 -> forall a, dims a = ["x"] -> shape (@arr Qc a) = [2] -> in_grid a (fun d => if String.eqb d "x" then k else 0)).
  { intros k Hk a Hd Hs d n H. unfold dim_len in H. rewrite Hd, Hs in H. cbn in H. destruct (String.eqb d "x"); [|discriminate H]. injection H as <-. exact Hk. }
  split; [apply (G 1); auto|]. split; [apply (G 1); auto|]. split; [apply (G 1); auto|].
  split; [reflexivity|]. split; [reflexivity|]. split.
  - exists "m". split; [reflexivity|]. do 2 eexists. split; [reflexivity|]. split; [reflexivity|]. split; [reflexivity|]. right. split; [reflexivity|]. apply Qc_is_canon. vm_compute. reflexivity.
  - exists "day". split; [reflexivity|]. do 2 eexists. split; [reflexivity|]. split; [reflexivity|]. split; [reflexivity|]. right. split; [reflexivity|]. apply Qc_is_canon. vm_compute. reflexivity.
Qed.

Fixpoint all2 (l l' : list Qc) : bool :=
  match l, l' with
  | [], [] => true
  | x :: r, y :: r' => Qc_eq_bool x y && all2 r r'
  | _, _ => false
  end.

Lemma all2_eq : forall l l', all2 l l' = true -> l = l'.
Proof.
  induction l as [|x l IH]; intros [|y l'] H; cbn in H; try discriminate H; [reflexivity|].
  apply andb_true_iff in H as (H1 & H2). f_equal; [apply Qc_eq_bool_correct; exact H1|auto].
Qed.

Lemma w_leap_case : exists log s, lhistory cfg_w prog_w day (new_leap 0%Qc (Q2Qc (1 # 2)), tt) log s /\ length log = 4 /\
  (forall e, In e log -> wf_state (l_st e) /\ NoDup (keys (l_st e))) /\
  (forall pre a b post, log = pre ++ a :: b :: post -> forall X, X <> "time" -> dget X (l_st b) = dget X (l_new a)) /\
  (forall e, In e log -> exists now, dget "time" (l_st e) = Some (VTime now)) /\
  (forall e post, log = e :: post -> relaxing "w" at_1 (cz 500) (secs 172800) (cz 100) (l_st e)) /\
  map (fun e => value (l_st e) "w" at_1) log = [cz 100; cz 300; cz 300; cz 500].
Proof.
  assert (E : match leaps cfg_w prog_w day (new_leap 0%Qc (Q2Qc (1 # 2))) st_w [0%Z; day; (2 * day)%Z; (3 * day)%Z] with
    | Some (log, _) => all2 (map (fun e => value (l_st e) "w" at_1) log) [cz 100; cz 300; cz 300; cz 500] | None => false end = true) by (vm_compute; reflexivity).
  destruct (leaps cfg_w prog_w day (new_leap 0%Qc (Q2Qc (1 # 2))) st_w [0%Z; day; (2 * day)%Z; (3 * day)%Z]) as [[log s]|] eqn:Er; [|discriminate E].
  exists log, s. apply leaps_ok in Er as (H1 & H2 & H3 & H4 & H5).
  split; [exact H1|]. split; [exact H2|]. split; [intros e He; apply H3 in He as (A & B & _); auto|]. split; [exact H4|].
  split; [intros e He; apply H3 in He as (_ & _ & C); exact C|]. split.
  - intros e post Ee. destruct w_setting as (_ & _ & _ & _ & _ & _ & _ & W). destruct W as (x & e0 & s0 & ux & D1 & D2 & D3 & W).
    exists x, e0, s0, ux. rewrite !(H5 e post Ee) by discriminate. auto.
  - apply all2_eq; auto.
Qed.

(** Steps of an hour with the default filter: twice the timestep is less than a twentieth of the timescale. *)
Definition hour : Z := 3600000000%Z.
Definition hours_w : list Qc := [cz 100; Q2Qc (325 # 3); Q2Qc (134005 # 1152); Q2Qc (54993217 # 442368)].

Lemma w_filter_case : exists log s, lhistory cfg_w prog_w hour (new_leap (Q2Qc (1 # 20)) (Q2Qc (1 # 2)), tt) log s /\ length log = 4 /\
  (forall e, In e log -> wf_state (l_st e) /\ NoDup (keys (l_st e))) /\
  (forall pre a b post, log = pre ++ a :: b :: post -> forall X, X <> "time" -> dget X (l_st b) = dget X (l_new a)) /\
  (forall e, In e log -> exists now, dget "time" (l_st e) = Some (VTime now)) /\
  (forall e post, log = e :: post -> relaxing "w" at_1 (cz 500) (secs 172800) (cz 100) (l_st e)) /\
  (Q2Qc (2 # 1) * Q2Qc (hour # 1000000) <= Q2Qc (1 # 20) * secs 172800)%Qc /\
  (Q2Qc (hour # 1000000) * (Q2Qc (2 # 1) - Q2Qc (1 # 20) + Q2Qc (2 # 1) * (Q2Qc (1 # 2) * Q2Qc (1 # 20))) < Q2Qc (2 # 1) * Q2Qc (1 # 20) * secs 172800)%Qc /\
  map (fun e => value (l_st e) "w" at_1) log = hours_w.
Proof.
  assert (E : match leaps cfg_w prog_w hour (new_leap (Q2Qc (1 # 20)) (Q2Qc (1 # 2))) st_w [0%Z; hour; (2 * hour)%Z; (3 * hour)%Z] with
    | Some (log, _) => all2 (map (fun e => value (l_st e) "w" at_1) log) hours_w | None => false end = true) by (vm_compute; reflexivity).
  destruct (leaps cfg_w prog_w hour (new_leap (Q2Qc (1 # 20)) (Q2Qc (1 # 2))) st_w [0%Z; hour; (2 * hour)%Z; (3 * hour)%Z]) as [[log s]|] eqn:Er; [|discriminate E].
  exists log, s. apply leaps_ok in Er as (H1 & H2 & H3 & H4 & H5).
  split; [exact H1|]. split; [exact H2|]. split; [intros e He; apply H3 in He as (A & B & _); auto|]. split; [exact H4|].
  split; [intros e He; apply H3 in He as (_ & _ & C); exact C|]. split; [|split; [vm_compute; discriminate|split; [vm_compute; reflexivity|]]].
  - intros e post Ee. destruct w_setting as (_ & _ & _ & _ & _ & _ & _ & W). destruct W as (x & e0 & s0 & ux & D1 & D2 & D3 & W).
    exists x, e0, s0, ux. rewrite !(H5 e post Ee) by discriminate. auto.
  - apply all2_eq; auto.
Qed.

(** Steps of a day with the default filter: the timestep is more than a twentieth of the timescale. *)
Definition days_w : list Qc := [Q2Qc (100 # 1); Q2Qc (300 # 1); Q2Qc (605 # 2); Q2Qc (15765 # 32); Q2Qc (162197 # 512); Q2Qc (5445141 # 8192)].

Lemma w_away_case : exists log s, lhistory cfg_w prog_w day (new_leap (Q2Qc (1 # 20)) (Q2Qc (1 # 2)), tt) log s /\ length log = 6 /\
  (forall e, In e log -> wf_state (l_st e) /\ NoDup (keys (l_st e))) /\
  (forall pre a b post, log = pre ++ a :: b :: post -> forall X, X <> "time" -> dget X (l_st b) = dget X (l_new a)) /\
  (forall e, In e log -> exists now, dget "time" (l_st e) = Some (VTime now)) /\
  (forall e post, log = e :: post -> relaxing "w" at_1 (cz 500) (secs 172800) (cz 100) (l_st e)) /\
  (Q2Qc (2 # 1) * Q2Qc (1 # 20) * secs 172800 < Q2Qc (day # 1000000) * (Q2Qc (2 # 1) - Q2Qc (1 # 20) + Q2Qc (2 # 1) * (Q2Qc (1 # 2) * Q2Qc (1 # 20))))%Qc /\
  map (fun e => value (l_st e) "w" at_1) log = days_w.
Proof.
  assert (E : match leaps cfg_w prog_w day (new_leap (Q2Qc (1 # 20)) (Q2Qc (1 # 2))) st_w [0%Z; day; (2 * day)%Z; (3 * day)%Z; (4 * day)%Z; (5 * day)%Z] with
    | Some (log, _) => all2 (map (fun e => value (l_st e) "w" at_1) log) days_w | None => false end = true) by (vm_compute; reflexivity).
  destruct (leaps cfg_w prog_w day (new_leap (Q2Qc (1 # 20)) (Q2Qc (1 # 2))) st_w [0%Z; day; (2 * day)%Z; (3 * day)%Z; (4 * day)%Z; (5 * day)%Z]) as [[log s]|] eqn:Er; [|discriminate E].
  exists log, s. apply leaps_ok in Er as (H1 & H2 & H3 & H4 & H5).
  split; [exact H1|]. split; [exact H2|]. split; [intros e He; apply H3 in He as (A & B & _); auto|]. split; [exact H4|].
  split; [intros e He; apply H3 in He as (_ & _ & C); exact C|]. split; [|split; [vm_compute; reflexivity|]].
  - intros e post Ee. destruct w_setting as (_ & _ & _ & _ & _ & _ & _ & W). destruct W as (x & e0 & s0 & ux & D1 & D2 & D3 & W).
    exists x, e0, s0, ux. rewrite !(H5 e post Ee) by discriminate. auto.
  - apply all2_eq; auto.
Qed.

(** The depth of [st] at the point is beyond 510 cm. *)
Definition pastb (st : state Qc) : bool :=
  match dget "w" st with
  | Some (VDA x) => match units_of x with Some u => String.eqb u "cm" && Qle_bool 510 (da_at x at_1) | None => false end
  | _ => false
  end.

Lemma pastb_ok : forall st, pastb st = true ->
  exists x, dget "w" st = Some (VDA x) /\ units_of x = Some "cm" /\ ~ between (cz 100) (da_at x at_1) (cz 500).
Proof.
  intros st H. unfold pastb in H. destruct (dget "w" st) as [[x|]|]; try discriminate H. destruct (units_of x) as [u|] eqn:Eu; [|discriminate H].
  apply andb_true_iff in H as (H1 & E). apply String.eqb_eq in H1. subst u. exists x. split; [reflexivity|]. split; [exact Eu|].
  apply Qle_bool_iff in E. set (v := da_at x at_1) in *. clearbody v. clear - E.
  assert (X1 : (this (cz 100) == 100)%Q) by reflexivity. assert (X5 : (this (cz 500) == 500)%Q) by reflexivity.
  intros [[_ H]|[_ H]]; unfold Qcle in H; [rewrite X5 in H|rewrite X1 in H]; apply (Qle_trans _ _ _ E) in H; apply Qle_bool_iff in H; discriminate H.
Qed.

(** With a timestep of one timescale, AdamsBashforth of the orders 2 to 4 goes past the equilibrium in three steps. *)
Lemma b_ab_past : forall n, (n = 2%Z \/ n = 3%Z \/ n = 4%Z) -> exists a0 s' st', new_ab (T:=Qc) (OInt n) = Ok a0 /\
  in_a_row (adams_bashforth cfg_w prog_w) day (a0, tt) st_b [0%Z; day; (2 * day)%Z] s' st' /\
  Q2Qc (day # 1000000) = secs 86400 /\ wf_state st_b /\ NoDup (keys st_b) /\ relaxing "w" at_1 (cz 500) (secs 86400) (cz 100) st_b /\
  exists x, dget "w" st' = Some (VDA x) /\ units_of x = Some "cm" /\ ~ between (cz 100) (da_at x at_1) (cz 500).
Proof.
  intros n Hn.
  assert (E : match rows (adams_bashforth cfg_w prog_w) day (mkab (Z.to_nat n) None [], tt) st_b [0%Z; day; (2 * day)%Z] with
    | Some (_, st') => pastb st' | None => false end = true) by (destruct Hn as [-> | [-> | ->]]; vm_compute; reflexivity).
  destruct (rows (adams_bashforth cfg_w prog_w) day (mkab (Z.to_nat n) None [], tt) st_b [0%Z; day; (2 * day)%Z]) as [[s' st']|] eqn:Er; [|discriminate E].
  exists (mkab (Z.to_nat n) None []), s', st'. split; [destruct Hn as [-> | [-> | ->]]; reflexivity|]. split; [apply rows_ok; exact Er|].
  split; [apply Qc_is_canon; vm_compute; reflexivity|]. destruct b_relaxing as (B1 & B2 & B3). split; [exact B1|]. split; [exact B2|]. split; [exact B3|].
  apply pastb_ok, E.
Qed.

(** So does Leapfrog, with its default filter. *)
Lemma b_leap_past : exists log s e, lhistory cfg_w prog_w day (new_leap (Q2Qc (1 # 20)) (Q2Qc (1 # 2)), tt) log s /\
  (forall e, In e log -> wf_state (l_st e) /\ NoDup (keys (l_st e)) /\ exists now, dget "time" (l_st e) = Some (VTime now)) /\
  (forall pre a b post, log = pre ++ a :: b :: post -> forall X, X <> "time" -> dget X (l_st b) = dget X (l_new a)) /\
  Q2Qc (day # 1000000) = secs 86400 /\
  (forall e post, log = e :: post -> relaxing "w" at_1 (cz 500) (secs 86400) (cz 100) (l_st e)) /\
  nth_error log 2 = Some e /\ exists x, dget "w" (l_new e) = Some (VDA x) /\ units_of x = Some "cm" /\ ~ between (cz 100) (da_at x at_1) (cz 500).
Proof.
  assert (E : match leaps cfg_w prog_w day (new_leap (Q2Qc (1 # 20)) (Q2Qc (1 # 2))) st_b [0%Z; day; (2 * day)%Z] with
    | Some (log, _) => match nth_error log 2 with Some e => pastb (l_new e) | None => false end | None => false end = true) by (vm_compute; reflexivity).
  destruct (leaps cfg_w prog_w day (new_leap (Q2Qc (1 # 20)) (Q2Qc (1 # 2))) st_b [0%Z; day; (2 * day)%Z]) as [[log s]|] eqn:Er; [|discriminate E].
  destruct (nth_error log 2) as [e|] eqn:Ee; [|discriminate E].
  exists log, s, e. apply leaps_ok in Er as (H1 & H2 & H3 & H4 & H5).
  split; [exact H1|]. split; [exact H3|]. split; [exact H4|]. split; [apply Qc_is_canon; vm_compute; reflexivity|]. split; [|split; [exact Ee|]].
  - intros e1 post E1. destruct b_relaxing as (_ & _ & W). destruct W as (x & e0 & s0 & ux & D1 & D2 & D3 & W).
    exists x, e0, s0, ux. rewrite !(H5 e1 post E1) by discriminate. auto.
  - apply pastb_ok, E.
Qed.

(** An AdamsBashforth run, computed. *)
Section Rows.
  Context (cfg : tstep) (prog : icaller (T:=Qc) unit) (dt : Z).

  Fixpoint abs_run (a : ab Qc) (st : state Qc) (nows : list Z) : option (list (entry Qc) * (ab Qc * unit)) :=
    match nows with
    | [] => Some ([], (a, tt))
    | now :: nows' =>
        let st1 := dset "time" (VTime now) st in
        match prog tt st1 dt, adams_bashforth cfg prog (a, tt) st1 dt with
        | (_, Ok (tend, _)), ((a', _), Ok (diag, new)) =>
            if proper_stateb st1 && wf_stateb st1 then
              match abs_run a' new nows' with
              | Some (log, sf) => Some (mkentry st1 tend diag new :: log, sf)
              | None => None
              end
            else None
        | _, _ => None
        end
    end.

  Lemma history_consu : forall a st tend pdiag a' diag new, prog tt st dt = (tt, Ok (tend, pdiag)) ->
    adams_bashforth cfg prog (a, tt) st dt = ((a', tt), Ok (diag, new)) -> forall s1 log sf, history (adams_bashforth cfg prog) prog dt s1 log sf -> s1 = (a', tt) ->
    history (adams_bashforth cfg prog) prog dt (a, tt) (mkentry st tend diag new :: log) sf.
  Proof.
    intros a st tend pdiag a' diag new Hp Hc s1 log sf H.
    induction H as [s1|s1 log s2 u2 st2 u2' tend2 pdiag2 s2' diag2 new2 H IH Hp2 Hc2]; intros E.
    - subst s1. apply (history_snoc (adams_bashforth cfg prog) prog dt (a, tt) [] a tt st tt tend pdiag a' diag new); auto. constructor.
    - rewrite app_comm_cons. eapply history_snoc; eauto.
  Qed.

  Lemma abs_run_ok : forall nows a st log sf, abs_run a st nows = Some (log, sf) ->
    history (adams_bashforth cfg prog) prog dt (a, tt) log sf /\ length log = length nows /\
    (forall e, In e log -> wf_state (e_st e) /\ NoDup (keys (e_st e)) /\ exists now, dget "time" (e_st e) = Some (VTime now)) /\
    (forall pre a b post, log = pre ++ a :: b :: post -> forall X, X <> "time" -> dget X (e_st b) = dget X (e_new a)) /\
    (forall e post, log = e :: post -> forall X, X <> "time" -> dget X (e_st e) = dget X st).
  Proof.
    induction nows as [|now nows IH]; intros a st log sf H; cbn [abs_run] in H.
    - injection H as <- <-. split; [constructor|]. split; [auto|]. split; [intros e []|]. split; [intros [|? ?]; discriminate|discriminate].
    - cbv zeta in H. set (st1 := dset "time" (VTime now) st) in *.
      destruct (prog tt st1 dt) as [[] [[tend pdiag]|]] eqn:Ep; [|discriminate].
      destruct (adams_bashforth cfg prog (a, tt) st1 dt) as [[a' []] [[diag new]|]] eqn:Ec; [|discriminate].
      destruct (proper_stateb st1 && wf_stateb st1) eqn:Eb; [|discriminate].
      destruct (abs_run a' new nows) as [[log1 sf1]|] eqn:Ed; [|discriminate]. injection H as <- <-.
      apply IH in Ed as (Hh & Hl & Hp & Hc & Hf). apply andb_true_iff in Eb as (E2 & E1). apply proper_stateb_ok in E2 as (E2 & _). apply wf_stateb_ok in E1.
      split; [eapply history_consu; eauto|]. split; [cbn; auto|]. split; [|split].
      + intros e [<- | He]; [|auto]. cbn. split; [exact E1|]. split; [exact E2|]. exists now. apply dget_dset_eq.
      + intros [|e0 pre] b d post E; injection E as <- E; [|exact (Hc pre b d post E)]. intros X HX. cbn. exact (Hf d post E X HX).
      + intros e post E. injection E as <- _. intros X HX. cbn. apply dget_dset_neq. auto.
  Qed.
End Rows.

Definition tenth : Z := 17280000000%Z.

(** Five steps of a tenth of the timescale. *)
Definition tenths : list Z := [0%Z; tenth; (2 * tenth)%Z; (3 * tenth)%Z; (4 * tenth)%Z].

Lemma w_abs_case : forall n, (n = 2%Z \/ n = 3%Z \/ n = 4%Z) -> exists a log s, new_ab (T:=Qc) (OInt n) = Ok a /\ is_order (OInt n) (Z.to_nat n) /\
  history (adams_bashforth cfg_w prog_w) prog_w tenth (a, tt) log s /\ length log = 5 /\
  (forall e, In e log -> wf_state (e_st e) /\ NoDup (keys (e_st e))) /\
  (forall pre a b post, log = pre ++ a :: b :: post -> forall X, X <> "time" -> dget X (e_st b) = dget X (e_new a)) /\
  (forall e, In e log -> exists now, dget "time" (e_st e) = Some (VTime now)) /\
  (forall e post, log = e :: post -> relaxing "w" at_1 (cz 500) (secs 172800) (cz 100) (e_st e)) /\
  (0 < tenth)%Z /\ (Q2Qc (5 # 1) * Q2Qc (tenth # 1000000) <= secs 172800)%Qc /\
  map (fun e => value (e_st e) "w" at_1) (firstn 3 log) = [cz 100; cz 140; cz 174].
Proof.
  intros n Hn.
  assert (E : match abs_run cfg_w prog_w tenth (mkab (Z.to_nat n) None []) st_w tenths with
    | Some (log, _) => all2 (map (fun e => value (e_st e) "w" at_1) (firstn 3 log)) [cz 100; cz 140; cz 174] | None => false end = true) by (destruct Hn as [-> | [-> | ->]]; vm_compute; reflexivity).
  destruct (abs_run cfg_w prog_w tenth (mkab (Z.to_nat n) None []) st_w tenths) as [[log s]|] eqn:Er; [|discriminate E].
  exists (mkab (Z.to_nat n) None []), log, s. apply abs_run_ok in Er as (H1 & H2 & H3 & H4 & H5).
  split; [destruct Hn as [-> | [-> | ->]]; reflexivity|]. split; [destruct Hn as [-> | [-> | ->]]; reflexivity|].
  split; [exact H1|]. split; [exact H2|]. split; [intros e He; apply H3 in He as (A & B & _); auto|]. split; [exact H4|].
  split; [intros e He; apply H3 in He as (_ & _ & C); exact C|]. split; [|split; [reflexivity|split; [vm_compute; discriminate|]]].
  - intros e post Ee. destruct w_setting as (_ & _ & _ & _ & _ & _ & _ & W). destruct W as (x & e0 & s0 & ux & D1 & D2 & D3 & W).
    exists x, e0, s0, ux. rewrite !(H5 e post Ee) by discriminate. auto.
  - apply all2_eq; auto.
Qed.
