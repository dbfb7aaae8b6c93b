(** Concrete cases for C96. *)
From Coq Require Import String Ascii List Bool Arith ZArith QArith Qcanon Qround Lia Lqa.
From Verif Require Import Prelude PreludeFacts ArithM NdArray NdFacts Units DataArrayM GetNp SpecUnits UnitsFacts ExampleRegistry Checks
  SpecDa DaFacts Components Composite SpecComposite Steppers SpecSteppers SteppersFacts RKFacts StepAlgebra StepRuns StepExact StepSteady
  Ex_Components Ex_Composite Ex_Steppers SpecOrder OrderMain Ex_Order SpecConverge ConvergeAlg ConvergeMain ConvergeRate Ex_Converge
  SpecRound RoundFacts RoundMain RoundRK.
Import ListNotations.
Open Scope string_scope.
Open Scope nat_scope.
Open Scope list_scope.

#[local] Existing Instance ex_registry | 5.

(** a' = 2 b, b' = 1: the curve a = time^2, b = time. *)
Definition cur_rhs : rhs := fun now v X c => if String.eqb X "a" then (Q2Qc (2 # 1) * v "b" c)%Qc else if String.eqb X "b" then 1%Qc else 0%Qc.

Lemma cur_lipschitz : forall n, lipschitz (at_x n) (Q2Qc (2 # 1)) cur_rhs.
Proof.
  intros n now e v w N X c ([-> | ->] & Hc); unfold cur_rhs; cbn [String.eqb Ascii.eqb Bool.eqb].
  - assert (K := N "b" c (conj (or_intror eq_refl) Hc)). destruct K. generalize dependent (v "b" c). generalize dependent (w "b" c). intros. split; qc_lra.
  - assert (K := N "b" c (conj (or_intror eq_refl) Hc)). destruct K. generalize dependent (v "b" c). generalize dependent (w "b" c). intros. split; qc_lra.
Qed.

Lemma cur_bounded : forall n V, (1 <= V)%Qc -> bounded_on (at_x n) V (Q2Qc (2 # 1) * V)%Qc cur_rhs.
Proof.
  intros n V HV now v N X c ([-> | ->] & Hc); unfold cur_rhs; cbn [String.eqb Ascii.eqb Bool.eqb].
  - destruct (N "b" c (conj (or_intror eq_refl) Hc)). generalize dependent (v "b" c). intros. split; qc_lra.
  - split; qc_lra.
Qed.

Lemma cur_curve : forall j, j < 4 -> near (at_x 2) (if Nat.eqb j 0 then Q2Qc (1 # 16) else 0)%Qc (par_curve (clock 0 250000 (S j)))
  (fun X c => par_curve (clock 0 250000 j) X c + Q2Qc (250000 # 1000000) * ab_slope 3 cur_rhs 0 250000 (fun k => par_curve (clock 0 250000 k)) j X c)%Qc.
Proof. intros [|[|[|[|j]]]] Hj; [..|lia]; intros X c ([-> | ->] & _); vm_compute; split; discriminate. Qed.

Lemma cur_size : forall j X c, j <= 4 -> at_x 2 X c -> within 1%Qc (par_curve (clock 0 250000 j) X c) 0%Qc.
Proof. intros [|[|[|[|[|j]]]]] X c Hj ([-> | ->] & _); [..|lia|lia]; vm_compute; split; discriminate. Qed.

Definition rightb {T} (d : dict (da T)) : bool := nodupb (keys d) && forallb (fun kv => wf_dab (snd kv)) d.

Lemma rightb_ok : forall {T} (d : dict (da T)), rightb d = true -> NoDup (keys d) /\ forall X a, dget X d = Some a -> wf_da a.
Proof.
  intros T d H. apply andb_true_iff in H as [H1 H2]. split; [apply nodupb_ok; auto|].
  intros X a Ha. apply dget_In in Ha. apply wf_dab_ok. exact (proj1 (forallb_forall _ d) H2 _ Ha).
Qed.

(** The components, in any arithmetic. *)
Section Cur.
  Context {T : Type} {A : Arith T}.

  Definition kgb (a : da T) : bool := (wf_dab a && match dget "units" (attrs a) with Some s => String.eqb s "kg" | None => false end)%bool.

  Definition prog_cur : icaller (T:=T) nat := fun k st dt =>
    (S k,
     match dget "a" st, dget "b" st with
     | Some (VDA x), Some (VDA y) =>
         if (kgb x && kgb y)%bool then
           Ok ([("a", da_map (fun v => amul (aofQ (2 # 1)) v) [("units", "kg s^-1")] y); ("b", da_map (fun v => aofQ (1 # 1)) [("units", "kg s^-1")] y)], [])
         else Err EValue
     | _, _ => Err EKey
     end).

  Lemma kgb_ok : forall a, kgb a = true -> wf_da a /\ units_of a = Some "kg".
  Proof.
    intros a H. unfold kgb in H. apply andb_true_iff in H as [H1 H2]. split; [apply wf_dab_ok; auto|].
    unfold units_of. destruct (dget "units" (attrs a)) as [s|]; [|discriminate]. apply String.eqb_eq in H2. congruence.
  Qed.

  Lemma prog_cur_ok : forall k st dt k' tend diag, prog_cur k st dt = (k', Ok (tend, diag)) ->
    exists x y, dget "a" st = Some (VDA x) /\ dget "b" st = Some (VDA y) /\ (wf_da x /\ units_of x = Some "kg") /\ (wf_da y /\ units_of y = Some "kg") /\
      tend = [("a", da_map (fun v => amul (aofQ (2 # 1)) v) [("units", "kg s^-1")] y); ("b", da_map (fun v => aofQ (1 # 1)) [("units", "kg s^-1")] y)].
  Proof.
    intros k st dt k' tend diag H. unfold prog_cur in H. injection H as _ H. destruct (dget "a" st) as [[x|]|]; try discriminate.
    destruct (dget "b" st) as [[y|]|]; try discriminate. destruct (kgb x && kgb y)%bool eqn:E; [|discriminate].
    apply andb_true_iff in E as [E1 E2]. apply kgb_ok in E1, E2. injection H as <- _. exists x, y. repeat match goal with |- _ /\ _ => split end; tauto.
  Qed.

  Lemma same_rate : forall (st : state T) X x t c z, dget X st = Some (VDA x) -> units_of x = Some "kg" -> units_of t = Some "kg s^-1" -> rate st X t c z -> z = da_at t c.
  Proof.
    intros st X x t c z Hx Ux Ut H. unfold rate in H. rewrite Ut in H. destruct H as (x' & us & Hx' & Hu & H). assert (x' = x) by congruence. subst x'.
    assert (us = "kg") by congruence. subst us. change ("kg" ++ " s^-1")%string with "kg s^-1" in H.
    destruct H as (u1 & u2 & P1 & P2 & _ & H). assert (u2 = u1) by congruence. subst u2. destruct H as [(_ & ->)|(E & _)]; auto.
    rewrite one_eqb_refl in E. discriminate E.
  Qed.

  (** Two roundings in each rate. *)
  Lemma cur_rates : forall num fin big u tiny, rounds A num fin big u tiny -> forall n V dt, (1 <= V)%Qc ->
    ((1 + u) ^ 8 * ((Q2Qc (2 # 1) + tiny) * V + tiny) <= big)%Qc -> (Q2Qc (2 # 1) <= big)%Qc ->
    rates_near num fin (at_x n) cur_rhs V (((1 + u) ^ 2 - 1) * ((Q2Qc (2 # 1) + tiny) * V + tiny))%Qc dt prog_cur.
  Proof.
    intros num fin big u tiny RD n V dt HV HB H2. assert (Ht := rounds_tiny _ _ _ _ _ _ RD). split; [intros X c HG; eapply at_x_time; eauto|].
    intros k st k' tend diag now H Hf Hv Hnow X c HG. apply prog_cur_ok in H as (x & y & Ex & Ey & (Wx & Ux) & (Wy & Uy) & ->). destruct HG as (HX & Hc).
    destruct (Hf "a" c (conj (or_introl eq_refl) Hc)) as (x' & Ex' & Gx & Fx). rewrite Ex in Ex'. injection Ex' as <-.
    destruct (Hf "b" c (conj (or_intror eq_refl) Hc)) as (y' & Ey' & Gy & Fy). rewrite Ey in Ey'. injection Ey' as <-.
    assert (Sy := Hv "b" c (conj (or_intror eq_refl) Hc)). rewrite (reading_at num _ _ _ c Ey) in Sy.
    destruct HX as [-> | ->].
    - eexists. split; [reflexivity|]. split; [apply in_grid_map; auto|]. intros z Rz. apply (same_rate st "a" x) in Rz; auto.
      rewrite da_at_map in Rz by auto. subst z. unfold cur_rhs. cbn [String.eqb Ascii.eqb Bool.eqb]. rewrite (reading_at num _ _ _ c Ey).
      assert (O := term_off A num fin big u tiny RD (2 # 1) (da_at y c) V ltac:(vm_compute; discriminate) H2 Fy Sy HB).
      destruct O as (_ & F2 & _ & W2). split; [exact F2|exact W2].
    - eexists. split; [reflexivity|]. split; [apply in_grid_map; auto|]. intros z Rz. apply (same_rate st "b" y) in Rz; auto.
      rewrite da_at_map in Rz by auto. subst z. unfold cur_rhs. cbn [String.eqb Ascii.eqb Bool.eqb].
      assert (H1 : (Q2Qc (1 # 1) <= big)%Qc) by (eapply Qcle_trans; [|exact H2]; vm_compute; discriminate).
      assert (O := off_ofQ A num fin big u tiny RD (1 # 1) ltac:(vm_compute; discriminate) H1).
      apply (off_le A num fin big u tiny RD 1 2) in O; [|lia]. destruct O as (_ & F2 & _ & W2). split; [exact F2|].
      eapply within_le; [exact W2|]. destruct (p_pow A num fin big u tiny RD 2 2 (le_n _)) as (P1 & _).
      generalize dependent ((1 + u) ^ 2)%Qc. intros q _ P1. assert (Q0 : (0 <= q - 1)%Qc) by qc_lra. apply mul_le; [exact Q0|].
      change (Q2Qc (1 # 1)) with 1%Qc. clear - Ht HV. assert (X := mul_pos _ _ Ht (Qcle_trans 0 1 V ltac:(discriminate) HV)).
      replace ((Q2Qc (2 # 1) + tiny) * V + tiny)%Qc with (Q2Qc (2 # 1) * V + tiny * V + tiny)%Qc by ring. generalize dependent (tiny * V)%Qc. intros. qc_lra.
  Qed.

  Definition st_cur (e : T) : state T :=
    [ ("time", VTime 0); ("a", VDA (mkda ["x"] (mknd [2] [aofQ 0; e]) [("units", "kg")])); ("b", VDA (mkda ["x"] (mknd [2] [e; aofQ 0]) [("units", "kg")])) ].

  Definition at_moments (ts : list Z) : list (state T -> state T) := map (fun t => dset "time" (VTime t)) ts.

  Lemma drive_moments : forall {S : Type} (call : S * nat -> state T -> Z -> (S * nat) * res (stepped T)) prog dt ts s k st log sf,
    drive call prog dt (at_moments ts) s k st = Some (log, sf) ->
    (forall j e, nth_error log j = Some e -> exists t, nth_error ts j = Some t /\ dget "time" (e_st e) = Some (VTime t)) /\
    (forall X, X <> "time" -> forall pre p e post, log = pre ++ p :: e :: post -> dget X (e_st e) = dget X (e_new p)) /\
    forall X e r, X <> "time" -> log = e :: r -> dget X (e_st e) = dget X st.
  Proof.
    intros S call prog dt ts. induction ts as [|t ts IH]; intros s k st log sf H; cbn [at_moments map drive] in H.
    - injection H as <- <-. split; [intros [|j] e He; discriminate He|]. split; [intros X _ pre p e post E; destruct pre; discriminate|discriminate].
    - destruct (prog k (dset "time" (VTime t) st) dt) as [u1 [[tend pdiag]|e]]; [|discriminate H].
      destruct (call (s, k) (dset "time" (VTime t) st) dt) as [[s' u2] [[diag new]|e]]; [|discriminate H].
      destruct (Nat.eqb u1 u2); [|discriminate H].
      fold (at_moments ts) in H. destruct (drive call prog dt (at_moments ts) s' u2 new) as [[log1 sf1]|] eqn:Ed; [|discriminate H].
      injection H as <- <-. destruct (IH _ _ _ _ _ Ed) as (I1 & I2 & I3). split; [|split].
      + intros [|j] e He; [|apply I1; exact He]. injection He as <-. exists t. split; [reflexivity|]. apply dget_dset_eq.
      + intros X HX [|e0 pre] p e post E; injection E as <- E; [|eapply (I2 X HX); exact E]. cbn [e_new]. eapply I3; eauto.
      + intros X e r HX E. injection E as <- _. cbn [e_st]. apply dget_dset_neq. exact HX.
  Qed.

  (** Four steps of order 3 in an arithmetic that rounds. *)
  Definition round_case (num : T -> Qc) (fin : T -> Prop) (big u tiny : Qc) : Prop := exists log s V rho,
    history (adams_bashforth cfg_0 prog_cur) prog_cur 250000 (mkab 3 None [], 0) log s /\ wf_log log /\ length log = 4 /\
    new_ab (T:=T) (OInt 3) = Ok (mkab 3 None []) /\ is_order (OInt 3) 3 /\
    passed_on (at_x 2) log /\ (forall k e, nth_error log k = Some e -> dget "time" (e_st e) = Some (VTime (clock 0 250000 k))) /\
    rates_near num fin (at_x 2) cur_rhs V rho 250000 prog_cur /\ lipschitz (at_x 2) (Q2Qc (2 # 1)) cur_rhs /\ bounded_on (at_x 2) V (Q2Qc (2 # 1) * V)%Qc cur_rhs /\
    (0 <= rho)%Qc /\ (0 <= V)%Qc /\
    (forall e post, log = e :: post -> has_finite fin (at_x 2) (e_st e) /\ near (at_x 2) (Q2Qc (1 # 10)) (reading num (e_st e)) (par_curve 0)) /\
    let d := fun j => if Nat.eqb j 0 then Q2Qc (1 # 16) else 0%Qc in let h := Q2Qc (250000 # 1000000) in let y := fun k => par_curve (clock 0 250000 k) in
    (forall j, j < length log -> near (at_x 2) (d j) (y (S j)) (fun X c => y j X c + h * ab_slope 3 cur_rhs 0 250000 y j X c)%Qc) /\
    (forall j X c, j <= length log -> at_x 2 X c -> within 1%Qc (y j X c) 0%Qc) /\
    (forall m, 1 <= m <= 3 -> ab_fits big u tiny h V (Q2Qc (2 # 1) * V + rho)%Qc m) /\
    (1 + bound (1 + h * Q2Qc (2 # 1) * ab_size 3) (fun j => d j + h * (ab_size 3 * rho) + ab_rounding u tiny h V (Q2Qc (2 # 1) * V + rho) (Nat.min 3 (S j))) (Q2Qc (1 # 10)) (length log) <= V)%Qc.

  Lemma round_case_made : forall num fin big u tiny V e, rounds A num fin big u tiny ->
    match drive (adams_bashforth cfg_0 prog_cur) prog_cur 250000 (at_moments par_times) (mkab 3 None []) 0 (st_cur e) with
    | Some (log, _) => forallb (fun e => proper_stateb (e_st e) && rightb (e_tend e))%bool log | None => false end = true ->
    fin (aofQ 0) -> fin e -> within (Q2Qc (1 # 10)) (num (aofQ 0)) 0%Qc -> within (Q2Qc (1 # 10)) (num e) 0%Qc -> (1 <= V)%Qc ->
    let rho := (((1 + u) ^ 2 - 1) * ((Q2Qc (2 # 1) + tiny) * V + tiny))%Qc in
    let F := (Q2Qc (2 # 1) * V + rho)%Qc in let h := Q2Qc (250000 # 1000000) in
    ((1 + u) ^ 8 * ((Q2Qc (2 # 1) + tiny) * V + tiny) <= big)%Qc -> (Q2Qc (2 # 1) <= big)%Qc -> (0 <= rho)%Qc ->
    ab_fits big u tiny h V F 1 -> ab_fits big u tiny h V F 2 -> ab_fits big u tiny h V F 3 ->
    (1 + bound (1 + h * Q2Qc (2 # 1) * ab_size 3) (fun j => (if Nat.eqb j 0 then Q2Qc (1 # 16) else 0%Qc) + h * (ab_size 3 * rho) + ab_rounding u tiny h V F (Nat.min 3 (S j))) (Q2Qc (1 # 10)) 4 <= V)%Qc ->
    round_case num fin big u tiny.
  Proof.
    intros num fin big u tiny V e RD H F0 Fe N0 Ne HV rho F h HB H2 Hrho A1 A2 A3 HVb.
    destruct (drive (adams_bashforth cfg_0 prog_cur) prog_cur 250000 (at_moments par_times) (mkab 3 None []) 0 (st_cur e)) as [[log s]|] eqn:E; [|discriminate H].
    destruct (drive_moments _ _ _ _ _ _ _ _ _ E) as (I1 & I2 & I3). destruct (drive_ok _ _ _ _ _ _ _ _ _ E) as (Hh & Hl). unfold at_moments in Hl. rewrite map_length in Hl. change (length par_times) with 4 in Hl.
    assert (Hb := proj1 (forallb_forall _ log) H). clear H E. exists log, s, V, rho. split; [exact Hh|]. split.
    { intros e' Hin. specialize (Hb e' Hin). apply andb_true_iff in Hb as [B1 B2]. split; [apply proper_stateb_ok; exact B1|apply rightb_ok; exact B2]. }
    split; [exact Hl|]. split; [reflexivity|]. split; [cbn; lia|].
    split; [intros pre p e' post Ee X c HG; eapply I2; [eapply at_x_time; eauto|exact Ee]|].
    split; [intros k e' He; destruct (I1 k e' He) as (t & Ht & Hd); rewrite Hd, (par_clock k t Ht); reflexivity|].
    split; [eapply cur_rates; eauto|]. split; [apply cur_lipschitz|]. split; [apply cur_bounded; exact HV|]. split; [exact Hrho|].
    split; [eapply Qcle_trans; [|exact HV]; discriminate|]. split.
    { intros e' post Ee. assert (Same : forall X, X <> "time" -> dget X (e_st e') = dget X (st_cur e)) by (intros X HX; eapply I3; eauto). split.
      - intros X c HG. rewrite (Same X (at_x_time _ _ _ HG)). destruct HG as ([-> | ->] & Hc); (eexists; split; [reflexivity|]).
        + split; [|cbn; destruct (c "x") as [|[|k]]; [exact F0|exact Fe|lia]].
          intros d k Hd. vm_compute in Hd. destruct d as [|[[] [] [] [] [] [] [] []] [|]]; try discriminate Hd; injection Hd as <-; exact Hc.
        + split; [|cbn; destruct (c "x") as [|[|k]]; [exact Fe|exact F0|lia]].
          intros d k Hd. vm_compute in Hd. destruct d as [|[[] [] [] [] [] [] [] []] [|]]; try discriminate Hd; injection Hd as <-; exact Hc.
      - intros X c HG. unfold reading. rewrite (Same X (at_x_time _ _ _ HG)). destruct HG as ([-> | ->] & Hc).
        + change (within (Q2Qc (1 # 10)) (num (da_at (mkda ["x"] (mknd [2] [aofQ 0; e]) [("units", "kg")]) c)) 0%Qc).
          unfold da_at. cbn. destruct (c "x") as [|[|k]]; [exact N0|exact Ne|lia].
        + change (within (Q2Qc (1 # 10)) (num (da_at (mkda ["x"] (mknd [2] [e; aofQ 0]) [("units", "kg")]) c)) 0%Qc).
          unfold da_at. cbn. destruct (c "x") as [|[|k]]; [exact Ne|exact N0|lia]. }
    cbv zeta. rewrite Hl. split; [exact cur_curve|]. split; [exact cur_size|]. split; [|exact HVb].
    intros [|[|[|[|m]]]] Hm; [lia|exact A1|exact A2|exact A3|lia].
  Qed.
  (** Two steps of three stages. *)
  Definition round_rk_case (num : T -> Qc) (fin : T -> Prop) (big u tiny : Qc) : Prop := exists k0 s' st st' V W rho,
    new_rk (T:=T) 3 = Ok k0 /\ after (ssp_rk cfg_0 prog_cur) [] (k0, 0) = (k0, 0) /\ proper_components prog_cur /\ proper_state st /\
    one_by_one (ssp_rk cfg_0 prog_cur) 100000 (k0, 0) st (times 0 100000 2) s' st' /\
    rates_near num fin (at_x 2) cur_rhs V rho 100000 prog_cur /\ lipschitz (at_x 2) (Q2Qc (2 # 1)) cur_rhs /\ bounded_on (at_x 2) V (Q2Qc (2 # 1) * V)%Qc cur_rhs /\
    (0 <= rho)%Qc /\ (0 <= V)%Qc /\ has_finite fin (at_x 2) st /\
    let y := fun k => par_curve (clock 0 100000 k) in let h := Q2Qc (100000 # 1000000) in
    near (at_x 2) (Q2Qc (1 # 10)) (reading num st) (y 0) /\
    (forall j, j < 2 -> near (at_x 2) 0%Qc (y (S j)) (shu_osher 3 h cur_rhs (clock 0 100000 j) (y j))) /\
    (forall j X c, j <= 2 -> at_x 2 X c -> within 1%Qc (y j X c) 0%Qc) /\
    rk_fits big u tiny h W V (Q2Qc (2 # 1) * V)%Qc rho /\
    (1 + bound (rk_growth 3 (h * Q2Qc (2 # 1))) (fun _ => 0 + rk_rounding 3 (h * Q2Qc (2 # 1)) (euler_error u tiny h V (Q2Qc (2 # 1) * V) rho) (mix_error u tiny V))
      (Q2Qc (1 # 10)) 2 <= W)%Qc.

  Lemma cur_proper : proper_components prog_cur.
  Proof.
    intros k st dt k' tend diag H. apply prog_cur_ok in H as (x & y & _ & _ & (Wx & _) & (Wy & _) & ->).
    split; [apply nodupb_ok; vm_compute; reflexivity|]. intros X a Ha. apply dget_In in Ha.
    destruct Ha as [Ha|[Ha|[]]]; injection Ha as _ <-; apply wf_da_map; auto.
  Qed.

  Lemma start_state : forall num (fin : T -> Prop) e st, fin (aofQ 0) -> fin e -> within (Q2Qc (1 # 10)) (num (aofQ 0)) 0%Qc -> within (Q2Qc (1 # 10)) (num e) 0%Qc ->
    (forall X, X <> "time" -> dget X st = dget X (st_cur e)) ->
    has_finite fin (at_x 2) st /\ near (at_x 2) (Q2Qc (1 # 10)) (reading num st) (par_curve 0).
  Proof.
    intros num fin e st F0 Fe N0 Ne Same. split.
    - intros X c HG. rewrite (Same X (at_x_time _ _ _ HG)). destruct HG as ([-> | ->] & Hc); (eexists; split; [reflexivity|]).
      + split; [|cbn; destruct (c "x") as [|[|k]]; [exact F0|exact Fe|lia]].
        intros d k Hd. vm_compute in Hd. destruct d as [|[[] [] [] [] [] [] [] []] [|]]; try discriminate Hd; injection Hd as <-; exact Hc.
      + split; [|cbn; destruct (c "x") as [|[|k]]; [exact Fe|exact F0|lia]].
        intros d k Hd. vm_compute in Hd. destruct d as [|[[] [] [] [] [] [] [] []] [|]]; try discriminate Hd; injection Hd as <-; exact Hc.
    - intros X c HG. unfold reading. rewrite (Same X (at_x_time _ _ _ HG)). destruct HG as ([-> | ->] & Hc).
      + change (within (Q2Qc (1 # 10)) (num (da_at (mkda ["x"] (mknd [2] [aofQ 0; e]) [("units", "kg")]) c)) 0%Qc).
        unfold da_at. cbn. destruct (c "x") as [|[|k]]; [exact N0|exact Ne|lia].
      + change (within (Q2Qc (1 # 10)) (num (da_at (mkda ["x"] (mknd [2] [e; aofQ 0]) [("units", "kg")]) c)) 0%Qc).
        unfold da_at. cbn. destruct (c "x") as [|[|k]]; [exact Ne|exact N0|lia].
  Qed.

  Lemma round_rk_case_made : forall num fin big u tiny V W e, rounds A num fin big u tiny ->
    (proper_stateb (st_cur e) &&
     match ssp_rk cfg_0 prog_cur (mkrk 3 (mkab 1 None []), 0) (st_cur e) 100000 with
     | (s1, Ok (_, new)) => let next := dset "time" (VTime 100000) new in
         proper_stateb next && match ssp_rk cfg_0 prog_cur s1 next 100000 with (_, Ok (_, new2)) => proper_stateb new2 | _ => false end
     | _ => false end)%bool = true ->
    fin (aofQ 0) -> fin e -> within (Q2Qc (1 # 10)) (num (aofQ 0)) 0%Qc -> within (Q2Qc (1 # 10)) (num e) 0%Qc -> (1 <= V)%Qc ->
    let rho := (((1 + u) ^ 2 - 1) * ((Q2Qc (2 # 1) + tiny) * V + tiny))%Qc in let h := Q2Qc (100000 # 1000000) in
    ((1 + u) ^ 8 * ((Q2Qc (2 # 1) + tiny) * V + tiny) <= big)%Qc -> (Q2Qc (2 # 1) <= big)%Qc -> (0 <= rho)%Qc ->
    rk_fits big u tiny h W V (Q2Qc (2 # 1) * V)%Qc rho ->
    (1 + bound (rk_growth 3 (h * Q2Qc (2 # 1))) (fun _ => 0 + rk_rounding 3 (h * Q2Qc (2 # 1)) (euler_error u tiny h V (Q2Qc (2 # 1) * V) rho) (mix_error u tiny V))
      (Q2Qc (1 # 10)) 2 <= W)%Qc ->
    round_rk_case num fin big u tiny.
  Proof.
    intros num fin big u tiny V W e RD E F0 Fe N0 Ne HV rho h HB H2 Hrho Hfit HWb. apply andb_true_iff in E as (P0 & E).
    destruct (ssp_rk cfg_0 prog_cur (mkrk 3 (mkab 1 None []), 0) (st_cur e) 100000) as [s1 [[d1 new1]|er]] eqn:E1; [|discriminate E].
    cbv zeta in E. apply andb_true_iff in E as (P1 & E).
    destruct (ssp_rk cfg_0 prog_cur s1 (dset "time" (VTime 100000) new1) 100000) as [s2 [[d2 new2]|er]] eqn:E2; [|discriminate E].
    exists (mkrk 3 (mkab 1 None [])), s2, (st_cur e), new2, V, W, rho. split; [reflexivity|]. split; [reflexivity|]. split; [exact cur_proper|].
    split; [apply proper_stateb_ok; exact P0|]. split.
    { change (times 0 100000 2) with [0%Z; 100000%Z]. cbn [one_by_one]. exists s1, d1, new1. split; [reflexivity|]. split; [exact E1|].
      exists (dset "time" (VTime 100000) new1). split; [intros X HX; apply dget_dset_neq; auto|].
      split; [apply proper_stateb_ok; exact P1|]. exists s2, d2, new2. split; [apply dget_dset_eq|]. split; [exact E2|].
      exists new2. split; auto. split; auto. apply proper_stateb_ok. exact E. }
    destruct (start_state num fin e (st_cur e) F0 Fe N0 Ne ltac:(auto)) as (S1 & S2).
    split; [eapply cur_rates; eauto|]. split; [apply cur_lipschitz|]. split; [apply cur_bounded; exact HV|]. split; [exact Hrho|].
    split; [eapply Qcle_trans; [|exact HV]; discriminate|]. split; [exact S1|]. cbv zeta. split; [exact S2|]. split.
    { intros [|[|j]] Hj; [..|lia]; intros X c ([-> | ->] & _); vm_compute; split; discriminate. }
    split; [|split; [exact Hfit|exact HWb]].
    intros [|[|[|j]]] X c Hj ([-> | ->] & _); [..|lia|lia]; vm_compute; split; discriminate.
  Qed.
End Cur.

(** Numbers with twenty binary places. *)
Definition nearest (x : Qc) : Qc := Q2Qc (Qfloor (x * (1048576 # 1) + (1 # 2))%Q # 1048576).

Definition fixed : Arith Qc := {|
  azero := 0%Qc;
  aadd := fun x y => nearest (x + y);
  asub := fun x y => nearest (x - y);
  amul := fun x y => nearest (x * y);
  adiv := fun x y => nearest (x / y);
  aofQ := fun q => nearest (Q2Qc q);
  aeqb := Qc_eq_bool
|}.

Lemma nearest_close : forall x, within (Q2Qc (1 # 2097152)) (nearest x) x.
Proof.
  intros x. unfold nearest. assert (L := Qfloor_le (x * (1048576 # 1) + (1 # 2))%Q). assert (G := Qlt_floor (x * (1048576 # 1) + (1 # 2))%Q).
  generalize dependent (Qfloor (x * (1048576 # 1) + (1 # 2))%Q). intros z L G. rewrite inject_Z_plus in G. change (inject_Z 1) with 1%Q in G.
  assert (Z2 : (z # 1048576 == inject_Z z * (1 # 1048576))%Q) by (unfold Qeq, inject_Z; cbn; lia).
  split; unfold Qcle; rewrite this_minus, !this_Q2Qc, Z2; destruct x as [q Hq]; cbn [this] in *; generalize dependent (inject_Z z); clear; intros; lra.
Qed.

Lemma fixed_rounds : forall big, rounds fixed (fun x => x) (fun _ => True) big (Q2Qc (1 # 2097152)) 1%Qc.
Proof.
  intros big.
  assert (N : forall s x, within s x 0%Qc -> within (Q2Qc (1 # 2097152) * (s + 1))%Qc (nearest x) x).
  { intros s x Hs. eapply within_le; [apply nearest_close|]. assert (S0 := within_nonneg _ _ _ Hs). clear - S0. qc_lra. }
  split; [vm_compute; discriminate|vm_compute; discriminate|..]; intros; (split; [exact I|]); apply N; assumption.
Qed.

Lemma fixed_case : round_case (A:=fixed) (fun x => x) (fun _ => True) (cz 1000) (Q2Qc (1 # 2097152)) 1%Qc.
Proof.
  apply (round_case_made (A:=fixed) _ _ _ _ _ (cz 16) (Q2Qc (1 # 16)) (fixed_rounds _)).
  1: vm_compute; reflexivity.
  all: try exact I.
  all: try (vm_compute; split; discriminate).
  all: vm_compute; discriminate.
Qed.

Lemma fixed_rk_case : round_rk_case (A:=fixed) (fun x => x) (fun _ => True) (cz 1000) (Q2Qc (1 # 2097152)) 1%Qc.
Proof.
  apply (round_rk_case_made (A:=fixed) _ _ _ _ _ (cz 6) (cz 2) (Q2Qc (1 # 16)) (fixed_rounds _)).
  1: vm_compute; reflexivity.
  all: try exact I.
  all: try (vm_compute; split; discriminate).
  all: try (vm_compute; discriminate).
  split; [vm_compute; split; discriminate|]. split; vm_compute; discriminate.
Qed.
