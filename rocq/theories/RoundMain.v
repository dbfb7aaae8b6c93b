(** Main lemmas for C96: Adams-Bashforth runs in an arithmetic that rounds. *)
From Coq Require Import String List Bool Arith ZArith QArith Qcanon Lia Lqa.
From Verif Require Import Prelude PreludeFacts ArithM NdArray NdFacts Units DataArrayM GetNp SpecUnits UnitsFacts SpecDa DaFacts
  Components Composite SpecComposite Steppers SpecSteppers SteppersFacts ABFacts StepAlgebra StepRuns StepExact SpecOrder OrderMain SteppersMain
  SpecConverge ConvergeAlg ConvergeMain ConvergeAB ConvergeLeap ConvergeRate SpecRound RoundFacts.
Import ListNotations.
Open Scope string_scope.
Open Scope nat_scope.
Open Scope list_scope.

Lemma sum_size : forall tiny a b, (0 <= tiny)%Qc -> (0 <= a)%Qc -> (0 <= b)%Qc -> (0 <= a + b + tiny)%Qc.
Proof. intros. qc_lra. Qed.

Lemma product_size : forall tiny a b, (0 <= tiny)%Qc -> (0 <= a)%Qc -> (0 <= b)%Qc -> (0 <= a * b + tiny)%Qc.
Proof. intros tiny a b Ht Ha Hb. assert (X := mul_pos _ _ Ha Hb). generalize dependent (a * b)%Qc. intros. qc_lra. Qed.

Lemma const_size : forall tiny q, (0 <= tiny)%Qc -> (0 <= @aofQ Qc (sizes tiny) q)%Qc.
Proof.
  intros tiny q Ht. cbn [aofQ sizes]. destruct (Qclt_le_dec (Q2Qc q) 0) as [X|X]; generalize dependent (Q2Qc q); intros; qc_lra.
Qed.

Lemma ab_size_of_nonneg : forall tiny h V F m, (0 <= tiny)%Qc -> (0 <= h)%Qc -> (0 <= V)%Qc -> (0 <= F)%Qc -> (0 <= ab_size_of tiny h V F m)%Qc.
Proof.
  intros tiny h V F m Ht Hh HV HF. assert (HH : (0 <= h + tiny)%Qc) by qc_lra.
  assert (Q2 := fun q => const_size tiny q Ht). assert (S2 := fun a b => sum_size tiny a b Ht). assert (M2 := fun a b => product_size tiny a b Ht).
  unfold ab_size_of. change (@aadd Qc (sizes tiny)) with (fun a b => (a + b + tiny)%Qc).
  generalize dependent (h + tiny)%Qc. intros H HH. clear Hh.
  assert (A2 : forall a b, (0 <= a)%Qc -> (0 <= b)%Qc -> (0 <= @aadd Qc (sizes tiny) a b)%Qc) by exact S2.
  assert (B2 : forall a b, (0 <= a)%Qc -> (0 <= b)%Qc -> (0 <= @asub Qc (sizes tiny) a b)%Qc) by exact S2.
  assert (C2 : forall a b, (0 <= a)%Qc -> (0 <= b)%Qc -> (0 <= @amul Qc (sizes tiny) a b)%Qc) by exact M2.
  clear S2 M2 Ht. generalize dependent (sizes tiny). intros A Q2 A2 B2 C2.
  destruct m as [|[|[|[|[|m]]]]]; cbn [repeat ab_formula]; [exact HV| | | | |exact HV];
    repeat match goal with
    | |- (0 <= aadd _ _)%Qc => apply A2
    | |- (0 <= asub _ _)%Qc => apply B2
    | |- (0 <= amul _ _)%Qc => apply C2
    | |- (0 <= aofQ _)%Qc => apply Q2
    | _ => assumption
    end.
Qed.

Lemma same_beside : forall q1 q2 q3 b d, (q2 <= q3)%Qc -> (q1 + b + q2 + d <= q1 + b + q3 + d)%Qc.
Proof. intros. qc_lra. Qed.

Section RoundMain.
  Context {T : Type} {A : Arith T} {R : Registry}.

  Lemma history_call : forall {S U} (call : S * U -> state T -> Z -> (S * U) * res (stepped T)) (prog : icaller (T:=T) U) dt s0 log s,
    history call prog dt s0 log s -> forall e, In e log -> exists u u' diag, prog u (e_st e) dt = (u', Ok (e_tend e, diag)).
  Proof.
    intros S U call prog dt s0 log s H. induction H as [|s0 log s u st u' tend pdiag s' diag new H IH Hp Hc]; intros e He; [destruct He|].
    apply in_app_or in He as [He|[<-|[]]]; [auto|]. exists u, u', pdiag. exact Hp.
  Qed.

  Definition now_of (st : state T) : Z := match dget "time" st with Some (VTime t) => t | _ => 0%Z end.

  Lemma reading_at : forall num (st : state T) X x c, dget X st = Some (VDA x) -> reading num st X c = num (da_at x c).
  Proof. intros num st X x c H. unfold reading. rewrite H. reflexivity. Qed.

  Lemma ab_rounded_run : forall {U} num fin big u tiny, rounds A num fin big u tiny ->
    forall cfg (prog : icaller (T:=T) U) dt o n a u0 log s G f L d t0 y e0 rho Yb V F,
    new_ab o = Ok a -> is_order o n ->
    history (adams_bashforth cfg prog) prog dt (a, u0) log s -> wf_log log -> (0 <= dt)%Z ->
    passed_on G log -> (forall k e, nth_error log k = Some e -> dget "time" (e_st e) = Some (VTime (clock t0 dt k))) ->
    rates_near num fin G f V rho dt prog -> lipschitz G L f -> bounded_on G V F f ->
    (0 <= L)%Qc -> (0 <= e0)%Qc -> (0 <= rho)%Qc -> (0 <= V)%Qc -> (0 <= F)%Qc -> (forall j, 0 <= d j)%Qc ->
    (forall e post, log = e :: post -> has_finite fin G (e_st e) /\ near G e0 (reading num (e_st e)) (y 0)) ->
    let h := Q2Qc (dt # 1000000) in
    (forall j, j < length log -> near G (d j) (y (S j)) (fun X c => y j X c + h * ab_slope n f t0 dt y j X c)%Qc) ->
    (forall j X c, j <= length log -> G X c -> within Yb (y j X c) 0%Qc) ->
    (forall m, 1 <= m <= n -> ab_fits big u tiny h V (F + rho)%Qc m) ->
    let K := (1 + h * L * ab_size n)%Qc in
    let D := fun j => (d j + h * (ab_size n * rho) + ab_rounding u tiny h V (F + rho)%Qc (Nat.min n (S j)))%Qc in
    (Yb + bound K D e0 (length log) <= V)%Qc ->
    forall k e, nth_error log k = Some e ->
    has_finite fin G (e_new e) /\ near G (bound K D e0 (S k)) (reading num (e_new e)) (y (S k)).
  Proof.
    intros U num fin big u tiny RD cfg prog dt o n a u0 log s G f L d t0 y e0 rho Yb V F Ha Ho H Hw Hdt Hho Hck Hr Hl Hbd HL He0 Hrho HV HF Hd H0 h Hy HYb Hfit K D HVb.
    destruct (order_made o n a Ha Ho) as (Hn & Ea).
    assert (Hh : (0 <= h)%Qc) by (apply secs_nonneg; exact Hdt).
    assert (Ht := rounds_tiny _ _ _ _ _ _ RD). assert (HFr : (0 <= F + rho)%Qc) by qc_lra.
    assert (HK : (1 <= K)%Qc).
    { unfold K. assert (X := mul_pos _ _ (mul_pos _ _ Hh HL) (ab_size_nonneg n)). generalize dependent (h * L * ab_size n)%Qc. intros. qc_lra. }
    assert (P8 : (0 <= (1 + u) ^ 8 - 1)%Qc).
    { destruct (p_pow A num fin big u tiny RD 8 8 (le_n _)) as (X & _). generalize dependent ((1 + u) ^ 8)%Qc. intros. qc_lra. }
    assert (RN : forall m, (0 <= ab_rounding u tiny h V (F + rho) m)%Qc).
    { intros m. apply mul_pos; [exact P8|apply ab_size_of_nonneg; auto]. }
    assert (Rho : (0 <= h * (ab_size n * rho))%Qc) by (apply mul_pos; [exact Hh|apply mul_pos; [apply ab_size_nonneg|exact Hrho]]).
    assert (HD : forall j, (0 <= D j)%Qc).
    { intros j. unfold D. specialize (Hd j). specialize (RN (Nat.min n (S j))). generalize dependent (ab_rounding u tiny h V (F + rho) (Nat.min n (S j)))%Qc.
      generalize dependent (h * (ab_size n * rho))%Qc. intros. qc_lra. }
    assert (Key : forall k e, nth_error log k = Some e ->
      (has_finite fin G (e_st e) /\ near G (bound K D e0 k) (reading num (e_st e)) (y k)) /\
      has_finite fin G (e_new e) /\ near G (bound K D e0 (S k)) (reading num (e_new e)) (y (S k))).
    2:{ intros k e He. apply (Key k e He). }
    induction k as [k IH] using lt_wf_ind. intros e He.
    destruct (nth_error_split _ _ He) as (pre & post & E & Elen).
    assert (Hk : k < length log) by (apply nth_error_Some; congruence).
    (* values near the curve are of size V *)
    assert (InV : forall v j, j <= length log -> near G (bound K D e0 j) v (y j) -> forall X c, G X c -> within V (v X c) 0%Qc).
    { intros v j Hj Nv X c HG. eapply within_le; [eapply within_trans; [exact (Nv X c HG : within _ _ _)|exact (HYb j X c Hj HG)]|].
      assert (X1 := bound_le K D e0 (length log) j HK He0 HD Hj). generalize dependent (bound K D e0 (length log)). generalize (bound K D e0 j). intros. qc_lra. }
    (* the state of this call *)
    assert (Hst : has_finite fin G (e_st e) /\ near G (bound K D e0 k) (reading num (e_st e)) (y k)).
    { destruct k as [|k].
      - destruct pre; [|discriminate Elen]. apply (H0 e post E).
      - destruct (exists_last (l:=pre)) as (pre' & p & Ep); [intros ->; discriminate Elen|]. subst pre.
        rewrite app_length in Elen. simpl in Elen. rewrite <- app_assoc in E. simpl in E.
        assert (Hp : nth_error log k = Some p) by (rewrite E, nth_error_app2 by lia; replace (k - length pre') with 0 by lia; reflexivity).
        destruct (IH k ltac:(lia) p Hp) as (_ & I1 & I2).
        assert (Hv : agree G (reading num (e_st e)) (reading num (e_new p))).
        { intros X c HG. unfold reading. rewrite (Hho pre' p e post E X c HG). reflexivity. }
        split; [|eapply near_agree; eauto]. intros X c HG. destruct (I1 X c HG) as (x & Hx & Hg). exists x. split; auto.
        rewrite (Hho pre' p e post E X c HG). exact Hx. }
    split; [exact Hst|]. destruct Hst as (Hh0 & Hn0). set (m := Nat.min n (S k)). assert (Hm : 1 <= m <= n) by (unfold m; lia).
    set (b := bound K D e0 k) in *. assert (HB : (0 <= b)%Qc) by (apply bound_nonneg; auto; qc_lra).
    assert (HLB : (0 <= L * b)%Qc) by (apply mul_pos; auto).
    (* the calls that count *)
    assert (Hes : forall a j, nth_error (e :: rev pre) j = Some a ->
      nth_error log (k - j) = Some a /\ has_finite fin G (e_st a) /\ near G b (reading num (e_st a)) (y (k - j)) /\
      (forall X c, G X c -> within V (reading num (e_st a) X c) 0%Qc) /\ dget "time" (e_st a) = Some (VTime (clock t0 dt (k - j)))).
    { intros a' j Ha'. destruct (places_back pre post e j a' Ha') as (Hj & Hp). rewrite Elen in *. rewrite <- E in Hp. split; auto.
      destruct j as [|j].
      - rewrite Nat.sub_0_r in *. assert (a' = e) by congruence. subst a'. split; auto. split; auto. split; [|apply (Hck _ _ He)]. apply (InV _ k); auto. lia.
      - destruct (IH (k - S j) ltac:(lia) a' Hp) as ((I1 & I2) & _). split; auto. split.
        + eapply near_le; [exact I2|]. apply bound_le; auto. lia.
        + split; [apply (InV _ (k - S j)); auto; lia|apply (Hck _ _ Hp)]. }
    assert (Hpl : Forall2 (fun a j => nth_error (e :: rev pre) j = Some a) (latest m pre e) (seq 0 m)).
    { apply firstn_places. cbn [length]. rewrite rev_length. unfold m. lia. }
    (* rates of the calls that count *)
    assert (Hrt : forall X c, G X c -> forall a j, nth_error (e :: rev pre) j = Some a -> exists t, dget X (e_tend a) = Some t /\ in_grid t c /\
      forall z, rate (e_st a) X t c z -> fin z /\ within (F + rho)%Qc (num z) 0%Qc /\ within (L * b + rho)%Qc (num z) (f (clock t0 dt (k - j)) (y (k - j)) X c)).
    { intros X c HG a' j Ha'. destruct (Hes a' j Ha') as (Hlog & Hfa & Hna & Hva & Hta).
      destruct (history_call _ _ _ _ _ _ H a' (nth_error_In _ _ Hlog)) as (v & v' & diag & Hp).
      destruct (proj2 Hr v (e_st a') v' (e_tend a') diag _ Hp Hfa Hva Hta X c HG) as (t & Et & Hgt & Hz).
      exists t. split; auto. split; auto. intros z Rz. destruct (Hz z Rz) as (Fz & Wz). split; auto.
      assert (B1 := Hbd (clock t0 dt (k - j)) _ Hva X c HG). split.
      - eapply within_le; [eapply within_trans; [exact Wz|exact B1]|]. apply eq_le. ring.
      - eapply within_le; [eapply within_trans; [exact Wz|exact (Hl _ _ _ _ Hna X c HG : within _ _ _)]|]. apply eq_le. ring. }
    assert (P : forall X c, G X c -> exists r, dget X (e_new e) = Some (VDA r) /\ in_grid r c /\ fin (da_at r c) /\
      within (ab_rounding u tiny h V (F + rho)%Qc m + b + h * (ab_size m * (L * b + rho)))%Qc (num (da_at r c))
        (y k X c + h * ab_slope n f t0 dt y k X c)%Qc).
    { intros X c HG. destruct (Hh0 X c HG) as (x & Hx & Hgx & Fx).
      assert (Hkeys : forall e', In e' (latest m pre e) -> In X (keys (e_tend e'))).
      { intros a' Ha'. destruct (Forall2_In_l _ _ _ _ Hpl Ha') as (j & _ & Hj). destruct (Hrt X c HG a' j Hj) as (t & Et & _). eapply dget_In_keys; eauto. }
      assert (Ha2 := Ha). subst a.
      destruct (main_ab_formula cfg prog dt o n _ u0 log s Ha Ho H Hw pre e post E X) as (x' & ts & r & Hx' & Hr' & Hts & Hex & Hv).
      { rewrite Elen. fold m. exact Hkeys. }
      assert (x' = x) by congruence. subst x'. rewrite Elen in *. fold m in Hts, Hv. fold h in Hv.
      assert (Gt : Forall (fun t => in_grid t c) ts).
      { clear - Hpl Hts Hrt HG. revert ts Hts. induction Hpl as [|a' j la lj Haj Hpl IHl]; intros ts Hts; inversion Hts; subst; constructor; [|auto].
        destruct (Hrt X c HG a' j Haj) as (t & Et & Hg & _).
        match goal with K : dget X (e_tend a') = Some ?w |- in_grid ?w _ => assert (t = w) by congruence; subst t; exact Hg end. }
      assert (Gr : in_grid r c) by (eapply in_grid_extends; eauto). destruct (Hv c Gr) as (_ & ys & Hys & Er).
      exists r. split; auto. split; auto.
      assert (Q : Forall2 (fun z j => fin z /\ within (F + rho)%Qc (num z) 0%Qc /\ within (L * b + rho)%Qc (num z) (f (clock t0 dt (k - j)) (y (k - j)) X c)) ys (seq 0 m)).
      { clear - Hpl Hys Hrt HG. revert ys Hys. induction Hpl as [|a' j la lj Haj Hpl IHl]; intros ys Hys; inversion Hys as [|? z ? zs Hz Hzs]; subst; constructor; [|auto].
        destruct Hz as (t & Et & Hgt & Rz). destruct (Hrt X c HG a' j Haj) as (t' & Et' & _ & W). assert (t' = t) by congruence. subst t'. exact (W z Rz). }
      assert (Ly : length ys = m).
      { clear - Q. assert (X1 := seq_length m 0). rewrite <- X1. clear X1. induction Q; cbn [length]; auto. }
      assert (Ys : Forall (fun z => fin z /\ within (F + rho)%Qc (num z) 0%Qc) ys).
      { clear - Q. induction Q as [|z j zs js (Q1 & Q2 & _) Q IHQ]; constructor; auto. }
      assert (Vx : within V (num (da_at x c)) 0%Qc).
      { rewrite <- (reading_at num _ _ _ c Hx). apply (InV _ k); auto. lia. }
      assert (O := ab_off A num fin big u tiny RD (dt # 1000000) (da_at x c) ys V (F + rho)%Qc Hh Fx Vx Ys ltac:(rewrite Ly; lia) ltac:(rewrite Ly; apply Hfit; exact Hm)).
      rewrite Ly in O. fold h in O. rewrite <- Er in O. destruct O as (_ & Fr & _ & Wr). split; [exact Fr|].
      fold (ab_rounding u tiny h V (F + rho)%Qc m) in Wr.
      assert (Dt : close (ab_size m * (L * b + rho))%Qc (dot (ab_weights m) (map num ys)) (ab_slope n f t0 dt y k X c)).
      { unfold ab_slope. fold m. apply dot_close; [lia|rewrite map_length; exact Ly|].
        clear - Q. induction Q as [|z j zs js (_ & _ & Q3) Q IHQ]; cbn [map]; constructor; [exact Q3|exact IHQ]. }
      assert (Dh := close_scale _ _ _ _ Hh Dt).
      assert (Nx := Hn0 X c HG : within _ _ _). rewrite (reading_at num _ _ _ c Hx) in Nx.
      assert (W2 := within_trans _ _ _ _ _ Wr (within_sum _ _ _ _ _ _ Nx (Dh : within _ _ _))).
      eapply within_le; [exact W2|]. apply eq_le. ring. }
    split.
    - intros X c HG. destruct (P X c HG) as (r & R1 & R2 & R3 & _). eauto.
    - intros X c HG. destruct (P X c HG) as (r & R1 & R2 & R3 & R4). rewrite (reading_at num _ _ _ c R1).
      assert (N := Hy k Hk X c HG). change (within (bound K D e0 (S k)) (num (da_at r c)) (y (S k) X c)).
      assert (N' : within (d k) (y k X c + h * ab_slope n f t0 dt y k X c)%Qc (y (S k) X c)) by (destruct N; split; auto).
      eapply within_le; [eapply within_trans; [exact R4|exact N']|].
      change (bound K D e0 (S k)) with (K * b + D k)%Qc. unfold K, D. fold m.
      assert (HLr : (0 <= L * b + rho)%Qc) by (generalize dependent (L * b)%Qc; intros; qc_lra).
      assert (S1 := mul_le h _ _ Hh (ab_size_le m n (L * b + rho)%Qc Hm (proj2 Hn) HLr)).
      replace ((1 + h * L * ab_size n) * b + (d k + h * (ab_size n * rho) + ab_rounding u tiny h V (F + rho) m))%Qc
        with (ab_rounding u tiny h V (F + rho) m + b + h * (ab_size n * (L * b + rho)) + d k)%Qc by ring.
      apply same_beside. exact S1.
  Qed.
End RoundMain.

(** What the errors of all steps come to. *)
Lemma total_extra : forall d x n, total_error (fun j => d j + x)%Qc n = (total_error d n + of_nat n * x)%Qc.
Proof.
  intros d x n. induction n as [|n IH]; cbn [total_error]; [change (of_nat 0) with 0%Qc; ring|]. rewrite IH, of_nat_S. ring.
Qed.

Lemma total_mono : forall d d' n, (forall j, d j <= d' j)%Qc -> (total_error d n <= total_error d' n)%Qc.
Proof.
  intros d d' n H. induction n as [|n IH]; cbn [total_error]; [apply Qcle_refl|]. specialize (H n). qc_lra.
Qed.

Lemma rounding_adds_up : forall n h L d e0 rho u tiny V F r k m, 1 <= n -> (0 <= h)%Qc -> (0 <= L)%Qc -> (0 <= e0)%Qc -> (0 <= rho)%Qc ->
  (0 <= u)%Qc -> (0 <= tiny)%Qc -> (0 <= V)%Qc -> (0 <= F)%Qc -> (forall j, 0 <= d j)%Qc ->
  (forall i, 1 <= i <= n -> (ab_rounding u tiny h V F i <= r)%Qc) -> (of_nat k * (h * L * ab_size n) <= of_nat m)%Qc ->
  (bound (1 + h * L * ab_size n) (fun j => d j + h * (ab_size n * rho) + ab_rounding u tiny h V F (Nat.min n (S j))) e0 k <=
   Q2Qc (4 # 1) ^ m * (e0 + total_error d k + of_nat k * (h * (ab_size n * rho) + r)))%Qc.
Proof.
  intros n h L d e0 rho u tiny V F r k m Hn Hh HL He0 Hrho Hu Ht HV HF Hd Hr Hk.
  assert (Z0 := mul_pos _ _ (mul_pos _ _ Hh HL) (ab_size_nonneg n)).
  assert (R0 := mul_pos _ _ Hh (mul_pos _ _ (ab_size_nonneg n) Hrho)).
  assert (P8 : (0 <= (1 + u) ^ 8 - 1)%Qc).
  { clear - Hu. assert (X : (1 <= 1 + u)%Qc) by qc_lra. generalize dependent (1 + u)%Qc. intros p Hp.
    assert (Y : forall i, (1 <= p ^ i)%Qc) by (induction i as [|i IH]; cbn [Qcpower]; [apply Qcle_refl|]; generalize dependent (p ^ i)%Qc; intros; qc_nra).
    specialize (Y 8). generalize dependent (p ^ 8)%Qc. intros. qc_lra. }
  assert (N : forall j, (0 <= ab_rounding u tiny h V F (Nat.min n (S j)))%Qc) by (intros j; apply mul_pos; [exact P8|apply ab_size_of_nonneg; auto]).
  eapply Qcle_trans.
  - apply bound_constant with (z := (h * L * ab_size n)%Qc) (m := m); auto.
    + generalize dependent (h * L * ab_size n)%Qc. intros. qc_lra.
    + apply Qcle_refl.
    + intros j. specialize (Hd j). specialize (N j). generalize dependent (ab_rounding u tiny h V F (Nat.min n (S j))). generalize dependent (h * (ab_size n * rho))%Qc. intros. qc_lra.
  - apply mul_le.
    + clear. induction m as [|m IH]; cbn [Qcpower]; [discriminate|]. apply mul_pos; [discriminate|exact IH].
    + assert (M : (total_error (fun j => d j + h * (ab_size n * rho) + ab_rounding u tiny h V F (Nat.min n (S j)))%Qc k <=
        total_error (fun j => d j + (h * (ab_size n * rho) + r))%Qc k)%Qc).
      { apply total_mono. intros j. assert (X := Hr (Nat.min n (S j)) ltac:(lia)). generalize dependent (ab_rounding u tiny h V F (Nat.min n (S j))). generalize (h * (ab_size n * rho))%Qc. intros. qc_lra. }
      rewrite total_extra in M. generalize dependent (total_error (fun j => d j + h * (ab_size n * rho) + ab_rounding u tiny h V F (Nat.min n (S j)))%Qc k).
      generalize (of_nat k * (h * (ab_size n * rho) + r))%Qc. generalize (total_error d k). clear. intros. qc_lra.
Qed.
