(** Main lemmas for C95: runs that follow a smooth solution. *)
From Coq Require Import String List Bool Arith ZArith QArith Qcanon Lia Lqa.
From Verif Require Import Prelude PreludeFacts ArithM NdArray NdFacts Units DataArrayM GetNp SpecUnits UnitsFacts SpecDa DaFacts
  Components Composite SpecComposite Steppers SpecSteppers SteppersFacts LeapFacts StepAlgebra StepRuns StepExact StepSteady SpecOrder OrderMain
  SteppersMain SpecConverge ConvergeAlg ConvergeMain ConvergeAB ConvergeLeap.
Import ListNotations.
Open Scope string_scope.
Open Scope nat_scope.
Open Scope list_scope.

Lemma elapsed_mul : forall dt k, elapsed dt k = (of_nat k * Q2Qc (dt # 1000000))%Qc.
Proof. intros dt k. unfold elapsed, of_nat. apply Qc_is_canon. rewrite this_mult, !this_Q2Qc. unfold Qeq, Qmult, inject_Z. simpl. ring. Qed.

Lemma total_constant : forall q n, total_error (fun _ => q) n = (of_nat n * q)%Qc.
Proof.
  intros q n. induction n as [|n IH]; cbn [total_error]; [rewrite of_nat_0; ring|]. rewrite IH, of_nat_S. ring.
Qed.

Lemma clock_S : forall t0 dt k, clock t0 dt (S k) = (clock t0 dt k + dt)%Z.
Proof. intros. unfold clock. rewrite Nat2Z.inj_succ. ring. Qed.

Lemma clock_back : forall t0 dt k j, j <= k -> clock t0 dt k = (clock t0 dt (k - j) + Z.of_nat j * dt)%Z.
Proof. intros t0 dt k j H. unfold clock. rewrite Nat2Z.inj_sub by exact H. ring. Qed.

Lemma clock_ge : forall t0 dt k, (0 <= dt)%Z -> (t0 <= clock t0 dt k)%Z.
Proof. intros t0 dt k H. unfold clock. nia. Qed.

Lemma clock_le : forall t0 dt j k, (0 <= dt)%Z -> j <= k -> (clock t0 dt j <= clock t0 dt k)%Z.
Proof. intros t0 dt j k H Hj. unfold clock. nia. Qed.

(** ** What one step of each scheme misses *)

Lemma smooth_step : forall G f M Y t0 t1 dt k, smooth_solution G f M t0 t1 Y -> (0 <= dt)%Z -> (clock t0 dt (S k) <= t1)%Z -> let h := Q2Qc (dt # 1000000) in
  near G (M * (h * h))%Qc (Y (clock t0 dt (S k))) (euler_of h f (clock t0 dt k) (Y (clock t0 dt k))).
Proof. intros G f M Y t0 t1 dt k H Hdt H1 h. rewrite clock_S in *. apply H; auto. apply clock_ge. exact Hdt. Qed.

Lemma smooth_rates : forall G f M Y t0 t1 dt k j X c, smooth_solution G f M t0 t1 Y -> (0 <= dt)%Z -> (clock t0 dt k <= t1)%Z -> j <= k -> G X c ->
  close (Q2Qc (2 # 1) * of_nat j * (M * Q2Qc (dt # 1000000)))%Qc (f (clock t0 dt (k - j)) (Y (clock t0 dt (k - j))) X c) (f (clock t0 dt k) (Y (clock t0 dt k)) X c).
Proof.
  intros G f M Y t0 t1 dt k j X c H Hdt H1 Hj HG.
  destruct (H (clock t0 dt (k - j)) (Z.of_nat j * dt)%Z (clock_ge t0 dt (k - j) Hdt) ltac:(nia)) as (_ & N); [rewrite <- clock_back; auto|]. cbv zeta in N.
  rewrite <- (clock_back t0 dt k j Hj) in N. fold (elapsed dt j) in N. rewrite elapsed_mul in N.
  destruct (N X c HG) as (N1 & N2). replace (Q2Qc (2 # 1) * of_nat j * (M * Q2Qc (dt # 1000000)))%Qc with (Q2Qc (2 # 1) * M * (of_nat j * Q2Qc (dt # 1000000)))%Qc by ring.
  split; assumption.
Qed.

Lemma close_refl : forall a, close 0%Qc a a.
Proof. intros a. split; qc_lra. Qed.

Lemma of_nat_lit : of_nat 1 = 1%Qc /\ of_nat 2 = Q2Qc (2 # 1) /\ of_nat 3 = Q2Qc (3 # 1).
Proof. repeat split; vm_compute; reflexivity. Qed.

Lemma slope_near : forall G f M Y t0 t1 dt n k X c, smooth_solution G f M t0 t1 Y -> (0 <= dt)%Z -> (clock t0 dt k <= t1)%Z -> 1 <= n <= 4 -> G X c ->
  let m := Nat.min n (S k) in
  close ((ab_defect m - 1) * (M * Q2Qc (dt # 1000000)))%Qc (ab_slope n f t0 dt (fun k => Y (clock t0 dt k)) k X c) (f (clock t0 dt k) (Y (clock t0 dt k)) X c).
Proof.
  intros G f M Y t0 t1 dt n k X c H Hdt H1 Hn HG m. unfold ab_slope. fold m. assert (Hm : 1 <= m <= 4) by lia. assert (Hk : m <= S k) by lia.
  clearbody m. clear Hn. set (g := fun j => f (clock t0 dt (k - j)) (Y (clock t0 dt (k - j))) X c).
  assert (C : forall j, j <= k -> close (Q2Qc (2 # 1) * of_nat j * (M * Q2Qc (dt # 1000000)))%Qc (g j) (g 0)).
  { intros j Hj. unfold g. rewrite Nat.sub_0_r. exact (smooth_rates G f M Y t0 t1 dt k j X c H Hdt H1 Hj HG). }
  replace (f (clock t0 dt k) (Y (clock t0 dt k)) X c) with (g 0) by (unfold g; rewrite Nat.sub_0_r; reflexivity).
  change (map _ (seq 0 m)) with (map g (seq 0 m)). clearbody g. set (e := (M * Q2Qc (dt # 1000000))%Qc) in *. clearbody e. clear H.
  destruct of_nat_lit as (L1 & L2 & L3).
  destruct m as [|[|[|[|[|m]]]]]; try lia; cbn [map seq ab_weights dot ab_defect].
  - split; qc_lra.
  - assert (C1 := C 1 ltac:(lia)). rewrite L1 in C1. destruct C1. split; qc_lra.
  - assert (C1 := C 1 ltac:(lia)). assert (C2 := C 2 ltac:(lia)). rewrite L1 in C1. rewrite L2 in C2. destruct C1, C2. split; qc_lra.
  - assert (C1 := C 1 ltac:(lia)). assert (C2 := C 2 ltac:(lia)). assert (C3 := C 3 ltac:(lia)). rewrite L1 in C1. rewrite L2 in C2. rewrite L3 in C3.
    destruct C1, C2, C3. split; qc_lra.
Qed.

Lemma ab_defect_le : forall m n e, 1 <= m <= n -> n <= 4 -> (0 <= e)%Qc -> (ab_defect m * e <= ab_defect n * e)%Qc.
Proof.
  intros m n e Hm Hn He.
  destruct m as [|[|[|[|[|m]]]]]; try lia; destruct n as [|[|[|[|[|n]]]]]; try lia; cbn [ab_defect]; qc_lra.
Qed.

Lemma ab_defect_pos : forall n, (0 <= ab_defect n)%Qc.
Proof. intros [|[|[|[|n]]]]; cbn [ab_defect]; qc_lra. Qed.

Lemma ab_misses : forall G f M Y t0 t1 dt n k, smooth_solution G f M t0 t1 Y -> (0 <= dt)%Z -> (clock t0 dt (S k) <= t1)%Z -> (0 <= M)%Qc -> 1 <= n <= 4 ->
  let h := Q2Qc (dt # 1000000) in
  near G (ab_defect n * (M * (h * h)))%Qc (Y (clock t0 dt (S k)))
    (fun X c => Y (clock t0 dt k) X c + h * ab_slope n f t0 dt (fun k => Y (clock t0 dt k)) k X c)%Qc.
Proof.
  intros G f M Y t0 t1 dt n k H Hdt H1 HM Hn h X c HG. assert (H1' : (clock t0 dt k <= t1)%Z) by (eapply Z.le_trans; [apply (clock_le t0 dt k (S k)); [exact Hdt|lia]|exact H1]). assert (Hh : (0 <= h)%Qc) by (apply secs_nonneg; exact Hdt).
  assert (C1 := smooth_step G f M Y t0 t1 dt k H Hdt H1 X c HG : close _ _ _). unfold euler_of in C1. fold h in C1.
  assert (C2 := close_scale _ _ _ _ Hh (slope_near G f M Y t0 t1 dt n k X c H Hdt H1' Hn HG)). fold h in C2.
  assert (C3 := close_sub _ _ _ _ _ _ C1 C2).
  change (close (ab_defect n * (M * (h * h)))%Qc (Y (clock t0 dt (S k)) X c) (Y (clock t0 dt k) X c + h * ab_slope n f t0 dt (fun k => Y (clock t0 dt k)) k X c)%Qc).
  refine (close_le _ _ _ _ (close_shift _ _ _ _ _ C3 _) _); [ring|].
  eapply Qcle_trans; [|apply (ab_defect_le (Nat.min n (S k)) n); [lia|lia|apply mul_pos; [auto|apply mul_pos; auto]]].
  apply eq_le. ring.
Qed.

(** The stages of the Shu-Osher schemes stay near the start of the step. *)
Lemma rk_misses : forall G f L M F Y t0 t1 dt n k, n = 2 \/ n = 3 -> smooth_solution G f M t0 t1 Y -> bounded_rates G f F t0 t1 Y -> lipschitz G L f ->
  (0 <= dt)%Z -> (clock t0 dt (S k) <= t1)%Z -> (0 <= L)%Qc -> (0 <= F)%Qc ->
  let h := Q2Qc (dt # 1000000) in (h * L <= 1)%Qc ->
  near G ((M + L * F) * (h * h))%Qc (Y (clock t0 dt (S k))) (shu_osher n h f (clock t0 dt k) (Y (clock t0 dt k))).
Proof.
  intros G f L M F Y t0 t1 dt n k Hn H HF Hl Hdt H1 HL HF0 h Hz. assert (H1' : (clock t0 dt k <= t1)%Z) by (eapply Z.le_trans; [apply (clock_le t0 dt k (S k)); [exact Hdt|lia]|exact H1]). assert (Hh : (0 <= h)%Qc) by (apply secs_nonneg; exact Hdt).
  set (now := clock t0 dt k). set (v := Y now). set (v1 := euler_of h f now v).
  assert (N0 := smooth_step G f M Y t0 t1 dt k H Hdt H1). fold h now v v1 in N0.
  assert (B : forall X c, G X c -> close (h * F)%Qc (h * f now v X c)%Qc 0%Qc).
  { intros X c HG. destruct (HF now X c (clock_ge t0 dt k Hdt) H1' HG) as (B1 & B2). fold v in B1, B2. apply (mul_le h) in B1; auto. apply (mul_le h) in B2; auto.
    replace (h * - F)%Qc with (- (h * F))%Qc in B1 by ring. clear - B1 B2. generalize dependent (h * F)%Qc. generalize (h * f now v X c)%Qc. intros. split; qc_lra. }
  assert (N1 : near G (h * F)%Qc v1 v).
  { intros X c HG. apply (close_shift _ _ _ _ _ (B X c HG)). unfold v1, euler_of. ring. }
  assert (R1 := Hl now _ _ _ N1).
  assert (S1 : forall X c, G X c -> close (h * (L * (h * F)))%Qc (h * f now v1 X c)%Qc (h * f now v X c)%Qc).
  { intros X c HG. apply close_scale; auto. exact (R1 X c HG). }
  assert (HhF : (0 <= h * F)%Qc) by (apply mul_pos; auto).
  assert (HQ : (0 <= h * (L * (h * F)))%Qc) by (apply mul_pos; [auto|apply mul_pos; auto]).
  assert (HQ2 : (h * (L * (h * F)) <= h * F)%Qc).
  { replace (h * (L * (h * F)))%Qc with ((h * F) * (h * L))%Qc by ring. replace (h * F)%Qc with ((h * F) * 1)%Qc at 2 by ring. apply mul_le; auto. }
  assert (Goal' : near G (L * F * (h * h))%Qc (shu_osher n h f now v) v1).
  { destruct Hn as [-> | ->].
    - intros X c HG. assert (C := S1 X c HG). change (close (L * F * (h * h))%Qc (shu_osher 2 h f now v X c) (v1 X c)).
      assert (C' := close_scale (Q2Qc (1 # 2)) _ _ _ ltac:(qc_lra) C). refine (close_le _ _ _ _ (close_shift _ _ _ _ _ C' _) _).
      + unfold shu_osher, mix. fold v1. unfold euler_of at 1. unfold v1, euler_of.
        replace (v X c) with (Q2Qc (1 # 2) * v X c + Q2Qc (1 # 2) * v X c)%Qc at 5 by (qc_ring). qc_ring.
      + replace (L * F * (h * h))%Qc with (h * (L * (h * F)))%Qc by ring. clear - HQ. generalize dependent (h * (L * (h * F)))%Qc. intros. qc_lra.
    - set (v2 := mix (Q2Qc (3 # 4)) (Q2Qc (1 # 4)) v (euler_of h f now v1)).
      assert (N2 : near G (Q2Qc (3 # 4) * (h * F))%Qc v2 v).
      { intros X c HG. assert (C := S1 X c HG). assert (D := B X c HG).
        change (close (Q2Qc (3 # 4) * (h * F))%Qc (v2 X c) (v X c)).
        assert (C' := close_scale (Q2Qc (1 # 4)) _ _ _ ltac:(qc_lra) C). assert (D' := close_scale (Q2Qc (1 # 2)) _ _ _ ltac:(qc_lra) D).
        refine (close_le _ _ _ _ (close_shift _ _ _ _ _ (close_add _ _ _ _ _ _ C' D') _) _).
        + unfold v2, mix, euler_of at 1, v1, euler_of. qc_ring.
        + clear - HQ2. generalize dependent (h * (L * (h * F)))%Qc. generalize (h * F)%Qc. intros. qc_lra. }
      assert (R2 := Hl now _ _ _ N2).
      intros X c HG. assert (C := S1 X c HG). assert (D := close_scale h _ _ _ Hh (R2 X c HG : close _ _ _)).
      change (close (L * F * (h * h))%Qc (shu_osher 3 h f now v X c) (v1 X c)).
      assert (C' := close_scale (Q2Qc (1 # 6)) _ _ _ ltac:(qc_lra) C). assert (D' := close_scale (Q2Qc (2 # 3)) _ _ _ ltac:(qc_lra) D).
      refine (close_le _ _ _ _ (close_shift _ _ _ _ _ (close_add _ _ _ _ _ _ C' D') _) _).
      + unfold shu_osher. fold v1. fold v2. unfold mix at 1, euler_of at 1. unfold v2 at 1, mix at 1. unfold euler_of at 1. unfold v1 at 1 3, euler_of. qc_ring.
      + replace (L * F * (h * h))%Qc with (h * (L * (h * F)))%Qc by ring.
        replace (h * (L * (Q2Qc (3 # 4) * (h * F))))%Qc with (Q2Qc (3 # 4) * (h * (L * (h * F))))%Qc by ring.
        clear - HQ. generalize dependent (h * (L * (h * F)))%Qc. intros. qc_lra. }
  eapply near_le; [eapply near_trans; [exact N0|apply near_sym; exact Goal']|]. apply eq_le. ring.
Qed.

Lemma leap_misses : forall G f M Y t0 t1 dt k, smooth_solution G f M t0 t1 Y -> (0 <= dt)%Z -> (clock t0 dt (S (S k)) <= t1)%Z -> (0 <= M)%Qc -> let h := Q2Qc (dt # 1000000) in
  near G (Q2Qc (4 # 1) * (M * (h * h)))%Qc (Y (clock t0 dt (S (S k))))
    (fun X c => Y (clock t0 dt k) X c + Q2Qc (2 # 1) * h * f (clock t0 dt (S k)) (Y (clock t0 dt (S k))) X c)%Qc /\
  near G (Q2Qc (4 # 1) * (M * (h * h)))%Qc (fun X c => Y (clock t0 dt k) X c + Y (clock t0 dt (S (S k))) X c)%Qc
    (fun X c => Q2Qc (2 # 1) * Y (clock t0 dt (S k)) X c)%Qc.
Proof.
  intros G f M Y t0 t1 dt k H Hdt H1 HM h. assert (H1' : (clock t0 dt (S k) <= t1)%Z) by (eapply Z.le_trans; [apply (clock_le t0 dt (S k) (S (S k))); [exact Hdt|lia]|exact H1]). assert (Hh : (0 <= h)%Qc) by (apply secs_nonneg; exact Hdt).
  assert (N0 := smooth_step G f M Y t0 t1 dt k H Hdt H1'). assert (N1 := smooth_step G f M Y t0 t1 dt (S k) H Hdt H1). fold h in N0, N1.
  destruct of_nat_lit as (L1 & _).
  split; intros X c HG;
    assert (C0 := N0 X c HG : close _ _ _); assert (C1 := N1 X c HG : close _ _ _);
    assert (D := smooth_rates G f M Y t0 t1 dt (S k) 1 X c H Hdt H1' ltac:(lia) HG); replace (S k - 1) with k in D by lia; rewrite L1 in D;
    apply (close_scale h) in D; auto; unfold euler_of in C0, C1; fold h in D;
    match goal with |- (?a - ?b <= ?e)%Qc /\ _ => change (close e a b) end.
  - refine (close_le _ _ _ _ (close_shift _ _ _ _ _ (close_add _ _ _ _ _ _ (close_add _ _ _ _ _ _ C0 C1) D) _) _); [qc_ring|]. apply eq_le. qc_ring.
  - assert (D2 : close (h * (Q2Qc (2 # 1) * 1 * (M * h)))%Qc (h * f (clock t0 dt (S k)) (Y (clock t0 dt (S k))) X c)%Qc (h * f (clock t0 dt k) (Y (clock t0 dt k)) X c)%Qc)
      by (destruct D; split; auto).
    refine (close_le _ _ _ _ (close_shift _ _ _ _ _ (close_add _ _ _ _ _ _ (close_sub _ _ _ _ _ _ C1 C0) D2) _) _); [qc_ring|]. apply eq_le. qc_ring.
Qed.

(** ** Runs *)

Lemma follows_bound : forall K z d e0 dt k m, (1 <= K)%Qc -> (K <= 1 + Q2Qc (dt # 1000000) * z)%Qc -> (0 <= e0)%Qc -> (0 <= d)%Qc ->
  (0 <= dt)%Z -> (elapsed dt k * z <= of_nat m)%Qc ->
  (bound K (fun _ => d * (Q2Qc (dt # 1000000) * Q2Qc (dt # 1000000)))%Qc e0 k
     <= Q2Qc (4 # 1) ^ m * (e0 + elapsed dt k * (d * Q2Qc (dt # 1000000))))%Qc.
Proof.
  intros K z d e0 dt k m HK Hz He Hd Hdt Hm. set (h := Q2Qc (dt # 1000000)) in *.
  assert (Hh : (0 <= h)%Qc) by (apply secs_nonneg; exact Hdt).
  eapply Qcle_trans; [apply (bound_constant K (h * z)%Qc _ e0 k m HK Hz He)|].
  - intros _. apply mul_pos; [exact Hd|apply mul_pos; auto].
  - rewrite elapsed_mul in Hm. fold h in Hm. replace (of_nat k * (h * z))%Qc with (of_nat k * h * z)%Qc by ring. exact Hm.
  - rewrite total_constant, elapsed_mul. fold h. apply eq_le. ring.
Qed.

Section ConvergeRate.
  Context {R : Registry}.

  Lemma ab_any_run : forall {U} cfg (prog : icaller (T:=Qc) U) dt o n a u log s G f L d t0 y e0,
    new_ab o = Ok a -> is_order o n ->
    history (adams_bashforth cfg prog) prog dt (a, u) log s -> wf_log log -> (0 <= dt)%Z ->
    handed_on G log -> (forall k e, nth_error log k = Some e -> dget "time" (e_st e) = Some (VTime (clock t0 dt k))) ->
    rates_by G f dt prog -> lipschitz G L f -> (0 <= L)%Qc -> (0 <= e0)%Qc -> (forall j, 0 <= d j)%Qc ->
    (forall e post, log = e :: post -> holds_points G (e_st e) /\ near G e0 (value (e_st e)) (y 0)) ->
    (forall j, j < length log -> near G (d j) (y (S j)) (fun X c => y j X c + Q2Qc (dt # 1000000) * ab_slope n f t0 dt y j X c)%Qc) ->
    forall k e, nth_error log k = Some e ->
    near G (bound (1 + Q2Qc (dt # 1000000) * L * ab_size n)%Qc d e0 (S k)) (value (e_new e)) (y (S k)).
  Proof.
    intros U cfg prog dt o n a u log s G f L d t0 y e0 Ha Ho H Hw Hdt Hho Hck Hr Hl HL He0 Hd H0 Hy k e He.
    destruct (order_made o n a Ha Ho) as (Hn & ->).
    apply (ab_run cfg prog dt n u log s G f L d t0 y e0 Hn H Hw Hdt Hho Hck Hr Hl HL He0 Hd H0 Hy k e He).
  Qed.

  Lemma ab_converges : forall {U} cfg (prog : icaller (T:=Qc) U) dt o n a u log s G f L M t0 t1 Y e0 m,
    new_ab o = Ok a -> is_order o n ->
    history (adams_bashforth cfg prog) prog dt (a, u) log s -> wf_log log -> (0 <= dt)%Z ->
    handed_on G log -> (forall k e, nth_error log k = Some e -> dget "time" (e_st e) = Some (VTime (clock t0 dt k))) ->
    rates_by G f dt prog -> lipschitz G L f -> smooth_solution G f M t0 t1 Y -> (clock t0 dt (length log) <= t1)%Z -> (0 <= L)%Qc -> (0 <= M)%Qc -> (0 <= e0)%Qc ->
    (forall e post, log = e :: post -> holds_points G (e_st e) /\ near G e0 (value (e_st e)) (Y t0)) ->
    forall k e, nth_error log k = Some e -> (elapsed dt (S k) * (L * ab_size n) <= of_nat m)%Qc ->
    near G (Q2Qc (4 # 1) ^ m * (e0 + elapsed dt (S k) * (ab_defect n * M * Q2Qc (dt # 1000000))))%Qc
      (value (e_new e)) (Y (clock t0 dt (S k))).
  Proof.
    intros U cfg prog dt o n a u log s G f L M t0 t1 Y e0 m Ha Ho H Hw Hdt Hho Hck Hr Hl Hsm Ht1 HL HM He0 H0 k e He Hm.
    destruct (order_made o n a Ha Ho) as (Hn & ->).
    assert (Hh := secs_nonneg dt Hdt). set (h := Q2Qc (dt # 1000000)) in *.
    assert (Hd : (0 <= ab_defect n * M)%Qc) by (apply mul_pos; [apply ab_defect_pos|exact HM]).
    eapply near_le; [apply (ab_run cfg prog dt n u log s G f L (fun _ => ab_defect n * M * (h * h))%Qc t0 (fun k => Y (clock t0 dt k)) e0 Hn H Hw Hdt Hho Hck Hr Hl HL He0)|]; [| | |exact He|].
    - intros _. apply mul_pos; [exact Hd|apply mul_pos; auto].
    - intros e' post E. destruct (H0 e' post E) as (Hp & Hq). split; [exact Hp|].
      replace (clock t0 dt 0) with t0 by (unfold clock; simpl; ring). exact Hq.
    - intros j Hj. eapply near_le; [apply (ab_misses G f M Y t0 t1 dt n j Hsm Hdt (Z.le_trans _ _ _ (clock_le t0 dt (S j) _ Hdt Hj) Ht1) HM Hn)|]. fold h. apply eq_le. ring.
    - fold h. apply (follows_bound _ (L * ab_size n)%Qc); auto; fold h.
      + assert (X := mul_pos _ _ (mul_pos _ _ Hh HL) (ab_size_nonneg n)). generalize dependent (h * L * ab_size n)%Qc. intros. qc_lra.
      + apply eq_le. ring.
  Qed.

  Lemma rk_converges : forall {U} cfg (prog : icaller (T:=Qc) U) z k0 u0 dt G f L M F n calls k u t0 t1 (st : state Qc) s' st' Y e0 m,
    new_rk z = Ok k0 -> after (ssp_rk cfg prog) calls (k0, u0) = (k, u) ->
    proper_components prog -> proper_state st -> (0 <= dt)%Z ->
    in_a_row (ssp_rk cfg prog) dt (k, u) st (times t0 dt n) s' st' ->
    rates_by G f dt prog -> lipschitz G L f -> smooth_solution G f M t0 t1 Y -> bounded_rates G f F t0 t1 Y -> (clock t0 dt n <= t1)%Z ->
    (0 <= L)%Qc -> (0 <= M)%Qc -> (0 <= F)%Qc -> (0 <= e0)%Qc -> (Q2Qc (dt # 1000000) * L <= 1)%Qc ->
    holds_points G st -> near G e0 (value st) (Y t0) ->
    (elapsed dt n * (Q2Qc (2 # 1) * L) <= of_nat m)%Qc ->
    near G (Q2Qc (4 # 1) ^ m * (e0 + elapsed dt n * ((M + L * F) * Q2Qc (dt # 1000000))))%Qc (value st') (Y (clock t0 dt n)).
  Proof.
    intros U cfg prog z k0 u0 dt G f L M F n calls k u t0 t1 st s' st' Y e0 m Hz Haf Hpc Hps Hdt H Hr Hl Hsm HF Ht1 HL HM HF0 He0 Hz1 Hh H0 Hm.
    assert (Hs : Z.to_nat z = 2 \/ Z.to_nat z = 3).
    { unfold new_rk in Hz. destruct (Z.eqb_spec z 2) as [->|]; [left; reflexivity|]. destruct (Z.eqb_spec z 3) as [->|]; [right; reflexivity|]. discriminate Hz. }
    assert (Hh' := secs_nonneg dt Hdt).
    eapply near_le; [apply (rk_run cfg prog z k0 u0 dt G f L (fun _ => (M + L * F) * (Q2Qc (dt # 1000000) * Q2Qc (dt # 1000000)))%Qc n calls k u t0 st s' st'
      (fun k => Y (clock t0 dt k)) e0 Hz Haf Hpc Hps Hdt H Hr Hl Hh)|].
    - replace (clock t0 dt 0) with t0 by (unfold clock; simpl; ring). exact H0.
    - intros j Hj. apply (rk_misses G f L M F Y t0 t1); auto. exact (Z.le_trans _ _ _ (clock_le t0 dt (S j) _ Hdt Hj) Ht1).
    - apply (follows_bound _ (Q2Qc (2 # 1) * L)%Qc); auto.
      + apply growth_ge. apply mul_pos; auto.
      + eapply Qcle_trans; [apply growth_small; [apply mul_pos; auto|exact Hz1]|]. apply eq_le. ring.
      + assert (X := mul_pos _ _ HL HF0). generalize dependent (L * F)%Qc. intros. qc_lra.
  Qed.

  Lemma leap_converges : forall {U} cfg (prog : icaller (T:=Qc) U) dt nu alpha u log s G f L M t0 t1 Y e0 m,
    lhistory cfg prog dt (new_leap nu alpha, u) log s -> wf_llog log -> (0 <= dt)%Z ->
    (0 < nu)%Qc -> (nu <= 1)%Qc -> (0 <= alpha)%Qc -> (alpha <= 1)%Qc ->
    lhanded_on G log -> (forall k e, nth_error log k = Some e -> dget "time" (l_st e) = Some (VTime (clock t0 dt k))) ->
    rates_by G f dt prog -> lipschitz G L f -> smooth_solution G f M t0 t1 Y -> (clock t0 dt (length log) <= t1)%Z -> (0 <= L)%Qc -> (0 <= M)%Qc -> (0 <= e0)%Qc ->
    (forall e post, log = e :: post -> holds_points G (l_st e) /\ near G e0 (value (l_st e)) (Y t0)) ->
    forall k e, nth_error log k = Some e -> (elapsed dt (S k) * (Q2Qc (2 # 1) * L * / nu) <= of_nat m)%Qc ->
    let B := (Q2Qc (4 # 1) ^ m * (e0 + elapsed dt (S k) * ((/ nu + 1) * (Q2Qc (4 # 1) * M) * Q2Qc (dt # 1000000))))%Qc in
    near G B (value (l_after e)) (Y (clock t0 dt k)) /\ near G B (value (l_new e)) (Y (clock t0 dt (S k))).
  Proof.
    intros U cfg prog dt nu alpha u log s G f L M t0 t1 Y e0 m H Hw Hdt Hn0 Hn1 Ha0 Ha1 Hho Hck Hr Hl Hsm Ht1 HL HM He0 H0 k e He Hm B.
    assert (Hh := secs_nonneg dt Hdt). set (h := Q2Qc (dt # 1000000)) in *.
    assert (Er := inv_of nu Hn0). assert (R0 : (0 <= / nu)%Qc).
    { apply Qcnot_lt_le. intros X. assert (Y' := mul_gt nu 0%Qc (/ nu)%Qc Hn0 X). rewrite (Qcmult_comm nu (/ nu)), Er in Y'. replace (nu * 0)%Qc with 0%Qc in Y' by ring. qc_lra. }
    assert (HM4 : (0 <= Q2Qc (4 # 1) * M)%Qc) by (apply mul_pos; [qc_lra|auto]).
    assert (HMh : (0 <= Q2Qc (4 # 1) * (M * (h * h)))%Qc) by (apply mul_pos; [qc_lra|apply mul_pos; [auto|apply mul_pos; auto]]).
    assert (N := leap_run cfg prog dt nu alpha u log s G f L (fun _ => Q2Qc (4 # 1) * (M * (h * h)))%Qc (fun _ => Q2Qc (4 # 1) * (M * (h * h)))%Qc
      t0 (fun k => Y (clock t0 dt k)) e0 H Hw Hdt Hn0 Hn1 Ha0 Ha1 Hho Hck Hr Hl HL He0 (fun _ => HMh) (fun _ => HMh)). cbv zeta in N. fold h in N.
    destruct (N) with (k := k) (e := e) as (N1 & N2); [| |exact He|].
    - intros e' post E. destruct (H0 e' post E) as (Hp & Hq). split; [exact Hp|].
      replace (clock t0 dt 0) with t0 by (unfold clock; simpl; ring). split; [exact Hq|].
      assert (S0 := smooth_step G f M Y t0 t1 dt 0 Hsm Hdt (Z.le_trans _ _ _ (clock_le t0 dt 1 (length log) Hdt ltac:(rewrite E; cbn [length]; lia)) Ht1)). fold h in S0. replace (clock t0 dt 0) with t0 in S0 by (unfold clock; simpl; ring).
      eapply near_le; [exact S0|]. assert (X := mul_pos _ _ HM (mul_pos _ _ Hh Hh)). clear - X. generalize dependent (M * (h * h))%Qc. intros. qc_lra.
    - intros j Hj. exact (leap_misses G f M Y t0 t1 dt j Hsm Hdt (Z.le_trans _ _ _ (clock_le t0 dt (S (S j)) _ Hdt Hj) Ht1) HM).
    - assert (Le : (bound (1 + Q2Qc (2 # 1) * h * L * / nu) (fun _ : nat => / nu * (Q2Qc (4 # 1) * (M * (h * h))) + Q2Qc (4 # 1) * (M * (h * h))) e0 (S k) <= B)%Qc).
      { eapply Qcle_trans; [|unfold B, h; apply (follows_bound (1 + Q2Qc (2 # 1) * h * L * / nu)%Qc (Q2Qc (2 # 1) * L * / nu)%Qc ((/ nu + 1) * (Q2Qc (4 # 1) * M))%Qc); auto].
        - fold h. apply eq_le. clear. induction (S k) as [|j IH]; cbn [bound]; [reflexivity|]. rewrite IH. ring.
        - assert (X := mul_pos _ _ (mul_pos _ _ (mul_pos (Q2Qc (2 # 1)) _ ltac:(qc_lra) Hh) HL) R0). clear - X. generalize dependent (Q2Qc (2 # 1) * h * L * / nu)%Qc. intros. qc_lra.
        - fold h. apply eq_le. ring.
        - apply mul_pos; [|exact HM4]. clear - R0. generalize dependent (/ nu)%Qc. intros. qc_lra. }
      split; eapply near_le; eauto.
  Qed.

  Lemma leap_plain_converges : forall {U} cfg (prog : icaller (T:=Qc) U) dt alpha u log s G f L M t0 t1 Y e0 m,
    lhistory cfg prog dt (new_leap 0%Qc alpha, u) log s -> wf_llog log -> (0 <= dt)%Z ->
    lhanded_on G log -> (forall k e, nth_error log k = Some e -> dget "time" (l_st e) = Some (VTime (clock t0 dt k))) ->
    rates_by G f dt prog -> lipschitz G L f -> smooth_solution G f M t0 t1 Y -> (clock t0 dt (length log) <= t1)%Z -> (0 <= L)%Qc -> (0 <= M)%Qc -> (0 <= e0)%Qc ->
    (forall e post, log = e :: post -> holds_points G (l_st e) /\ near G e0 (value (l_st e)) (Y t0)) ->
    forall k e, nth_error log k = Some e -> (elapsed dt (S k) * (Q2Qc (2 # 1) * L) <= of_nat m)%Qc ->
    let B := (Q2Qc (4 # 1) ^ m * (e0 + elapsed dt (S k) * (Q2Qc (4 # 1) * M * Q2Qc (dt # 1000000))))%Qc in
    near G B (value (l_after e)) (Y (clock t0 dt k)) /\ near G B (value (l_new e)) (Y (clock t0 dt (S k))).
  Proof.
    intros U cfg prog dt alpha u log s G f L M t0 t1 Y e0 m H Hw Hdt Hho Hck Hr Hl Hsm Ht1 HL HM He0 H0 k e He Hm B.
    assert (Hh := secs_nonneg dt Hdt). set (h := Q2Qc (dt # 1000000)) in *.
    assert (HM4 : (0 <= Q2Qc (4 # 1) * M)%Qc) by (apply mul_pos; [qc_lra|auto]).
    assert (HMh : (0 <= Q2Qc (4 # 1) * (M * (h * h)))%Qc) by (apply mul_pos; [qc_lra|apply mul_pos; [auto|apply mul_pos; auto]]).
    assert (N := leap_run_plain cfg prog dt alpha u log s G f L (fun _ => Q2Qc (4 # 1) * (M * (h * h)))%Qc
      t0 (fun k => Y (clock t0 dt k)) e0 H Hw Hdt Hho Hck Hr Hl HL He0 (fun _ => HMh)). cbv zeta in N. fold h in N.
    destruct (N) with (k := k) (e := e) as (N1 & N2); [| |exact He|].
    - intros e' post E. destruct (H0 e' post E) as (Hp & Hq). split; [exact Hp|].
      replace (clock t0 dt 0) with t0 by (unfold clock; simpl; ring). split; [exact Hq|].
      assert (S0 := smooth_step G f M Y t0 t1 dt 0 Hsm Hdt (Z.le_trans _ _ _ (clock_le t0 dt 1 (length log) Hdt ltac:(rewrite E; cbn [length]; lia)) Ht1)). fold h in S0. replace (clock t0 dt 0) with t0 in S0 by (unfold clock; simpl; ring).
      eapply near_le; [exact S0|]. assert (X := mul_pos _ _ HM (mul_pos _ _ Hh Hh)). clear - X. generalize dependent (M * (h * h))%Qc. intros. qc_lra.
    - intros j Hj. exact (proj1 (leap_misses G f M Y t0 t1 dt j Hsm Hdt (Z.le_trans _ _ _ (clock_le t0 dt (S (S j)) _ Hdt Hj) Ht1) HM)).
    - assert (Le : (bound (1 + Q2Qc (2 # 1) * h * L) (fun _ : nat => Q2Qc (4 # 1) * (M * (h * h))) e0 (S k) <= B)%Qc).
      { eapply Qcle_trans; [|unfold B, h; apply (follows_bound (1 + Q2Qc (2 # 1) * h * L)%Qc (Q2Qc (2 # 1) * L)%Qc (Q2Qc (4 # 1) * M)%Qc); auto].
        - fold h. apply eq_le. clear. induction (S k) as [|j IH]; cbn [bound]; [reflexivity|]. rewrite IH. ring.
        - assert (X := mul_pos _ _ (mul_pos (Q2Qc (2 # 1)) _ ltac:(qc_lra) Hh) HL). clear - X. generalize dependent (Q2Qc (2 # 1) * h * L)%Qc. intros. qc_lra.
        - fold h. apply eq_le. ring. }
      split; eapply near_le; eauto.
  Qed.
End ConvergeRate.

(** ** Linear systems *)

Lemma row_close : forall (G : points) tms e v w, (forall X c q, In (X, c, q) tms -> G X c) -> near G e v w ->
  close (row_size tms * e)%Qc (weighted tms v) (weighted tms w).
Proof.
  intros G tms e v w H N. induction tms as [|[[X c] q] tms IH].
  - cbn [row_size weighted fold_right]. split; apply eq_le; ring.
  - assert (C := N X c (H X c q (or_introl eq_refl)) : close _ _ _).
    assert (I := IH (fun X' c' q' Hi => H X' c' q' (or_intror Hi))). clear IH.
    cbn [row_size weighted fold_right]. change (fold_right _ 0%Qc tms) with (row_size tms) at 1.
    assert (Cq : close ((if Qclt_le_dec q 0 then - q else q) * e)%Qc (q * v X c)%Qc (q * w X c)%Qc).
    { destruct (Qclt_le_dec q 0) as [L|L].
      - assert (Hq : (0 <= - q)%Qc) by qc_lra. assert (C' := close_scale _ _ _ _ Hq C). destruct C' as (C1 & C2).
        split; [replace (q * v X c - q * w X c)%Qc with (- q * w X c - - q * v X c)%Qc by ring|replace (q * w X c - q * v X c)%Qc with (- q * v X c - - q * w X c)%Qc by ring]; assumption.
      - apply close_scale; auto. }
    assert (C2 := close_add _ _ _ _ _ _ Cq I). refine (close_le _ _ _ _ C2 _). apply eq_le.
    unfold row_size. ring.
Qed.

Lemma linear_is_lipschitz : forall (G : points) forcing (Mat : operator) L, closed G Mat -> (forall X c, G X c -> (row_size (Mat X c) <= L)%Qc) ->
  lipschitz G L (fun now v X c => forcing now X c + apply Mat v X c)%Qc.
Proof.
  intros G forcing Mat L Hc HL now e v w N X c HG.
  assert (C := row_close G (Mat X c) e v w (fun X' c' q Hi => proj2 (Hc X c HG) X' c' q Hi) N).
  assert (He : (0 <= e)%Qc) by (destruct (N X c HG) as (N1 & N2); clear - N1 N2; generalize dependent (v X c); generalize dependent (w X c); intros; qc_lra).
  assert (X1 := mul_le e _ _ He (HL X c HG)). rewrite (Qcmult_comm e), (Qcmult_comm e L) in X1.
  change (close (L * e)%Qc (forcing now X c + apply Mat v X c)%Qc (forcing now X c + apply Mat w X c)%Qc).
  refine (close_shift _ _ _ _ _ (close_le _ _ _ _ C X1) _). unfold apply. ring.
Qed.

Lemma linear_has_rates : forall {R : Registry} {U} (G : points) forcing Mat dt (prog : icaller (T:=Qc) U), closed G Mat ->
  linear_rates G forcing Mat dt prog -> rates_by G (fun now v X c => forcing now X c + apply Mat v X c)%Qc dt prog.
Proof. intros R U G forcing Mat dt prog Hc H. split; [intros X c HG; apply (Hc X c HG)|exact H]. Qed.
