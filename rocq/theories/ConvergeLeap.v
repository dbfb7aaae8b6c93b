(** Main lemmas for C95: Leapfrog. *)
From Coq Require Import String List Bool Arith ZArith QArith Qcanon Lia Lqa.
From Verif Require Import Prelude PreludeFacts ArithM NdArray NdFacts Units DataArrayM GetNp SpecUnits UnitsFacts SpecDa DaFacts
  Components Composite SpecComposite Steppers SpecSteppers SteppersFacts LeapFacts StepAlgebra StepRuns StepExact StepSteady SpecOrder OrderMain
  SpecConverge ConvergeAlg ConvergeMain ConvergeAB.
Import ListNotations.
Open Scope string_scope.
Open Scope nat_scope.
Open Scope list_scope.

(** ** One number *)

Lemma close_scale : forall k e a b, (0 <= k)%Qc -> close e a b -> close (k * e)%Qc (k * a)%Qc (k * b)%Qc.
Proof.
  intros k e a b Hk (H1 & H2). apply (mul_le k) in H1; auto. apply (mul_le k) in H2; auto.
  split; [replace (k * a - k * b)%Qc with (k * (a - b))%Qc by ring|replace (k * b - k * a)%Qc with (k * (b - a))%Qc by ring]; auto.
Qed.

Lemma close_add : forall e1 e2 a b a' b', close e1 a b -> close e2 a' b' -> close (e1 + e2)%Qc (a + a')%Qc (b + b')%Qc.
Proof. intros e1 e2 a b a' b' (H1 & H2) (H3 & H4). split; qc_lra. Qed.

Lemma close_sub : forall e1 e2 a b a' b', close e1 a b -> close e2 a' b' -> close (e1 + e2)%Qc (a - a')%Qc (b - b')%Qc.
Proof. intros e1 e2 a b a' b' (H1 & H2) (H3 & H4). split; qc_lra. Qed.

Lemma close_eq : forall e a b a' b', close e a b -> a' = a -> b' = b -> close e a' b'.
Proof. intros e a b a' b' H -> ->. exact H. Qed.

Lemma close_shift : forall e a b a' b', close e a b -> (a' - b' = a - b)%Qc -> close e a' b'.
Proof.
  intros e a b a' b' (H1 & H2) E. split; [rewrite E; exact H1|].
  replace (b' - a')%Qc with (- (a' - b'))%Qc by ring. rewrite E. replace (- (a - b))%Qc with (b - a)%Qc by ring. exact H2.
Qed.

Lemma close_le : forall e1 e2 a b, close e1 a b -> (e1 <= e2)%Qc -> close e2 a b.
Proof. intros e1 e2 a b (H1 & H2) H. split; qc_lra. Qed.

(** The new value, with or without the filter of alpha. *)
Lemma leap_snd : forall h nu alpha o x y : Qc,
  snd (leapfrog_values h nu alpha o x y) =
  (let n := o + Q2Qc (2 # 1) * y * h in n + (alpha - 1) * (Q2Qc (1 # 2) * nu * (o - Q2Qc (2 # 1) * x + n)))%Qc.
Proof.
  intros h nu alpha o x y. unfold leapfrog_values. cbn [snd aeqb aadd amul asub aofQ ArithQc].
  destruct (Qc_eq_bool alpha (Q2Qc (1 # 1))) eqn:E; [|reflexivity].
  apply Qc_eq_bool_correct in E. subst alpha. cbv zeta. replace (Q2Qc (1 # 1)) with 1%Qc by reflexivity. ring.
Qed.

Definition leap_p (h L A B d : Qc) : Qc := (Q2Qc (2 # 1) * h * (L * (A + B)) + d)%Qc.

Lemma leap_algebra : forall h nu alpha L A B d c o x y0 y1 y2 F1 F2 : Qc,
  (0 <= h)%Qc -> (0 <= nu)%Qc -> (nu <= 1)%Qc -> (0 <= alpha)%Qc -> (alpha <= 1)%Qc ->
  close A o y0 -> close B (o - x)%Qc (y0 - y1)%Qc -> close (L * (A + B))%Qc F1 F2 ->
  close d y2 (y0 + Q2Qc (2 # 1) * h * F2)%Qc -> close c (y0 + y2)%Qc (Q2Qc (2 # 1) * y1)%Qc ->
  let p := leap_p h L A B d in
  let '(x', n') := leapfrog_values h nu alpha o x F1 in
  close (A + (1 - alpha * nu) * B + Q2Qc (1 # 2) * (alpha * nu) * (p + c))%Qc x' y1 /\
  close ((1 - nu) * B + (1 - Q2Qc (1 # 2) * nu) * p + Q2Qc (1 # 2) * nu * c)%Qc (x' - n')%Qc (y1 - y2)%Qc.
Proof.
  intros h nu alpha L A B d c o x y0 y1 y2 F1 F2 Hh Hn0 Hn1 Ha0 Ha1 HA HB HF Hd Hc p.
  assert (Es := leap_snd h nu alpha o x F1). cbv zeta in Es.
  assert (Ef : fst (leapfrog_values h nu alpha o x F1) =
    (x + alpha * (Q2Qc (1 # 2) * nu * (o - Q2Qc (2 # 1) * x + (o + Q2Qc (2 # 1) * F1 * h))))%Qc) by reflexivity.
  destruct (leapfrog_values h nu alpha o x F1) as [x' n']. cbn [fst snd] in Es, Ef.
  assert (S0 : (0 <= alpha * nu)%Qc) by (apply mul_pos; auto).
  assert (S1 : (0 <= 1 - alpha * nu)%Qc).
  { assert (X := mul_le nu alpha 1%Qc Hn0 Ha1). rewrite (Qcmult_comm nu alpha), Qcmult_1_r in X. clear - X Hn1. generalize dependent (alpha * nu)%Qc. intros. qc_lra. }
  assert (Hp : close p (Q2Qc (2 # 1) * h * F1)%Qc (y2 - y0)%Qc).
  { assert (K2 : (0 <= Q2Qc (2 # 1) * h)%Qc) by (apply mul_pos; [qc_lra|auto]).
    eapply close_shift; [exact (close_sub _ _ _ _ _ _ (close_scale _ _ _ _ K2 HF) Hd)|]. ring. }
  assert (S5 : (0 <= Q2Qc (1 # 2) * (alpha * nu))%Qc) by (apply mul_pos; [qc_lra|exact S0]).
  split.
  - eapply close_shift; [exact (close_add _ _ _ _ _ _ (close_sub _ _ _ _ _ _ HA (close_scale _ _ _ _ S1 HB))
      (close_scale _ _ _ _ S5 (close_add _ _ _ _ _ _ Hp Hc)))|].
    rewrite Ef. qc_ring.
  - assert (S2 : (0 <= 1 - nu)%Qc) by qc_lra. assert (S3 : (0 <= 1 - Q2Qc (1 # 2) * nu)%Qc) by qc_lra.
    assert (S4 : (0 <= Q2Qc (1 # 2) * nu)%Qc) by qc_lra.
    assert (C1 := close_scale _ _ _ _ S2 HB). assert (C2 := close_scale _ _ _ _ S3 Hp). assert (C3 := close_scale _ _ _ _ S4 Hc).
    assert (N : forall e a b, close e a b -> close e (- a)%Qc (- b)%Qc) by (intros e a b (H1 & H2); split; qc_lra).
    eapply close_shift; [exact (close_add _ _ _ _ _ _ (close_add _ _ _ _ _ _ (N _ _ _ C1) (N _ _ _ C2)) C3)|].
    rewrite Ef, Es. qc_ring.
Qed.

(** The weighted size of the two errors grows by little. *)
Lemma leap_growth : forall h nu alpha r L A B d c : Qc,
  (0 <= h)%Qc -> (0 < nu)%Qc -> (nu <= 1)%Qc -> (0 <= alpha)%Qc -> (alpha <= 1)%Qc -> (r * nu = 1)%Qc ->
  (0 <= L)%Qc -> (0 <= A)%Qc -> (0 <= B)%Qc -> (0 <= d)%Qc -> (0 <= c)%Qc ->
  let p := leap_p h L A B d in
  ((A + (1 - alpha * nu) * B + Q2Qc (1 # 2) * (alpha * nu) * (p + c)) + r * ((1 - nu) * B + (1 - Q2Qc (1 # 2) * nu) * p + Q2Qc (1 # 2) * nu * c)
   <= (1 + Q2Qc (2 # 1) * h * L * r) * (A + r * B) + (r * d + c))%Qc.
Proof.
  intros h nu alpha r L A B d c Hh Hn0 Hn1 Ha0 Ha1 Hr HL HA HB Hd Hc p.
  assert (S0 : (0 <= alpha * nu)%Qc) by (apply mul_pos; [auto|qc_lra]).
  assert (S1 : (alpha * nu <= 1)%Qc).
  { assert (X := mul_le nu alpha 1%Qc ltac:(qc_lra) Ha1). rewrite (Qcmult_comm nu alpha), Qcmult_1_r in X. clear - X Hn1. generalize dependent (alpha * nu)%Qc. intros. qc_lra. }
  assert (R1 : (1 <= r)%Qc).
  { apply Qcnot_lt_le. intros X. assert (Y := mul_gt nu 1%Qc r Hn0 X). rewrite (Qcmult_comm nu r), Hr in Y. qc_lra. }
  assert (HLAB : (L * (A + B) <= L * (A + r * B))%Qc).
  { apply mul_le; auto. assert (X := mul_le B 1%Qc r HB R1). rewrite (Qcmult_comm B r), (Qcmult_1_r B) in X. clear - X. generalize dependent (r * B)%Qc. intros. qc_lra. }
  assert (K2 : (0 <= Q2Qc (2 # 1) * h)%Qc) by (apply mul_pos; [qc_lra|auto]).
  assert (Hp0 : (0 <= p)%Qc).
  { unfold p, leap_p. assert (X : (0 <= L * (A + B))%Qc) by (apply mul_pos; [auto|qc_lra]). assert (Y := mul_pos _ _ K2 X).
    clear - Y Hd. generalize dependent (Q2Qc (2 # 1) * h * (L * (A + B)))%Qc. intros. qc_lra. }
  assert (Hp : (p <= Q2Qc (2 # 1) * h * (L * (A + r * B)) + d)%Qc).
  { unfold p, leap_p. apply (mul_le (Q2Qc (2 # 1) * h)) in HLAB; auto. clear - HLAB.
    generalize dependent (Q2Qc (2 # 1) * h * (L * (A + B)))%Qc. generalize (Q2Qc (2 # 1) * h * (L * (A + r * B)))%Qc. intros. qc_lra. }
  clearbody p. set (s := (alpha * nu)%Qc) in *. clearbody s.
  assert (E : ((A + (1 - s) * B + Q2Qc (1 # 2) * s * (p + c)) + r * ((1 - nu) * B + (1 - Q2Qc (1 # 2) * nu) * p + Q2Qc (1 # 2) * nu * c)
    = A + r * B - s * B + r * p - Q2Qc (1 # 2) * ((1 - s) * p) + Q2Qc (1 # 2) * ((1 + s) * c))%Qc).
  { replace (r * ((1 - nu) * B + (1 - Q2Qc (1 # 2) * nu) * p + Q2Qc (1 # 2) * nu * c))%Qc
      with (r * B - (r * nu) * B + r * p - Q2Qc (1 # 2) * (r * nu) * p + Q2Qc (1 # 2) * (r * nu) * c)%Qc by ring. rewrite Hr. qc_ring. }
  rewrite E. clear E.
  assert (X1 := mul_pos _ _ S0 HB). assert (X2 : (0 <= (1 - s) * p)%Qc) by (apply mul_pos; [qc_lra|auto]).
  assert (X3 := mul_le c s 1%Qc Hc S1). assert (X4 := mul_le r _ _ ltac:(qc_lra) Hp).
  replace ((1 + Q2Qc (2 # 1) * h * L * r) * (A + r * B) + (r * d + c))%Qc
    with (A + r * B + r * (Q2Qc (2 # 1) * h * (L * (A + r * B)) + d) + c)%Qc by ring.
  replace ((1 + s) * c)%Qc with (c + c * s)%Qc by ring. rewrite Qcmult_1_r in X3.
  clear - X1 X2 X3 X4.
  generalize dependent (r * (Q2Qc (2 # 1) * h * (L * (A + r * B)) + d))%Qc. generalize dependent (r * p)%Qc.
  generalize dependent (s * B)%Qc. generalize dependent ((1 - s) * p)%Qc. generalize dependent (c * s)%Qc. generalize (r * B)%Qc. intros. qc_lra.
Qed.

(** ** Runs *)
Section ConvergeLeap.
  Context {R : Registry}.

  Lemma lhistory_calls : forall {U} cfg (prog : icaller (T:=Qc) U) dt s0 log s,
    lhistory cfg prog dt s0 log s -> forall e, In e log -> exists u u' diag, prog u (l_st e) dt = (u', Ok (l_tend e, diag)).
  Proof.
    intros U cfg prog dt s0 log s H. induction H as [|s0 log l u st u' tend pdiag l' st' diag new H IH Hp Hc]; intros e He; [destruct He|].
    apply in_app_or in He as [He|[<-|[]]]; [auto|]. exists u, u', pdiag. exact Hp.
  Qed.

  (** One filtered step at the points. *)
  Lemma leap_step_points : forall dt nu alpha (before st st' new : state Qc) tend (G : points) (F : field),
    leap_step dt nu alpha before st tend st' new -> holds_points G before -> holds_points G st ->
    (forall X c, G X c -> exists t, dget X tend = Some t /\ in_grid t c /\ rate st X t c (F X c)) ->
    holds_points G st' /\ holds_points G new /\
    forall X c, G X c -> (value st' X c, value new X c) =
      leapfrog_values (Q2Qc (dt # 1000000)) nu alpha (value before X c) (value st X c) (F X c).
  Proof.
    intros dt nu alpha before st st' new tend G F (_ & _ & L) Hb Hs Hr.
    assert (P : forall X c, G X c -> exists x' n', dget X st' = Some (VDA x') /\ in_grid x' c /\ dget X new = Some (VDA n') /\ in_grid n' c /\
      (da_at x' c, da_at n' c) = leapfrog_values (Q2Qc (dt # 1000000)) nu alpha (value before X c) (value st X c) (F X c)).
    { intros X c HG. destruct (Hb X c HG) as (o & Eo & Go). destruct (Hs X c HG) as (x & Ex & Gx). destruct (Hr X c HG) as (td & Et & Gt & Hy).
      destruct (L X td Et) as (o' & x1 & x' & n' & Eo' & Ex1 & Ex' & En' & X1 & X2 & V1 & V2).
      rewrite Eo in Eo'. injection Eo' as <-. rewrite Ex in Ex1. injection Ex1 as <-.
      assert (Gx' : in_grid x' c) by (apply (in_grid_extends _ _ _ _ X1); [exact Gx|constructor]).
      assert (Gn' : in_grid n' c) by (apply (in_grid_extends _ _ _ _ X2); [exact Go|constructor; [exact Gt|constructor]]).
      destruct (V1 c Gx) as (_ & _ & y1 & Hy1 & W1). destruct (V2 c Gn') as (_ & _ & y2 & Hy2 & W2).
      rewrite (rate_fun _ _ _ _ _ _ Hy1 Hy) in W1. rewrite (rate_fun _ _ _ _ _ _ Hy2 Hy) in W2.
      exists x', n'. rewrite (value_at _ _ _ _ Eo), (value_at _ _ _ _ Ex).
      split; [auto|]. split; [auto|]. split; [auto|]. split; [auto|].
      rewrite W1, W2. symmetry. apply surjective_pairing. }
    split; [intros X c HG; destruct (P X c HG) as (x' & n' & ? & ? & _); eauto|].
    split; [intros X c HG; destruct (P X c HG) as (x' & n' & _ & _ & ? & ? & _); eauto|].
    intros X c HG. destruct (P X c HG) as (x' & n' & E1 & _ & E2 & _ & E). rewrite (value_at _ _ _ _ E1), (value_at _ _ _ _ E2). exact E.
  Qed.

  Lemma inv_of : forall nu : Qc, (0 < nu)%Qc -> (/ nu * nu = 1)%Qc.
  Proof. intros nu H. apply Qcmult_inv_l. intros E. rewrite E in H. qc_lra. Qed.

  Lemma leap_run : forall {U} cfg (prog : icaller (T:=Qc) U) dt nu alpha u log s G f L d w t0 y e0,
    lhistory cfg prog dt (new_leap nu alpha, u) log s -> wf_llog log -> (0 <= dt)%Z ->
    (0 < nu)%Qc -> (nu <= 1)%Qc -> (0 <= alpha)%Qc -> (alpha <= 1)%Qc ->
    lhanded_on G log -> (forall k e, nth_error log k = Some e -> dget "time" (l_st e) = Some (VTime (clock t0 dt k))) ->
    rates_by G f dt prog -> lipschitz G L f -> (0 <= L)%Qc -> (0 <= e0)%Qc -> (forall j, 0 <= d j)%Qc -> (forall j, 0 <= w j)%Qc ->
    let h := Q2Qc (dt # 1000000) in
    (forall e post, log = e :: post -> holds_points G (l_st e) /\ near G e0 (value (l_st e)) (y 0) /\
       near G (d 0%nat) (y 1) (euler_of h f t0 (y 0))) ->
    (forall j, S j < length log ->
       near G (d (S j)) (y (S (S j))) (fun X c => y j X c + Q2Qc (2 # 1) * h * f (clock t0 dt (S j)) (y (S j)) X c)%Qc /\
       near G (w (S j)) (fun X c => y j X c + y (S (S j)) X c)%Qc (fun X c => Q2Qc (2 # 1) * y (S j) X c)%Qc) ->
    forall k e, nth_error log k = Some e ->
    let B := bound (1 + Q2Qc (2 # 1) * h * L * / nu)%Qc (fun j => / nu * d j + w j)%Qc e0 (S k) in
    near G B (value (l_after e)) (y k) /\ near G B (value (l_new e)) (y (S k)).
  Proof.
    intros U cfg prog dt nu alpha u log s G f L d w t0 y e0 H Hw Hdt Hn0 Hn1 Ha0 Ha1 Hho Hck Hr Hl HL He0 Hd Hww h H0 Hy.
    assert (Hh : (0 <= h)%Qc) by (apply secs_nonneg; exact Hdt).
    set (r := (/ nu)%Qc). assert (Er : (r * nu = 1)%Qc) by (apply inv_of; exact Hn0).
    assert (R1 : (1 <= r)%Qc).
    { apply Qcnot_lt_le. intros X. assert (Y := mul_gt nu 1%Qc r Hn0 X). rewrite (Qcmult_comm nu r), Er in Y. qc_lra. }
    set (K := (1 + Q2Qc (2 # 1) * h * L * r)%Qc). set (D := fun j => (r * d j + w j)%Qc).
    destruct (leap_formula_lemma cfg prog dt nu alpha u _ s H Hw) as (F0 & FS).
    assert (M : forall k e, nth_error log k = Some e -> holds_points G (l_after e) /\ holds_points G (l_new e) /\
      exists A B, (0 <= A)%Qc /\ (0 <= B)%Qc /\ near G A (value (l_after e)) (y k) /\
        near G B (fun X c => value (l_after e) X c - value (l_new e) X c)%Qc (fun X c => y k X c - y (S k) X c)%Qc /\
        (A + r * B <= bound K D e0 (S k))%Qc).
    { induction k as [|k IH]; intros e He.
      - destruct log as [|e' log']; [discriminate He|]. injection He as ->.
        destruct (F0 e log' eq_refl) as (Ea & Eu). destruct (H0 e log' eq_refl) as (Hp & Hn & Hf). rewrite Ea.
        destruct (lhistory_calls _ _ _ _ _ _ H e (or_introl eq_refl)) as (v & v' & diag & Hc).
        assert (Ht : dget "time" (l_st e) = Some (VTime t0)) by (rewrite (Hck 0 e eq_refl); unfold clock; do 2 f_equal; lia).
        destruct (euler_rhs G f dt prog v (l_st e) v' (l_tend e) diag (l_new e) t0 Hr Hp Ht Hc Eu) as (I1 & _ & I2).
        split; [exact Hp|]. split; [exact I1|]. exists e0, (h * (L * e0) + d 0%nat)%Qc.
        assert (X1 := mul_pos _ _ Hh (mul_pos _ _ HL He0)). assert (Hd0 := Hd 0). assert (Hw0 := Hww 0).
        split; [exact He0|]. split; [clear - X1 Hd0; generalize dependent (h * (L * e0))%Qc; intros; qc_lra|]. split; [exact Hn|]. split.
        + intros X c HG. rewrite (I2 X c HG). unfold euler_of. fold h.
          assert (C1 : close (h * (L * e0))%Qc (h * f t0 (value (l_st e)) X c)%Qc (h * f t0 (y 0%nat) X c)%Qc).
          { apply close_scale; [exact Hh|]. apply (Hl t0 e0 _ _ Hn X c HG). }
          assert (C2 : close (d 0%nat) (y 0%nat X c + h * f t0 (y 0%nat) X c)%Qc (y 1%nat X c)) by (destruct (Hf X c HG); split; auto).
          assert (C3 := close_add _ _ _ _ _ _ C1 C2).
          assert (C4 := close_shift _ _ _ (value (l_st e) X c - (value (l_st e) X c + h * f t0 (value (l_st e)) X c))%Qc
                          (y 0%nat X c - y 1%nat X c)%Qc (conj (proj2 C3) (proj1 C3))).
          apply C4. ring.
        + cbn [bound]. unfold K, D.
          assert (X2 := mul_pos r _ ltac:(qc_lra) X1).
          replace ((1 + Q2Qc (2 # 1) * h * L * r) * e0 + (r * d 0%nat + w 0%nat))%Qc
            with (e0 + Q2Qc (2 # 1) * (r * (h * (L * e0))) + r * d 0%nat + w 0%nat)%Qc by ring.
          replace (e0 + r * (h * (L * e0) + d 0%nat))%Qc with (e0 + r * (h * (L * e0)) + r * d 0%nat)%Qc by ring.
          clear - X2 Hw0. generalize dependent (r * (h * (L * e0)))%Qc. generalize (r * d 0%nat)%Qc. intros. qc_lra.
      - assert (Hk : exists p, nth_error log k = Some p).
        { destruct (nth_error log k) as [p|] eqn:E; [eauto|]. apply nth_error_None in E.
          assert (X : nth_error log (S k) <> None) by congruence. apply nth_error_Some in X. lia. }
        destruct Hk as (p & Hp). destruct (IH p Hp) as (Ia & In & A & B & HA & HB & NA & NB & HAB).
        assert (Hs : exists pre post, log = pre ++ p :: e :: post).
        { destruct (nth_error_split _ _ Hp) as (pre & post & E & Ln). exists pre.
          rewrite E in He. rewrite nth_error_app2 in He by lia. replace (S k - length pre) with 1 in He by lia.
          destruct post as [|e' post]; [discriminate He|]. injection He as ->. exists post. exact E. }
        destruct Hs as (pre & post & E).
        assert (Hst : holds_points G (l_st e)).
        { intros X c HG. destruct (In X c HG) as (x & Hx & Hg). exists x. split; auto. rewrite (Hho pre p e post E X c HG). exact Hx. }
        assert (Hv : agree G (value (l_st e)) (value (l_new p))).
        { intros X c HG. unfold value. rewrite (Hho pre p e post E X c HG). reflexivity. }
        destruct (lhistory_calls _ _ _ _ _ _ H e (nth_error_In _ _ He)) as (v & v' & diag & Hc).
        destruct (leap_step_points dt nu alpha (l_after p) (l_st e) (l_after e) (l_new e) (l_tend e) G (f (clock t0 dt (S k)) (value (l_st e)))
          (FS pre p e post E) Ia Hst) as (J1 & J2 & J3).
        { intros X c HG. apply (proj2 Hr v (l_st e) v' (l_tend e) diag); auto. }
        fold h in J3. split; [exact J1|]. split; [exact J2|].
        assert (Hlen : S k < length log) by (apply nth_error_Some; congruence). destruct (Hy k Hlen) as (Y1 & Y2).
        assert (NF : near G (L * (A + B))%Qc (f (clock t0 dt (S k)) (value (l_st e))) (f (clock t0 dt (S k)) (y (S k)))).
        { apply Hl. intros X c HG. rewrite (Hv X c HG). destruct (NA X c HG), (NB X c HG). split; qc_lra. }
        exists (A + (1 - alpha * nu) * B + Q2Qc (1 # 2) * (alpha * nu) * (leap_p h L A B (d (S k)) + w (S k)))%Qc,
               ((1 - nu) * B + (1 - Q2Qc (1 # 2) * nu) * leap_p h L A B (d (S k)) + Q2Qc (1 # 2) * nu * w (S k))%Qc.
        assert (S0 : (0 <= alpha * nu)%Qc) by (apply mul_pos; [auto|qc_lra]).
        assert (S1 : (0 <= 1 - alpha * nu)%Qc).
        { assert (X := mul_le nu alpha 1%Qc ltac:(qc_lra) Ha1). rewrite (Qcmult_comm nu alpha), Qcmult_1_r in X. clear - X Hn1. generalize dependent (alpha * nu)%Qc. intros. qc_lra. }
        assert (Hp0 : (0 <= leap_p h L A B (d (S k)))%Qc).
        { unfold leap_p. assert (X : (0 <= L * (A + B))%Qc) by (apply mul_pos; [auto|qc_lra]).
          assert (Y := mul_pos _ _ (mul_pos (Q2Qc (2 # 1)) h ltac:(qc_lra) Hh) X). specialize (Hd (S k)).
          clear - Y Hd. generalize dependent (Q2Qc (2 # 1) * h * (L * (A + B)))%Qc. intros. qc_lra. }
        assert (Hwk := Hww (S k)).
        split.
        { assert (X1 := mul_pos _ _ S1 HB).
          assert (X2 : (0 <= Q2Qc (1 # 2) * (alpha * nu) * (leap_p h L A B (d (S k)) + w (S k)))%Qc).
          { apply mul_pos; [apply mul_pos; [qc_lra|exact S0]|]. clear - Hp0 Hwk. generalize dependent (leap_p h L A B (d (S k))). intros. qc_lra. }
          clear - HA X1 X2. generalize dependent ((1 - alpha * nu) * B)%Qc. generalize dependent (Q2Qc (1 # 2) * (alpha * nu) * (leap_p h L A B (d (S k)) + w (S k)))%Qc. intros. qc_lra. }
        split.
        { assert (X1 := mul_pos (1 - nu)%Qc B ltac:(qc_lra) HB). assert (X2 := mul_pos (1 - Q2Qc (1 # 2) * nu)%Qc _ ltac:(qc_lra) Hp0).
          assert (X3 := mul_pos (Q2Qc (1 # 2) * nu)%Qc _ ltac:(qc_lra) Hwk). clear - X1 X2 X3.
          generalize dependent ((1 - nu) * B)%Qc. generalize dependent ((1 - Q2Qc (1 # 2) * nu) * leap_p h L A B (d (S k)))%Qc.
          generalize dependent (Q2Qc (1 # 2) * nu * w (S k))%Qc. intros. qc_lra. }
        assert (Z : forall X c, G X c ->
          close (A + (1 - alpha * nu) * B + Q2Qc (1 # 2) * (alpha * nu) * (leap_p h L A B (d (S k)) + w (S k)))%Qc (value (l_after e) X c) (y (S k) X c) /\
          close ((1 - nu) * B + (1 - Q2Qc (1 # 2) * nu) * leap_p h L A B (d (S k)) + Q2Qc (1 # 2) * nu * w (S k))%Qc
            (value (l_after e) X c - value (l_new e) X c)%Qc (y (S k) X c - y (S (S k)) X c)%Qc).
        { intros X c HG. assert (J := J3 X c HG).
          assert (ALG := leap_algebra h nu alpha L A B (d (S k)) (w (S k)) (value (l_after p) X c) (value (l_st e) X c) (y k X c) (y (S k) X c) (y (S (S k)) X c)
            (f (clock t0 dt (S k)) (value (l_st e)) X c) (f (clock t0 dt (S k)) (y (S k)) X c) Hh ltac:(qc_lra) Hn1 Ha0 Ha1 (NA X c HG)).
          cbv zeta in ALG. rewrite <- J in ALG. apply ALG; [|exact (NF X c HG)|exact (Y1 X c HG)|exact (Y2 X c HG)].
          rewrite (Hv X c HG). exact (NB X c HG). }
        split; [intros X c HG; exact (proj1 (Z X c HG))|]. split; [intros X c HG; exact (proj2 (Z X c HG))|].
        eapply Qcle_trans; [apply (leap_growth h nu alpha r L A B (d (S k)) (w (S k))); auto|].
        change (bound K D e0 (S (S k))) with (K * bound K D e0 (S k) + D (S k))%Qc. unfold D at 2. fold K.
        assert (HK : (0 <= K)%Qc).
        { unfold K. assert (X := mul_pos _ _ (mul_pos _ _ (mul_pos (Q2Qc (2 # 1)) h ltac:(qc_lra) Hh) HL) (Qcle_trans 0%Qc 1%Qc r ltac:(qc_lra) R1)).
          clear - X. generalize dependent (Q2Qc (2 # 1) * h * L * r)%Qc. intros. qc_lra. }
        apply (mul_le K) in HAB; auto. clear - HAB. generalize dependent (K * (A + r * B))%Qc. generalize (K * bound K D e0 (S k))%Qc.
        generalize (r * d (S k))%Qc. intros. qc_lra. }
    intros k e He. destruct (M k e He) as (_ & _ & A & B & HA & HB & NA & NB & HAB). cbv zeta. fold r. fold K. fold D.
    assert (HrB := mul_le B 1%Qc r HB R1). rewrite (Qcmult_comm B r), (Qcmult_1_r B) in HrB.
    assert (Q : (A + B <= bound K D e0 (S k))%Qc).
    { clear - HAB HrB. generalize dependent (bound K D e0 (S k)). generalize dependent (r * B)%Qc. intros. qc_lra. }
    generalize dependent (bound K D e0 (S k)). intros b _ Q. split.
    - eapply near_le; [exact NA|]. qc_lra.
    - intros X c HG. destruct (NA X c HG), (NB X c HG). split; qc_lra.
  Qed.

  Lemma first_growth : forall h L e d : Qc, (0 <= h * (L * e))%Qc ->
    ((1 + h * L) * e + d <= (1 + Q2Qc (2 # 1) * h * L) * e + d)%Qc.
  Proof.
    intros h L e d H. replace ((1 + h * L) * e + d)%Qc with (e + h * (L * e) + d)%Qc by ring.
    replace ((1 + Q2Qc (2 # 1) * h * L) * e + d)%Qc with (e + Q2Qc (2 # 1) * (h * (L * e)) + d)%Qc by ring.
    generalize dependent (h * (L * e))%Qc. intros. qc_lra.
  Qed.

  (** Without filter. *)
  Lemma leap_run_plain : forall {U} cfg (prog : icaller (T:=Qc) U) dt alpha u log s G f L d t0 y e0,
    lhistory cfg prog dt (new_leap 0%Qc alpha, u) log s -> wf_llog log -> (0 <= dt)%Z ->
    lhanded_on G log -> (forall k e, nth_error log k = Some e -> dget "time" (l_st e) = Some (VTime (clock t0 dt k))) ->
    rates_by G f dt prog -> lipschitz G L f -> (0 <= L)%Qc -> (0 <= e0)%Qc -> (forall j, 0 <= d j)%Qc ->
    let h := Q2Qc (dt # 1000000) in
    (forall e post, log = e :: post -> holds_points G (l_st e) /\ near G e0 (value (l_st e)) (y 0) /\
       near G (d 0%nat) (y 1) (euler_of h f t0 (y 0))) ->
    (forall j, S j < length log ->
       near G (d (S j)) (y (S (S j))) (fun X c => y j X c + Q2Qc (2 # 1) * h * f (clock t0 dt (S j)) (y (S j)) X c)%Qc) ->
    forall k e, nth_error log k = Some e ->
    let B := bound (1 + Q2Qc (2 # 1) * h * L)%Qc d e0 (S k) in
    near G B (value (l_after e)) (y k) /\ near G B (value (l_new e)) (y (S k)).
  Proof.
    intros U cfg prog dt alpha u log s G f L d t0 y e0 H Hw Hdt Hho Hck Hr Hl HL He0 Hd h H0 Hy.
    assert (Hh : (0 <= h)%Qc) by (apply secs_nonneg; exact Hdt).
    set (K := (1 + Q2Qc (2 # 1) * h * L)%Qc).
    assert (K2 : (0 <= Q2Qc (2 # 1) * h)%Qc) by (apply mul_pos; [qc_lra|auto]).
    assert (HK : (1 <= K)%Qc).
    { unfold K. assert (X := mul_pos _ _ K2 HL). clear - X. generalize dependent (Q2Qc (2 # 1) * h * L)%Qc. intros. qc_lra. }
    destruct (leap_formula_lemma cfg prog dt 0%Qc alpha u _ s H Hw) as (F0 & FS).
    assert (M : forall k e, nth_error log k = Some e -> holds_points G (l_after e) /\ holds_points G (l_new e) /\
      near G (bound K d e0 (S k)) (value (l_after e)) (y k) /\ near G (bound K d e0 (S k)) (value (l_new e)) (y (S k))).
    { induction k as [|k IH]; intros e He.
      - destruct log as [|e' log']; [discriminate He|]. injection He as ->.
        destruct (F0 e log' eq_refl) as (Ea & Eu). destruct (H0 e log' eq_refl) as (Hp & Hn & Hf). rewrite Ea.
        destruct (lhistory_calls _ _ _ _ _ _ H e (or_introl eq_refl)) as (v & v' & diag & Hc).
        assert (Ht : dget "time" (l_st e) = Some (VTime t0)) by (rewrite (Hck 0 e eq_refl); unfold clock; do 2 f_equal; lia).
        destruct (euler_rhs G f dt prog v (l_st e) v' (l_tend e) diag (l_new e) t0 Hr Hp Ht Hc Eu) as (I1 & _ & I2).
        split; [exact Hp|]. split; [exact I1|]. split.
        + eapply near_le; [exact Hn|]. apply (bound_mono K d e0 0 HK He0 Hd).
        + eapply near_agree; [|exact I2]. eapply near_le; [eapply near_trans; [apply (near_euler G L); [exact Hl|exact Hh|exact Hn]|apply near_sym; exact Hf]|].
          change (bound K d e0 1) with (K * e0 + d 0%nat)%Qc. unfold K. assert (X := mul_pos _ _ Hh (mul_pos _ _ HL He0)).
          apply first_growth. exact X.
      - assert (Hk : exists p, nth_error log k = Some p).
        { destruct (nth_error log k) as [p|] eqn:E; [eauto|]. apply nth_error_None in E.
          assert (X : nth_error log (S k) <> None) by congruence. apply nth_error_Some in X. lia. }
        destruct Hk as (p & Hp). destruct (IH p Hp) as (Ia & In & NA & NB).
        assert (Hs : exists pre post, log = pre ++ p :: e :: post).
        { destruct (nth_error_split _ _ Hp) as (pre & post & E & Ln). exists pre.
          rewrite E in He. rewrite nth_error_app2 in He by lia. replace (S k - length pre) with 1 in He by lia.
          destruct post as [|e' post]; [discriminate He|]. injection He as ->. exists post. exact E. }
        destruct Hs as (pre & post & E).
        assert (Hst : holds_points G (l_st e)).
        { intros X c HG. destruct (In X c HG) as (x & Hx & Hg). exists x. split; auto. rewrite (Hho pre p e post E X c HG). exact Hx. }
        assert (Hv : agree G (value (l_st e)) (value (l_new p))).
        { intros X c HG. unfold value. rewrite (Hho pre p e post E X c HG). reflexivity. }
        destruct (lhistory_calls _ _ _ _ _ _ H e (nth_error_In _ _ He)) as (v & v' & diag & Hc).
        destruct (leap_step_points dt 0%Qc alpha (l_after p) (l_st e) (l_after e) (l_new e) (l_tend e) G (f (clock t0 dt (S k)) (value (l_st e)))
          (FS pre p e post E) Ia Hst) as (J1 & J2 & J3).
        { intros X c HG. apply (proj2 Hr v (l_st e) v' (l_tend e) diag); auto. }
        fold h in J3. split; [exact J1|]. split; [exact J2|].
        assert (Hlen : S k < length log) by (apply nth_error_Some; congruence).
        set (b := bound K d e0 (S k)) in *. change (bound K d e0 (S (S k))) with (K * b + d (S k))%Qc.
        assert (Hb : (0 <= b)%Qc) by (apply bound_nonneg; auto; qc_lra).
        assert (NV : near G b (value (l_st e)) (y (S k))) by (eapply near_agree; eauto).
        assert (J4 : forall X c, G X c -> value (l_after e) X c = value (l_st e) X c /\
          value (l_new e) X c = (value (l_after p) X c + Q2Qc (2 # 1) * f (clock t0 dt (S k)) (value (l_st e)) X c * h)%Qc).
        { intros X c HG. assert (J := J3 X c HG). rewrite leap_nu0 in J by reflexivity. injection J as -> ->. auto. }
        split.
        + eapply near_agree; [|intros X c HG; exact (proj1 (J4 X c HG))]. eapply near_le; [exact NV|].
          specialize (Hd (S k)). clearbody b K. clear - HK Hb Hd. qc_nra.
        + intros X c HG. rewrite (proj2 (J4 X c HG)).
          assert (C1 := close_scale _ _ _ _ K2 (Hl (clock t0 dt (S k)) _ _ _ NV X c HG)).
          assert (C2 : close (d (S k)) (y k X c + Q2Qc (2 # 1) * h * f (clock t0 dt (S k)) (y (S k)) X c)%Qc (y (S (S k)) X c)) by (destruct (Hy k Hlen X c HG); split; auto).
          assert (C3 := close_add _ _ _ _ _ _ (close_add _ _ _ _ _ _ (NA X c HG : close _ _ _) C1) C2).
          refine (close_le _ _ _ _ (close_shift _ _ _ _ _ C3 _) _); [ring|]. unfold K. apply eq_le. ring. }
    intros k e He. destruct (M k e He) as (_ & _ & N). exact N.
  Qed.
End ConvergeLeap.
