(** Main lemmas for C96: SSPRungeKutta in an arithmetic that rounds. *)
From Coq Require Import String List Bool Arith ZArith QArith Qcanon Lia Lqa.
From Verif Require Import Prelude PreludeFacts ArithM NdArray NdFacts Units DataArrayM GetNp SpecUnits UnitsFacts SpecDa DaFacts
  Components Composite SpecComposite Steppers SpecSteppers SteppersFacts RKFacts StepAlgebra StepRuns StepExact SpecOrder OrderMain SteppersMain
  SpecConverge ConvergeAlg ConvergeMain ConvergeAB ConvergeLeap ConvergeRate SpecRound RoundFacts RoundMain.
Import ListNotations.
Open Scope string_scope.
Open Scope nat_scope.
Open Scope list_scope.

Definition sized (G : points) (V : Qc) (v : field) : Prop := forall X c, G X c -> within V (v X c) 0%Qc.

Lemma sized_le : forall G V V' v, sized G V v -> (V <= V')%Qc -> sized G V' v.
Proof. intros G V V' v H HV X c HG. eapply within_le; eauto. Qed.

Lemma mix_sizes : forall q1 q2 V t, (q1 + q2 = 1)%Qc -> ((q1 + t) * V + t + ((q2 + t) * V + t) + t = V + t * (Q2Qc (2 # 1) * V + Q2Qc (3 # 1)))%Qc.
Proof. intros q1 q2 V t H. replace q2 with (1 - q1)%Qc by (rewrite <- H; ring). qc_ring. Qed.

Lemma more : forall a b t, (0 <= t)%Qc -> (a + t * b <= a + t * (b + t))%Qc.
Proof. intros a b t Ht. assert (X := mul_pos _ _ Ht Ht). replace (t * (b + t))%Qc with (t * b + t * t)%Qc by ring. generalize dependent (t * t)%Qc. generalize (t * b)%Qc. intros. qc_lra. Qed.

Lemma half_sizes : forall q V t, (q + q = 1)%Qc -> (0 <= t)%Qc -> (0 <= V)%Qc ->
  ((q + t) * (V + V + t) + t <= V + t * (Q2Qc (2 # 1) * V + Q2Qc (3 # 1) + t))%Qc.
Proof.
  intros q V t H Ht HV. replace ((q + t) * (V + V + t) + t)%Qc with ((q + q) * V + q * t + t * t + t * (V + V) + t)%Qc by ring. rewrite H.
  assert (Hq : (q <= 1)%Qc) by (clear - H; assert (X : (q + q <= 1)%Qc) by (rewrite H; apply Qcle_refl); qc_lra).
  assert (X := mul_le t _ _ Ht Hq). replace (t * (Q2Qc (2 # 1) * V + Q2Qc (3 # 1) + t))%Qc with (t * (V + V) + t * Q2Qc (3 # 1) + t * t)%Qc by qc_ring.
  replace (t * q)%Qc with (q * t)%Qc in X by ring. generalize dependent (q * t)%Qc. generalize (t * t)%Qc. generalize (t * (V + V))%Qc. intros. clear - X Ht. qc_lra.
Qed.

Section RoundRK.
  Context {T : Type} {A : Arith T} {R : Registry} (num : T -> Qc) (fin : T -> Prop) (big u tiny : Qc).
  Hypothesis RD : rounds A num fin big u tiny.

  (** A weighted mean of two numbers. *)
  Lemma mean_off : forall q1 q2 x y V, (0 <= Q2Qc q1)%Qc -> (0 <= Q2Qc q2)%Qc -> (Q2Qc q1 + Q2Qc q2 = 1)%Qc -> (1 <= big)%Qc ->
    fin x -> fin y -> within V (num x) 0%Qc -> within V (num y) 0%Qc ->
    ((1 + u) ^ 8 * (Q2Qc (2 # 1) * V + tiny * (Q2Qc (2 # 1) * V + Q2Qc (3 # 1) + tiny)) <= big)%Qc ->
    let r := aadd (amul (aofQ q1) x) (amul (aofQ q2) y) in
    fin r /\ within (mix_error u tiny V) (num r) (Q2Qc q1 * num x + Q2Qc q2 * num y)%Qc.
  Proof.
    intros q1 q2 x y V H1 H2 Hs Hb Fx Fy Vx Vy HB. assert (Ht := rounds_tiny _ _ _ _ _ _ RD). assert (HV := within_nonneg _ _ _ Vx).
    assert (L1 : (Q2Qc q1 <= 1)%Qc) by (rewrite <- Hs; clear - H2; generalize dependent (Q2Qc q2); generalize (Q2Qc q1); intros; qc_lra).
    assert (L2 : (Q2Qc q2 <= 1)%Qc) by (rewrite <- Hs; clear - H1; generalize dependent (Q2Qc q1); generalize (Q2Qc q2); intros; qc_lra).
    assert (SS := mix_sizes (Q2Qc q1) (Q2Qc q2) V tiny Hs).
    assert (MM := more V (Q2Qc (2 # 1) * V + Q2Qc (3 # 1)) tiny Ht).
    assert (V2 : (V + tiny * (Q2Qc (2 # 1) * V + Q2Qc (3 # 1) + tiny) <= Q2Qc (2 # 1) * V + tiny * (Q2Qc (2 # 1) * V + Q2Qc (3 # 1) + tiny))%Qc).
    { generalize (tiny * (Q2Qc (2 # 1) * V + Q2Qc (3 # 1) + tiny))%Qc. clear - HV. intros. qc_lra. }
    assert (N1 : (0 <= (Q2Qc q1 + tiny) * V + tiny)%Qc).
    { assert (X := mul_pos _ _ H1 HV). assert (Y := mul_pos _ _ Ht HV). replace ((Q2Qc q1 + tiny) * V)%Qc with (Q2Qc q1 * V + tiny * V)%Qc by ring.
      generalize dependent (Q2Qc q1 * V)%Qc. generalize dependent (tiny * V)%Qc. clear - Ht. intros. qc_lra. }
    assert (N2 : (0 <= (Q2Qc q2 + tiny) * V + tiny)%Qc).
    { assert (X := mul_pos _ _ H2 HV). assert (Y := mul_pos _ _ Ht HV). replace ((Q2Qc q2 + tiny) * V)%Qc with (Q2Qc q2 * V + tiny * V)%Qc by ring.
      generalize dependent (Q2Qc q2 * V)%Qc. generalize dependent (tiny * V)%Qc. clear - Ht. intros. qc_lra. }
    assert (All : ((1 + u) ^ 8 * ((Q2Qc q1 + tiny) * V + tiny + ((Q2Qc q2 + tiny) * V + tiny) + tiny) <= big)%Qc).
    { eapply (below A num fin big u tiny RD); [|exact HB]. rewrite SS. eapply Qcle_trans; [exact MM|exact V2]. }
    assert (O1 := term_off A num fin big u tiny RD q1 x V H1 (Qcle_trans _ _ _ L1 Hb) Fx Vx).
    assert (O2 := term_off A num fin big u tiny RD q2 y V H2 (Qcle_trans _ _ _ L2 Hb) Fy Vy).
    generalize dependent ((Q2Qc q1 + tiny) * V + tiny)%Qc. generalize dependent ((Q2Qc q2 + tiny) * V + tiny)%Qc. intros b Nb O2 a SS Na All O1.
    assert (B : forall w, (w <= a + b + tiny)%Qc -> ((1 + u) ^ 8 * w <= big)%Qc) by (intros w Hw; eapply (below A num fin big u tiny RD); eauto).
    specialize (O1 (B a ltac:(clear - Nb Ht; qc_lra))). specialize (O2 (B b ltac:(clear - Na Ht; qc_lra))).
    assert (O := off_add A num fin big u tiny RD 2 _ _ _ _ _ _ O1 O2 ltac:(lia) (B (a + b)%Qc ltac:(clear - Ht; qc_lra))).
    apply (off_le A num fin big u tiny RD 3 8) in O; [|lia]. rewrite SS in O. destruct O as (_ & Fr & _ & Wr). split; [exact Fr|].
    eapply within_le; [exact Wr|]. unfold mix_error. apply mul_le; [|exact MM].
    destruct (p_pow A num fin big u tiny RD 8 8 (le_n _)) as (X & _). clear - X. generalize dependent ((1 + u) ^ 8)%Qc. intros. qc_lra.
  Qed.

  Lemma half_off : forall q x y V, (0 <= Q2Qc q)%Qc -> (Q2Qc q + Q2Qc q = 1)%Qc -> (1 <= big)%Qc ->
    fin x -> fin y -> within V (num x) 0%Qc -> within V (num y) 0%Qc ->
    ((1 + u) ^ 8 * (Q2Qc (2 # 1) * V + tiny * (Q2Qc (2 # 1) * V + Q2Qc (3 # 1) + tiny)) <= big)%Qc ->
    let r := amul (aofQ q) (aadd x y) in
    fin r /\ within (mix_error u tiny V) (num r) (Q2Qc q * num x + Q2Qc q * num y)%Qc.
  Proof.
    intros q x y V H1 Hs Hb Fx Fy Vx Vy HB. assert (Ht := rounds_tiny _ _ _ _ _ _ RD). assert (HV := within_nonneg _ _ _ Vx).
    assert (L1 : (Q2Qc q <= 1)%Qc) by (rewrite <- Hs; clear - H1; generalize dependent (Q2Qc q); intros; qc_lra).
    assert (SS := half_sizes (Q2Qc q) V tiny Hs Ht HV).
    assert (TT : (0 <= tiny * (Q2Qc (2 # 1) * V + Q2Qc (3 # 1) + tiny))%Qc) by (apply mul_pos; [exact Ht|clear - HV Ht; qc_lra]).
    assert (O1 := off_exact num fin u V x Fx Vx). assert (O2 := off_exact num fin u V y Fy Vy).
    assert (B : forall w, (w <= Q2Qc (2 # 1) * V + tiny * (Q2Qc (2 # 1) * V + Q2Qc (3 # 1) + tiny))%Qc -> ((1 + u) ^ 8 * w <= big)%Qc) by (intros w Hw; eapply (below A num fin big u tiny RD); eauto).
    assert (O3 := off_add A num fin big u tiny RD 0 _ _ _ _ _ _ O1 O2 ltac:(lia) (B (V + V)%Qc ltac:(clear - TT; generalize dependent (tiny * (Q2Qc (2 # 1) * V + Q2Qc (3 # 1) + tiny))%Qc; intros; qc_lra))).
    assert (O4 := off_ofQ A num fin big u tiny RD q H1 (Qcle_trans _ _ _ L1 Hb)).
    assert (O := off_mul A num fin big u tiny RD 1 1 _ _ _ _ _ _ O4 O3 ltac:(lia)).
    assert (Hw : ((Q2Qc q + tiny) * (V + V + tiny) <= Q2Qc (2 # 1) * V + tiny * (Q2Qc (2 # 1) * V + Q2Qc (3 # 1) + tiny))%Qc).
    { clear - SS HV Ht. generalize dependent ((Q2Qc q + tiny) * (V + V + tiny))%Qc. generalize (tiny * (Q2Qc (2 # 1) * V + Q2Qc (3 # 1) + tiny))%Qc. intros. qc_lra. }
    specialize (O (B _ Hw)). apply (off_le A num fin big u tiny RD 3 8) in O; [|lia].
    destruct O as (_ & Fr & _ & Wr). split; [exact Fr|]. replace (Q2Qc q * num x + Q2Qc q * num y)%Qc with (Q2Qc q * (num x + num y))%Qc by ring.
    eapply within_le; [exact Wr|]. unfold mix_error. apply mul_le; [|exact SS].
    destruct (p_pow A num fin big u tiny RD 8 8 (le_n _)) as (X & _). clear - X. generalize dependent ((1 + u) ^ 8)%Qc. intros. qc_lra.
  Qed.

  (** One Euler step of all points. *)
  Lemma euler_stage : forall {U} G f V F rho dt (prog : icaller (T:=T) U) v st v' tend diag st' now S, (0 <= dt)%Z ->
    rates_near num fin G f V rho dt prog -> bounded_on G V F f ->
    ab_fits big u tiny (Q2Qc (dt # 1000000)) V (F + rho) 1 ->
    has_finite fin G st -> sized G S (reading num st) -> (S <= V)%Qc -> dget "time" st = Some (VTime now) ->
    prog v st dt = (v', Ok (tend, diag)) -> euler_step dt st tend st' ->
    let h := Q2Qc (dt # 1000000) in
    has_finite fin G st' /\ dget "time" st' = Some (VTime now) /\
    near G (euler_error u tiny h V F rho) (reading num st') (euler_of h f now (reading num st)) /\
    sized G (S + (h * F + euler_error u tiny h V F rho))%Qc (reading num st').
  Proof.
    intros U G f V F rho dt prog v st v' tend diag st' now S Hdt (Hne & Hr) Hbd Hfit Hf Hs HS Ht Hp He h.
    assert (Hh : (0 <= h)%Qc) by (apply secs_nonneg; exact Hdt). assert (HsV := sized_le _ _ _ _ Hs HS).
    assert (P : forall X c, G X c -> exists r, dget X st' = Some (VDA r) /\ in_grid r c /\ fin (da_at r c) /\
      within (euler_error u tiny h V F rho) (num (da_at r c)) (reading num st X c + h * f now (reading num st) X c)%Qc).
    { intros X c HG. destruct (Hf X c HG) as (x & Hx & Hgx & Fx). destruct (Hr v st v' tend diag now Hp Hf HsV Ht X c HG) as (t & Et & Hgt & Hy).
      destruct (proj2 He X t Et) as (x' & r & Hx' & Hr' & Hex & Hv). assert (x' = x) by congruence. subst x'.
      assert (Gr : in_grid r c) by (eapply in_grid_extends; eauto). destruct (Hv c Gr) as (_ & y & Ry & Er). destruct (Hy y Ry) as (Fy & Wy).
      exists r. split; auto. split; auto.
      assert (Vx : within V (num (da_at x c)) 0%Qc) by (rewrite <- (reading_at num _ _ _ c Hx); apply HsV; exact HG).
      assert (By := Hbd now _ HsV X c HG).
      assert (Vy : within (F + rho)%Qc (num y) 0%Qc) by (eapply within_le; [eapply within_trans; [exact Wy|exact By]|apply eq_le; ring]).
      assert (O := euler_off A num fin big u tiny RD (dt # 1000000) (da_at x c) y V (F + rho)%Qc Hh Fx Fy Vx Vy Hfit).
      rewrite <- Er in O. destruct O as (_ & Fr & _ & Wr). split; [exact Fr|].
      fold (ab_rounding u tiny h V (F + rho)%Qc 1) in Wr. rewrite (reading_at num _ _ _ c Hx).
      assert (Wh := close_scale _ _ _ _ Hh (Wy : close _ _ _)).
      assert (Z : within 0%Qc (num (da_at x c)) (num (da_at x c))) by (split; generalize (num (da_at x c)); intros; qc_lra).
      assert (W2 := within_sum _ _ _ _ _ _ Z (Wh : within _ _ _)). replace (num y * Q2Qc (dt # 1000000))%Qc with (h * num y)%Qc in Wr by (unfold h; ring).
      eapply within_le; [eapply within_trans; [exact Wr|exact W2]|]. unfold euler_error. apply eq_le. fold h. unfold ab_rounding. ring. }
    split; [intros X c HG; destruct (P X c HG) as (r & P1 & P2 & P3 & _); eauto|]. split; [|split].
    - destruct He as (Hsm & He). rewrite (Hsm "time"); auto. intros Hin. apply In_keys_dget in Hin as (t & Et).
      destruct (He "time" t Et) as (x & r & Hx & _). congruence.
    - intros X c HG. destruct (P X c HG) as (r & P1 & _ & _ & P4). rewrite (reading_at num _ _ _ c P1). exact P4.
    - intros X c HG. destruct (P X c HG) as (r & P1 & _ & _ & P4). rewrite (reading_at num _ _ _ c P1).
      assert (By := close_scale h F (f now (reading num st) X c) 0%Qc Hh (Hbd now _ HsV X c HG : close _ _ _)).
      assert (W2 := within_sum _ _ _ _ _ _ (Hs X c HG) (By : within _ _ _)).
      replace (0 + h * 0)%Qc with 0%Qc in W2 by ring. eapply within_le; [eapply within_trans; [exact P4|exact W2]|]. apply eq_le. ring.
  Qed.

  (** One combination of stages. *)
  Lemma mix_stage : forall (G : points) a b op V S S' (st st' out : state T) now, (forall X c, G X c -> X <> "time") ->
    (forall x y, fin x -> fin y -> within V (num x) 0%Qc -> within V (num y) 0%Qc ->
      fin (op x y) /\ within (mix_error u tiny V) (num (op x y)) (a * num x + b * num y)%Qc) ->
    (0 <= a)%Qc -> (0 <= b)%Qc ->
    combination op st st' out -> has_finite fin G st -> has_finite fin G st' -> dget "time" st = Some (VTime now) ->
    sized G S (reading num st) -> sized G S' (reading num st') -> (S <= V)%Qc -> (S' <= V)%Qc ->
    has_finite fin G out /\ dget "time" out = Some (VTime now) /\
    near G (mix_error u tiny V) (reading num out) (mix a b (reading num st) (reading num st')) /\
    sized G (a * S + b * S' + mix_error u tiny V)%Qc (reading num out).
  Proof.
    intros G a b op V S S' st st' out now Hne Hop Ha Hb (C0 & C) F1 F2 Ht S1 S2 L1 L2.
    assert (P : forall X c, G X c -> exists r, dget X out = Some (VDA r) /\ in_grid r c /\ fin (da_at r c) /\
      within (mix_error u tiny V) (num (da_at r c)) (a * reading num st X c + b * reading num st' X c)%Qc).
    { intros X c HG. destruct (F1 X c HG) as (x & Hx & Gx & Fx). destruct (F2 X c HG) as (y & Hy & Gy & Fy).
      specialize (C X (Hne X c HG)). rewrite Hx in C. destruct C as (y' & r & Hy' & Hr & Hex & Hv). assert (y' = y) by congruence. subst y'.
      assert (Gr : in_grid r c) by (eapply in_grid_extends; eauto). destruct (Hv c Gr) as (_ & Er). exists r. split; auto. split; auto. rewrite Er.
      assert (A1 := sized_le _ _ _ _ S1 L1 X c HG). assert (A2 := sized_le _ _ _ _ S2 L2 X c HG).
      rewrite (reading_at num _ _ _ c Hx) in *. rewrite (reading_at num _ _ _ c Hy) in *. apply Hop; auto. }
    split; [intros X c HG; destruct (P X c HG) as (r & P1 & P2 & P3 & _); eauto|]. split; [congruence|]. split.
    - intros X c HG. destruct (P X c HG) as (r & P1 & _ & _ & P4). rewrite (reading_at num _ _ _ c P1). exact P4.
    - intros X c HG. destruct (P X c HG) as (r & P1 & _ & _ & P4). rewrite (reading_at num _ _ _ c P1).
      assert (W1 := close_scale a _ _ _ Ha (S1 X c HG : close _ _ _)). assert (W2 := close_scale b _ _ _ Hb (S2 X c HG : close _ _ _)).
      assert (W := within_sum _ _ _ _ _ _ (W1 : within _ _ _) (W2 : within _ _ _)). replace (a * 0 + b * 0)%Qc with 0%Qc in W by ring.
      eapply within_le; [eapply within_trans; [exact P4|exact W]|]. apply eq_le. ring.
  Qed.

  Lemma errors_nonneg : forall h V F rho, (0 <= h)%Qc -> (0 <= V)%Qc -> (0 <= F)%Qc -> (0 <= rho)%Qc ->
    (0 <= euler_error u tiny h V F rho)%Qc /\ (0 <= mix_error u tiny V)%Qc.
  Proof.
    intros h V F rho Hh HV HF Hr. assert (Ht := rounds_tiny _ _ _ _ _ _ RD).
    assert (P8 : (0 <= (1 + u) ^ 8 - 1)%Qc).
    { destruct (p_pow A num fin big u tiny RD 8 8 (le_n _)) as (X & _). generalize dependent ((1 + u) ^ 8)%Qc. intros. qc_lra. }
    split.
    - unfold euler_error, ab_rounding. assert (HFr : (0 <= F + rho)%Qc) by qc_lra.
      assert (X := mul_pos _ _ P8 (ab_size_of_nonneg tiny h V (F + rho) 1 Ht Hh HV HFr)). assert (Y := mul_pos _ _ Hh Hr).
      generalize dependent (((1 + u) ^ 8 - 1) * ab_size_of tiny h V (F + rho) 1)%Qc. generalize dependent (h * rho)%Qc. clear. intros. qc_lra.
    - apply mul_pos; [exact P8|]. assert (X : (0 <= tiny * (Q2Qc (2 # 1) * V + Q2Qc (3 # 1) + tiny))%Qc) by (apply mul_pos; [exact Ht|clear - HV Ht; qc_lra]).
      generalize dependent (tiny * (Q2Qc (2 # 1) * V + Q2Qc (3 # 1) + tiny))%Qc. clear - HV. intros. qc_lra.
  Qed.

  Lemma rk_rounded_step : forall {U} cfg (prog : icaller (T:=T) U) z k0 u0 calls k v (st : state T) dt s' diag new G f L now V F W rho,
    new_rk z = Ok k0 -> after (ssp_rk cfg prog) calls (k0, u0) = (k, v) -> proper_components prog -> proper_state st -> (0 <= dt)%Z ->
    ssp_rk cfg prog (k, v) st dt = (s', Ok (diag, new)) ->
    rates_near num fin G f V rho dt prog -> lipschitz G L f -> bounded_on G V F f -> (0 <= L)%Qc -> (0 <= F)%Qc -> (0 <= rho)%Qc -> (0 <= V)%Qc ->
    let h := Q2Qc (dt # 1000000) in
    rk_fits big u tiny h W V F rho -> has_finite fin G st -> sized G W (reading num st) -> dget "time" st = Some (VTime now) ->
    (Z.to_nat z = 2 \/ Z.to_nat z = 3) /\ has_finite fin G new /\ dget "time" new = Some (VTime now) /\
    near G (rk_rounding (Z.to_nat z) (h * L) (euler_error u tiny h V F rho) (mix_error u tiny V)) (reading num new)
      (shu_osher (Z.to_nat z) h f now (reading num st)).
  Proof.
    intros U cfg prog z k0 u0 calls k v st dt s' diag new G f L now V F W rho Hz Haf Hpc Hps Hdt H Hr Hl Hbd HL HF Hrho HV h (Hfit & Hmix & HWV) Hf Hs Ht.
    assert (Hne := proj1 Hr). assert (Hh : (0 <= h)%Qc) by (apply secs_nonneg; exact Hdt).
    assert (Hti := rounds_tiny _ _ _ _ _ _ RD).
    assert (B1 : (1 <= big)%Qc) by (destruct Hfit as (_ & X); clear - X Hh; fold h in X; qc_lra).
    assert (Q : forall q, (0 <= q)%Q -> (0 <= Q2Qc q)%Qc) by (intros q Hq; to_q; lra).
    assert (Nn : (0 <= h * F)%Qc) by (apply mul_pos; auto).
    set (eE := euler_error u tiny h V F rho) in *. set (eM := mix_error u tiny V) in *.
    assert (NE : (0 <= eE)%Qc /\ (0 <= eM)%Qc) by (apply errors_nonneg; auto). destruct NE as (NeE & NeM).
    set (E := (h * F + eE)%Qc) in *. assert (HE : (0 <= E)%Qc) by (unfold E; clear - Nn NeE; generalize dependent (h * F)%Qc; intros; qc_lra).
    assert (Half : forall x y, fin x -> fin y -> within V (num x) 0%Qc -> within V (num y) 0%Qc ->
      fin (amul (aofQ (1 # 2)) (aadd x y)) /\ within eM (num (amul (aofQ (1 # 2)) (aadd x y))) (Q2Qc (1 # 2) * num x + Q2Qc (1 # 2) * num y)%Qc).
    { intros x y Fx Fy Vx Vy. apply half_off; auto; [apply Q; lra|apply Qc_is_canon; reflexivity]. }
    assert (Mean : forall q1 q2, (0 <= q1)%Q -> (0 <= q2)%Q -> (Q2Qc q1 + Q2Qc q2 = 1)%Qc -> forall x y, fin x -> fin y -> within V (num x) 0%Qc -> within V (num y) 0%Qc ->
      fin (aadd (amul (aofQ q1) x) (amul (aofQ q2) y)) /\ within eM (num (aadd (amul (aofQ q1) x) (amul (aofQ q2) y))) (Q2Qc q1 * num x + Q2Qc q2 * num y)%Qc).
    { intros q1 q2 H1 H2 H12 x y Fx Fy Vx Vy. apply mean_off; auto. }
    destruct (rk_reachable cfg prog z k0 u0 calls k v Hz Haf) as (_ & _ & [-> | ->]).
    - destruct (main_rk2 cfg prog k0 u0 calls k v st dt s' diag new Hz Haf Hpc Hps H) as (u1 & u2 & t1 & t2 & d1 & d2 & st1 & st2 & P1 & E1 & P2 & E2 & C & _).
      destruct (euler_stage G f V F rho dt prog _ _ _ _ _ _ now W Hdt Hr Hbd Hfit Hf Hs ltac:(clear - HWV HE NeM; qc_lra) Ht P1 E1) as (H1 & T1 & N1 & S1).
      fold h eE in N1, S1. fold E in S1.
      destruct (euler_stage G f V F rho dt prog _ _ _ _ _ _ now (W + E)%Qc Hdt Hr Hbd Hfit H1 S1 ltac:(clear - HWV HE NeM; qc_lra) T1 P2 E2) as (H2 & T2 & N2 & S2).
      fold h eE in N2, S2. fold E in S2.
      destruct (mix_stage G (Q2Qc (1 # 2)) (Q2Qc (1 # 2)) _ V W (W + E + E)%Qc st st2 new now Hne Half (Q (1 # 2)%Q ltac:(lra)) (Q (1 # 2)%Q ltac:(lra)) C Hf H2 Ht Hs S2 ltac:(clear - HWV HE NeM; qc_lra) ltac:(clear - HWV HE NeM; qc_lra)) as (H3 & T3 & N3 & _).
      change (Z.to_nat 2) with 2. split; auto. split; auto. split; auto. cbn [shu_osher rk_rounding]. fold eM in N3.
      assert (M := near_trans _ _ _ _ _ _ N2 (near_euler G L f now h _ _ _ Hl Hh N1)).
      assert (Z0 : near G 0%Qc (reading num st) (reading num st)) by (intros X c _; generalize (reading num st X c); intros; split; qc_lra).
      eapply near_le; [eapply near_trans; [exact N3|apply near_mix; [apply Q; lra|apply Q; lra|exact Z0|exact M]]|]. apply eq_le. qc_ring.
    - destruct (main_rk3 cfg prog k0 u0 calls k v st dt s' diag new Hz Haf Hpc Hps H) as
        (u1 & u2 & u3 & t1 & t2 & t3 & d1 & d2 & d3 & st1 & st15 & st2 & st25 & P1 & E1 & P2 & E2 & C1 & P3 & E3 & C2 & _).
      destruct (euler_stage G f V F rho dt prog _ _ _ _ _ _ now W Hdt Hr Hbd Hfit Hf Hs ltac:(clear - HWV HE NeM; qc_lra) Ht P1 E1) as (H1 & T1 & N1 & S1).
      fold h eE in N1, S1. fold E in S1.
      destruct (euler_stage G f V F rho dt prog _ _ _ _ _ _ now (W + E)%Qc Hdt Hr Hbd Hfit H1 S1 ltac:(clear - HWV HE NeM; qc_lra) T1 P2 E2) as (H15 & T15 & N15 & S15).
      fold h eE in N15, S15. fold E in S15.
      destruct (mix_stage G (Q2Qc (3 # 4)) (Q2Qc (1 # 4)) _ V W (W + E + E)%Qc st st15 st2 now Hne (Mean (3 # 4)%Q (1 # 4)%Q ltac:(lra) ltac:(lra) ltac:(apply Qc_is_canon; reflexivity)) (Q (3 # 4)%Q ltac:(lra)) (Q (1 # 4)%Q ltac:(lra)) C1 Hf H15 Ht Hs S15 ltac:(clear - HWV HE NeM; qc_lra) ltac:(clear - HWV HE NeM; qc_lra)) as (H2 & T2 & N2 & S2).
      fold eM in N2, S2.
      assert (S2' : sized G (W + E + eM)%Qc (reading num st2)) by (eapply sized_le; [exact S2|clear - HE NeM; clearbody E eM; qc_lra]).
      destruct (euler_stage G f V F rho dt prog _ _ _ _ _ _ now (W + E + eM)%Qc Hdt Hr Hbd Hfit H2 S2' ltac:(clear - HWV HE NeM; qc_lra) T2 P3 E3) as (H25 & T25 & N25 & S25).
      fold h eE in N25, S25. fold E in S25.
      destruct (mix_stage G (Q2Qc (1 # 3)) (Q2Qc (2 # 3)) _ V W (W + E + eM + E)%Qc st st25 new now Hne (Mean (1 # 3)%Q (2 # 3)%Q ltac:(lra) ltac:(lra) ltac:(apply Qc_is_canon; reflexivity)) (Q (1 # 3)%Q ltac:(lra)) (Q (2 # 3)%Q ltac:(lra)) C2 Hf H25 Ht Hs S25 ltac:(clear - HWV HE NeM; qc_lra) ltac:(clear - HWV HE NeM; qc_lra)) as (H3 & T3 & N3 & _).
      fold eM in N3. change (Z.to_nat 3) with 3. split; auto. split; auto. split; auto. cbn [shu_osher rk_rounding].
      assert (Z0 : near G 0%Qc (reading num st) (reading num st)) by (intros X c _; generalize (reading num st X c); intros; split; qc_lra).
      assert (M15 := near_trans _ _ _ _ _ _ N15 (near_euler G L f now h _ _ _ Hl Hh N1)).
      assert (M2 := near_trans _ _ _ _ _ _ N2 (near_mix G (Q2Qc (3 # 4)) (Q2Qc (1 # 4)) _ _ _ _ _ _ (Q (3 # 4)%Q ltac:(lra)) (Q (1 # 4)%Q ltac:(lra)) Z0 M15)).
      assert (M25 := near_trans _ _ _ _ _ _ N25 (near_euler G L f now h _ _ _ Hl Hh M2)).
      eapply near_le; [eapply near_trans; [exact N3|apply near_mix; [apply Q; lra|apply Q; lra|exact Z0|exact M25]]|]. apply eq_le. qc_ring.
  Qed.

  Lemma growth_one : forall n z, (0 <= z)%Qc -> (1 <= rk_growth n z)%Qc.
  Proof.
    intros n z Hz. assert (Z2 := mul_pos _ _ Hz Hz). assert (Z3 := mul_pos _ _ Z2 Hz). unfold rk_growth.
    destruct n as [|[|[|n]]]; generalize dependent (z * z * z)%Qc; generalize dependent (z * z)%Qc; intros; qc_lra.
  Qed.

  Lemma rk_rounding_nonneg : forall n z eE eM, (0 <= z)%Qc -> (0 <= eE)%Qc -> (0 <= eM)%Qc -> (0 <= rk_rounding n z eE eM)%Qc.
  Proof.
    intros n z eE eM Hz HE HM. assert (X1 : (0 <= 1 + z)%Qc) by qc_lra. assert (X2 := mul_pos _ _ X1 HE).
    assert (X3 : (0 <= Q2Qc (1 # 4) * ((1 + z) * eE + eE) + eM)%Qc) by (generalize dependent ((1 + z) * eE)%Qc; intros; qc_lra).
    assert (X4 := mul_pos _ _ X1 X3). unfold rk_rounding.
    destruct n as [|[|[|n]]]; generalize dependent ((1 + z) * (Q2Qc (1 # 4) * ((1 + z) * eE + eE) + eM))%Qc; generalize dependent ((1 + z) * eE)%Qc; intros; qc_lra.
  Qed.

  Lemma rk_rounded_run : forall {U} cfg (prog : icaller (T:=T) U) z k0 u0 dt G f L V F W rho Yb, new_rk z = Ok k0 -> proper_components prog -> (0 <= dt)%Z ->
    rates_near num fin G f V rho dt prog -> lipschitz G L f -> bounded_on G V F f -> (0 <= L)%Qc -> (0 <= F)%Qc -> (0 <= rho)%Qc -> (0 <= V)%Qc ->
    let h := Q2Qc (dt # 1000000) in
    rk_fits big u tiny h W V F rho ->
    let K := rk_growth (Z.to_nat z) (h * L) in
    let r := rk_rounding (Z.to_nat z) (h * L) (euler_error u tiny h V F rho) (mix_error u tiny V) in
    forall n d calls k v t0 (st : state T) s' st' y e0, after (ssp_rk cfg prog) calls (k0, u0) = (k, v) -> proper_state st ->
    one_by_one (ssp_rk cfg prog) dt (k, v) st (times t0 dt n) s' st' ->
    has_finite fin G st -> near G e0 (reading num st) (y 0) -> (0 <= e0)%Qc -> (forall j, 0 <= d j)%Qc ->
    (forall j, j < n -> near G (d j) (y (S j)) (shu_osher (Z.to_nat z) h f (clock t0 dt j) (y j))) ->
    (forall j X c, j <= n -> G X c -> within Yb (y j X c) 0%Qc) ->
    (Yb + bound K (fun j => d j + r) e0 n <= W)%Qc ->
    has_finite fin G st' /\ near G (bound K (fun j => d j + r)%Qc e0 n) (reading num st') (y n).
  Proof.
    intros U cfg prog z k0 u0 dt G f L V F W rho Yb Hz Hpc Hdt Hr Hl Hbd HL HF Hrho HV h Hfit K r.
    assert (Hh : (0 <= h)%Qc) by (apply secs_nonneg; exact Hdt). assert (Hhl := mul_pos _ _ Hh HL).
    destruct (errors_nonneg h V F rho Hh HV HF Hrho) as (NE & NM).
    assert (Hr0 : (0 <= r)%Qc) by (apply rk_rounding_nonneg; auto). assert (HK : (1 <= K)%Qc) by (apply growth_one; auto).
    induction n as [|n IH]; intros d calls k v t0 st s' st' y e0 Haf Hps H Hf H0 He0 Hd Hy HYb HWb.
    - destruct H as (_ & ->). split; auto.
    - assert (Hdr : forall j, (0 <= d j + r)%Qc) by (intros j; specialize (Hd j); clear - Hd Hr0; clearbody r; qc_lra).
      rewrite times_S in H. destruct H as ([k1 v1] & diag & new & Ht & Hc & next & Hn & Hpn & Hrow).
      assert (Hs : sized G W (reading num st)).
      { intros X c HG. eapply within_le; [eapply within_trans; [exact (H0 X c HG : within _ _ _)|apply (HYb 0 X c); [lia|exact HG]]|].
        assert (B := bound_le K (fun j => d j + r)%Qc e0 (S n) 0 HK He0 Hdr ltac:(lia)). change (bound K (fun j => d j + r)%Qc e0 0) with e0 in B.
        clear - B HWb. generalize dependent (bound K (fun j => d j + r)%Qc e0 (S n)). intros. qc_lra. }
      destruct (rk_rounded_step cfg prog z k0 u0 calls k v st dt _ diag new G f L t0 V F W rho Hz Haf Hpc Hps Hdt Hc Hr Hl Hbd HL HF Hrho HV Hfit Hf Hs Ht) as (Hz' & I1 & _ & I2).
      fold h r in I2. rewrite bound_shift in HWb |- *.
      apply (IH (fun j => d (S j)) (calls ++ [(st, dt)]) k1 v1 (t0 + dt)%Z next s' st' (fun j => y (S j))); auto.
      + unfold after. rewrite fold_left_app. cbn [fold_left fst snd]. unfold after in Haf. rewrite Haf, Hc. reflexivity.
      + intros X c HG. destruct (I1 X c HG) as (x & Hx & Hg). exists x. split; auto. rewrite (Hn X (proj1 Hr X c HG)). exact Hx.
      + assert (Hv : agree G (reading num next) (reading num new)).
        { intros X c HG. unfold reading. rewrite (Hn X (proj1 Hr X c HG)). reflexivity. }
        eapply near_agree; [|exact Hv]. assert (Y0 := Hy 0 ltac:(lia)). replace (clock t0 dt 0) with t0 in Y0 by (unfold clock; lia).
        eapply near_le; [eapply near_trans; [exact I2|eapply near_trans; [apply (shu_osher_near G L); [exact Hz'|exact Hl|exact Hh|exact H0]|apply near_sym; exact Y0]]|].
        apply eq_le. fold K. ring.
      + assert (X := mul_pos _ _ (Qcle_trans 0 1 K ltac:(discriminate) HK) He0). specialize (Hdr 0). clear - X Hdr. generalize dependent (K * e0)%Qc. generalize dependent (d 0%nat + r)%Qc. intros. qc_lra.
      + intros j Hj. assert (Yj := Hy (S j) ltac:(lia)). replace (clock (t0 + dt) dt j) with (clock t0 dt (S j)) by (unfold clock; lia). exact Yj.
      + intros j X c Hj HG. apply HYb; [lia|exact HG].
  Qed.
End RoundRK.
