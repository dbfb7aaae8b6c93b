(** Main lemmas for C95: SSPRungeKutta and AdamsBashforth. *)
From Coq Require Import String List Bool Arith ZArith QArith Qcanon Lia Lqa.
From Verif Require Import Prelude PreludeFacts ArithM NdArray NdFacts Units DataArrayM GetNp SpecUnits UnitsFacts SpecDa DaFacts
  Components Composite SpecComposite Steppers SpecSteppers SteppersFacts RKFacts StepAlgebra StepRuns StepExact SpecOrder OrderMain
  SpecConverge ConvergeAlg.
Import ListNotations.
Open Scope string_scope.
Open Scope nat_scope.
Open Scope list_scope.

Lemma eq_le : forall x y : Qc, x = y -> (x <= y)%Qc.
Proof. intros x y ->. apply Qcle_refl. Qed.

(** ** Distances *)

Lemma near_refl : forall G v, near G 0%Qc v v.
Proof. intros G v X c _. split; replace (v X c - v X c)%Qc with 0%Qc by ring; qc_lra. Qed.

Lemma near_sym : forall G e v w, near G e v w -> near G e w v.
Proof. intros G e v w H X c HG. destruct (H X c HG). auto. Qed.

Lemma near_trans : forall G e1 e2 v w x, near G e1 v w -> near G e2 w x -> near G (e1 + e2)%Qc v x.
Proof. intros G e1 e2 v w x H1 H2 X c HG. destruct (H1 X c HG), (H2 X c HG). split; qc_lra. Qed.

Lemma near_le : forall G e1 e2 v w, near G e1 v w -> (e1 <= e2)%Qc -> near G e2 v w.
Proof. intros G e1 e2 v w H He X c HG. destruct (H X c HG). split; qc_lra. Qed.

Lemma near_agree : forall G e v v' w, near G e v w -> agree G v' v -> near G e v' w.
Proof. intros G e v v' w H A X c HG. rewrite (A X c HG). auto. Qed.

Lemma near_agree_r : forall G e v w w', near G e v w -> agree G w' w -> near G e v w'.
Proof. intros G e v w w' H A X c HG. rewrite (A X c HG). auto. Qed.

Lemma agree_near : forall G v w, agree G v w -> near G 0%Qc v w.
Proof. intros G v w H. eapply near_agree; [apply near_refl|exact H]. Qed.

Lemma near_mix : forall G a b e1 e2 v v' w w', (0 <= a)%Qc -> (0 <= b)%Qc -> near G e1 v v' -> near G e2 w w' ->
  near G (a * e1 + b * e2)%Qc (mix a b v w) (mix a b v' w').
Proof.
  intros G a b e1 e2 v v' w w' Ha Hb H1 H2 X c HG. destruct (H1 X c HG) as (A1 & A2), (H2 X c HG) as (B1 & B2). unfold mix.
  apply (mul_le a) in A1; auto. apply (mul_le a) in A2; auto. apply (mul_le b) in B1; auto. apply (mul_le b) in B2; auto.
  split; [replace (a * v X c + b * w X c - (a * v' X c + b * w' X c))%Qc with (a * (v X c - v' X c) + b * (w X c - w' X c))%Qc by ring
         |replace (a * v' X c + b * w' X c - (a * v X c + b * w X c))%Qc with (a * (v' X c - v X c) + b * (w' X c - w X c))%Qc by ring];
    apply Qcplus_le_compat; auto.
Qed.

Lemma near_euler : forall G L f now h e v w, lipschitz G L f -> (0 <= h)%Qc -> near G e v w ->
  near G ((1 + h * L) * e)%Qc (euler_of h f now v) (euler_of h f now w).
Proof.
  intros G L f now h e v w Hl Hh H. assert (H1 : (0 <= 1)%Qc) by qc_lra.
  assert (N := near_mix G 1%Qc h _ _ _ _ _ _ H1 Hh H (Hl now e v w H)).
  intros X c HG. specialize (N X c HG). unfold mix in N. unfold euler_of.
  replace ((1 + h * L) * e)%Qc with (1 * e + h * (L * e))%Qc by ring.
  replace (v X c + h * f now v X c)%Qc with (1 * v X c + h * f now v X c)%Qc by ring.
  replace (w X c + h * f now w X c)%Qc with (1 * w X c + h * f now w X c)%Qc by ring. exact N.
Qed.

(** The schemes on values. *)
Lemma shu_osher_near : forall G L f now h e v w n, n = 2 \/ n = 3 -> lipschitz G L f -> (0 <= h)%Qc -> near G e v w ->
  near G (rk_growth n (h * L) * e)%Qc (shu_osher n h f now v) (shu_osher n h f now w).
Proof.
  intros G L f now h e v w n Hn Hl Hh H.
  assert (E1 := near_euler G L f now h e v w Hl Hh H). assert (E2 := near_euler G L f now h _ _ _ Hl Hh E1).
  assert (Q : forall q, (0 <= q)%Q -> (0 <= Q2Qc q)%Qc) by (intros q Hq; to_q; lra).
  destruct Hn as [-> | ->]; cbn [shu_osher rk_growth].
  - eapply near_le; [apply near_mix; [apply Q; lra|apply Q; lra|exact H|exact E2]|]. apply eq_le. qc_ring.
  - assert (M1 := near_mix G (Q2Qc (3 # 4)) (Q2Qc (1 # 4)) _ _ _ _ _ _ (Q (3 # 4)%Q ltac:(lra)) (Q (1 # 4)%Q ltac:(lra)) H E2).
    assert (E3 := near_euler G L f now h _ _ _ Hl Hh M1).
    eapply near_le; [apply near_mix; [apply Q; lra|apply Q; lra|exact H|exact E3]|]. apply eq_le. qc_ring.
Qed.

Lemma secs_nonneg : forall dt, (0 <= dt)%Z -> (0 <= Q2Qc (dt # 1000000))%Qc.
Proof. intros dt H. to_q. unfold Qle. simpl. lia. Qed.

Section Converge.
  Context {R : Registry}.

  (** ** SSPRungeKutta: the step is the scheme *)
  Lemma euler_rhs : forall {U} G f dt (prog : icaller (T:=Qc) U) u st u' tend diag st' now,
    rates_by G f dt prog -> holds_points G st -> dget "time" st = Some (VTime now) ->
    prog u st dt = (u', Ok (tend, diag)) -> euler_step dt st tend st' ->
    holds_points G st' /\ dget "time" st' = Some (VTime now) /\
    agree G (value st') (euler_of (Q2Qc (dt # 1000000)) f now (value st)).
  Proof.
    intros U G f dt prog u st u' tend diag st' now (Hne & Hl) Hh Ht Hp He.
    assert (P : forall X c, G X c -> exists r, dget X st' = Some (VDA r) /\ in_grid r c /\
      value st' X c = (value st X c + Q2Qc (dt # 1000000) * f now (value st) X c)%Qc).
    { intros X c HG. destruct (Hh X c HG) as (x & Hx & Hgx).
      destruct (Hl u st u' tend diag now Hp Hh Ht X c HG) as (t & Et & Hgt & Hy).
      destruct (euler_point dt st tend st' X t x c _ He Et Hy Hgt Hx Hgx) as (r & G1 & G2 & G3).
      exists r. split; auto. split; auto. rewrite (value_at _ _ _ _ G1), (value_at _ _ _ _ Hx), G3. ring. }
    split; [intros X c HG; destruct (P X c HG) as (r & ? & ? & _); eauto|]. split.
    - destruct He as (Hs & He). rewrite (Hs "time"); auto. intros Hin. apply In_keys_dget in Hin as (t & Et).
      destruct (He "time" t Et) as (x & r & Hx & _). congruence.
    - intros X c HG. destruct (P X c HG) as (r & _ & _ & V). exact V.
  Qed.

  Lemma combination_mix : forall (G : points) a b (st st' out : state Qc) now, (forall X c, G X c -> X <> "time") ->
    combination (fun x y => (a * x + b * y)%Qc) st st' out ->
    holds_points G st -> holds_points G st' -> dget "time" st = Some (VTime now) ->
    holds_points G out /\ dget "time" out = Some (VTime now) /\ agree G (value out) (mix a b (value st) (value st')).
  Proof.
    intros G a b st st' out now Hne C H1 H2 Ht.
    apply (combination_linear G (fun _ _ => []) a b st st' out now); auto.
    intros X c HG. split; [eauto|]. intros ? ? ? [].
  Qed.

  Lemma agree_trans : forall G v w x, agree G v w -> agree G w x -> agree G v x.
  Proof. intros G v w x H1 H2 X c HG. rewrite (H1 X c HG). auto. Qed.

  (** Rates with a Lipschitz constant depend on the values at the points alone. *)
  Lemma rhs_agree : forall G L f now v w, lipschitz G L f -> agree G v w -> agree G (f now v) (f now w).
  Proof.
    intros G L f now v w Hl H X c HG. destruct (Hl now 0%Qc v w (agree_near G v w H) X c HG) as (A & B).
    replace (L * 0)%Qc with 0%Qc in A, B by ring.
    apply Qcle_antisym; clear - A B; [|]; to_q; lra.
  Qed.

  Lemma euler_agree : forall G L f now h v w, lipschitz G L f -> agree G v w -> agree G (euler_of h f now v) (euler_of h f now w).
  Proof. intros G L f now h v w Hl H X c HG. unfold euler_of. rewrite (H X c HG), (rhs_agree G L f now v w Hl H X c HG). reflexivity. Qed.

  Lemma mix_agree : forall G a b v v' w w', agree G v v' -> agree G w w' -> agree G (mix a b v w) (mix a b v' w').
  Proof. intros G a b v v' w w' H1 H2 X c HG. unfold mix. rewrite (H1 X c HG), (H2 X c HG). reflexivity. Qed.

  Lemma rk_is_scheme : forall {U} cfg (prog : icaller (T:=Qc) U) z k0 u0 calls k u (st : state Qc) dt s' diag new G f L now,
    new_rk z = Ok k0 -> after (ssp_rk cfg prog) calls (k0, u0) = (k, u) ->
    proper_components prog -> proper_state st ->
    ssp_rk cfg prog (k, u) st dt = (s', Ok (diag, new)) ->
    rates_by G f dt prog -> lipschitz G L f -> holds_points G st -> dget "time" st = Some (VTime now) ->
    (Z.to_nat z = 2 \/ Z.to_nat z = 3) /\ holds_points G new /\ dget "time" new = Some (VTime now) /\
    agree G (value new) (shu_osher (Z.to_nat z) (Q2Qc (dt # 1000000)) f now (value st)).
  Proof.
    intros U cfg prog z k0 u0 calls k u st dt s' diag new G f L now Hz Haf Hpc Hps H Hr Hl Hh Ht.
    assert (Hne := proj1 Hr).
    destruct (rk_stages_exact cfg prog z k0 u0 calls k u st dt s' diag new Hz Haf Hpc Hps H) as
      [(-> & u1 & u2 & u3 & t1 & t2 & t3 & d1 & d2 & d3 & st1 & st15 & st2 & st25 & P1 & E1 & P2 & E2 & C1 & P3 & E3 & C2 & _)
      |(-> & u1 & u2 & t1 & t2 & d1 & d2 & st1 & st2 & P1 & E1 & P2 & E2 & C & _)].
    - destruct (euler_rhs _ _ _ _ _ _ _ _ _ _ _ Hr Hh Ht P1 E1) as (H1 & T1 & V1).
      destruct (euler_rhs _ _ _ _ _ _ _ _ _ _ _ Hr H1 T1 P2 E2) as (H15 & T15 & V15).
      destruct (combination_mix _ _ _ _ _ _ _ Hne C1 Hh H15 Ht) as (H2 & T2 & V2).
      destruct (euler_rhs _ _ _ _ _ _ _ _ _ _ _ Hr H2 T2 P3 E3) as (H25 & T25 & V25).
      destruct (combination_mix _ _ _ _ _ _ _ Hne C2 Hh H25 Ht) as (Hn & Tn & Vn).
      change (Z.to_nat 3) with 3. split; auto. split; auto. split; auto. cbn [shu_osher].
      eapply agree_trans; [exact Vn|]. apply mix_agree; [intros ? ? ?; reflexivity|].
      eapply agree_trans; [exact V25|]. apply (euler_agree G L); auto.
      eapply agree_trans; [exact V2|]. apply mix_agree; [intros ? ? ?; reflexivity|].
      eapply agree_trans; [exact V15|]. apply (euler_agree G L); auto.
    - destruct (euler_rhs _ _ _ _ _ _ _ _ _ _ _ Hr Hh Ht P1 E1) as (H1 & T1 & V1).
      destruct (euler_rhs _ _ _ _ _ _ _ _ _ _ _ Hr H1 T1 P2 E2) as (H2 & T2 & V2).
      destruct (combination_mix _ _ _ _ _ _ _ Hne C Hh H2 Ht) as (Hn & Tn & Vn).
      change (Z.to_nat 2) with 2. split; auto. split; auto. split; auto. cbn [shu_osher].
      eapply agree_trans; [exact Vn|]. apply mix_agree; [intros ? ? ?; reflexivity|].
      eapply agree_trans; [exact V2|]. apply (euler_agree G L); auto.
  Qed.

  Lemma times_S : forall t0 dt n, times t0 dt (S n) = t0 :: times (t0 + dt) dt n.
  Proof.
    intros t0 dt n. unfold times. cbn [seq map]. f_equal; [unfold clock; lia|]. rewrite <- seq_shift, map_map.
    apply map_ext. intros k. unfold clock. lia.
  Qed.

  Lemma bound_shift : forall K d e0 n, bound K d e0 (S n) = bound K (fun k => d (S k)) (K * e0 + d 0%nat)%Qc n.
  Proof. intros K d e0 n. induction n as [|n IH]; [reflexivity|]. cbn [bound] in *. rewrite IH. reflexivity. Qed.

  Lemma rk_run : forall {U} cfg (prog : icaller (T:=Qc) U) z k0 u0 dt G f L d n calls k u t0 (st : state Qc) s' st' y e0,
    new_rk z = Ok k0 -> after (ssp_rk cfg prog) calls (k0, u0) = (k, u) ->
    proper_components prog -> proper_state st -> (0 <= dt)%Z ->
    in_a_row (ssp_rk cfg prog) dt (k, u) st (times t0 dt n) s' st' ->
    rates_by G f dt prog -> lipschitz G L f -> holds_points G st ->
    near G e0 (value st) (y 0) ->
    (forall j, j < n -> near G (d j) (y (S j)) (shu_osher (Z.to_nat z) (Q2Qc (dt # 1000000)) f (clock t0 dt j) (y j))) ->
    near G (bound (rk_growth (Z.to_nat z) (Q2Qc (dt # 1000000) * L)) d e0 n) (value st') (y n).
  Proof.
    intros U cfg prog z k0 u0 dt G f L d n. revert d. induction n as [|n IH];
      intros d calls k u t0 st s' st' y e0 Hz Haf Hpc Hps Hdt H Hr Hl Hh H0 Hy.
    - destruct H as (_ & ->). exact H0.
    - rewrite times_S in H. destruct H as ([k1 u1] & diag & new & Ht & Hc & next & Hn & Hpn & Hrow).
      destruct (rk_is_scheme cfg prog z k0 u0 calls k u st dt _ diag new G f L t0 Hz Haf Hpc Hps Hc Hr Hl Hh Ht) as (Hz' & I1 & _ & I2).
      assert (Hv : agree G (value next) (value new)).
      { intros X c HG. unfold value. rewrite (Hn X (proj1 Hr X c HG)). reflexivity. }
      set (h := Q2Qc (dt # 1000000)) in *. rewrite bound_shift.
      apply (IH (fun k => d (S k)) (calls ++ [(st, dt)]) k1 u1 (t0 + dt)%Z next s' st' (fun j => y (S j))); auto.
      + unfold after. rewrite fold_left_app. cbn [fold_left fst snd]. unfold after in Haf. rewrite Haf, Hc. reflexivity.
      + intros X c HG. destruct (I1 X c HG) as (x & Hx & Hg). exists x. split; auto. rewrite (Hn X (proj1 Hr X c HG)). exact Hx.
      + eapply near_agree; [|eapply agree_trans; [exact Hv|exact I2]].
        assert (Y0 := Hy 0 ltac:(lia)). replace (clock t0 dt 0) with t0 in Y0 by (unfold clock; lia).
        eapply near_trans; [apply (shu_osher_near G L); [exact Hz'|exact Hl|apply secs_nonneg; exact Hdt|exact H0]|].
        apply near_sym. exact Y0.
      + intros j Hj. assert (Yj := Hy (S j) ltac:(lia)). replace (clock (t0 + dt) dt j) with (clock t0 dt (S j)) by (unfold clock; lia). exact Yj.
  Qed.
End Converge.
