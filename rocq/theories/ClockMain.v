(** The time of a restart that was loaded: the main theorems (C89). *)
From Coq Require Import ZArith Bool Lia String List.
From Verif Require Import Prelude ArithM NdArray DataArrayM GetNp NetCDF SpecNetCDF NetCDFRestart Clock64 SpecClock.
Open Scope string_scope.
Open Scope list_scope.
Open Scope Z_scope.

Lemma rne_near : forall a b, 0 < b -> - b <= 2 * (rne a b * b - a) <= b.
Proof.
  intros a b Hb. unfold rne. pose proof (Z.div_mod a b ltac:(lia)) as E. pose proof (Z.mod_pos_bound a b Hb) as B.
  destruct (Z.ltb_spec (2 * (a mod b)) b); [nia|]. destruct (Z.ltb_spec b (2 * (a mod b))); [nia|]. destruct (Z.even (a / b)); nia.
Qed.

Lemma rne_only : forall p q s, 0 < q -> - q < 2 * (p - s * q) < q -> rne p q = s.
Proof. intros p q s Hq H. pose proof (rne_near p q Hq) as R. assert (- (2 * q) < 2 * ((rne p q - s) * q) < 2 * q) by lia. nia. Qed.

Lemma pow_pos : forall k, 0 <= k -> 0 < 2 ^ k.
Proof. intros k Hk. apply Z.pow_pos_nonneg; lia. Qed.

(** A number has one exponent. *)
Lemma exponent_low : forall a b, 0 < b -> a <> 0 ->
  let e := exponent a b in if 0 <=? e then 2 ^ (52 + e) * b <= Z.abs a else 2 ^ 52 * b <= Z.abs a * 2 ^ (- e).
Proof.
  intros a b Hb Ha. unfold exponent. pose proof (Z.log2_spec (Z.abs a) ltac:(lia)) as La. pose proof (Z.log2_spec b Hb) as Lb.
  pose proof (Z.log2_nonneg (Z.abs a)) as Na. pose proof (Z.log2_nonneg b) as Nb. rewrite Z.pow_succ_r in La, Lb by lia.
  set (la := Z.log2 (Z.abs a)) in *. set (lb := Z.log2 b) in *. set (e := la - lb - 52). cbv zeta.
  assert (P : forall k, 0 <= k -> 0 < 2 ^ k) by apply pow_pos.
  destruct (Z.leb_spec 0 e) as [He|He].
  - destruct (Z.ltb_spec (Z.abs a) (2 ^ (52 + e) * b)) as [H|H].
    + destruct (Z.leb_spec 0 (e - 1)) as [He1|He1].
      * replace (52 + (e - 1)) with (la - lb - 1) by (unfold e; lia).
        assert (E : 2 ^ la = 2 ^ (la - lb - 1) * (2 * 2 ^ lb)).
        { rewrite <- Z.pow_succ_r by lia. rewrite <- Z.pow_add_r by (unfold e in *; lia). f_equal. lia. }
        specialize (P (la - lb - 1) ltac:(unfold e in *; lia)). nia.
      * assert (e = 0) by lia. replace (- (e - 1)) with 1 by lia. assert (E : 2 ^ la = 2 ^ 52 * 2 ^ lb) by (rewrite <- Z.pow_add_r by lia; f_equal; unfold e in *; lia). lia.
    + replace (0 <=? e) with true by (symmetry; apply Z.leb_le; exact He). exact H.
  - destruct (Z.ltb_spec (Z.abs a * 2 ^ (- e)) (2 ^ 52 * b)) as [H|H].
    + replace (0 <=? e - 1) with false by (symmetry; apply Z.leb_gt; lia). replace (- (e - 1)) with (Z.succ (- e)) by lia. rewrite Z.pow_succ_r by lia.
      assert (E : 2 ^ la * 2 ^ (- e) = 2 ^ 52 * 2 ^ lb) by (rewrite <- !Z.pow_add_r by lia; f_equal; unfold e; lia).
      specialize (P (- e) ltac:(lia)). nia.
    + replace (0 <=? e) with false by (symmetry; apply Z.leb_gt; exact He). exact H.
Qed.

(** The double nearest to a / b is within half a unit in the last place. *)
Lemma fl_near : forall a b K, 0 < b -> 0 <= K -> Z.abs a < 2 ^ K * b -> let (n, d) := fl a b in
  0 < d /\ (K <= 53 -> 2 ^ (54 - K) * Z.abs (n * b - a * d) <= b * d) /\ (53 <= K -> 2 * Z.abs (n * b - a * d) <= 2 ^ (K - 53) * (b * d)).
Proof.
  intros a b K Hb HK Ha. destruct (Z.eq_dec a 0) as [->|Hz].
  { assert (G : let (n, d) := fl 0 b in n = 0 /\ 0 < d).
    { assert (Hr : forall m, 0 < m -> rne 0 m = 0) by (intros m Hm; apply rne_only; lia).
      unfold fl. destruct (Z.leb_spec 0 (exponent 0 b)) as [He|He]; [rewrite Hr by (apply Z.mul_pos_pos; [exact Hb|apply pow_pos; exact He])|rewrite Z.mul_0_l, Hr by exact Hb].
      - split; [reflexivity|lia].
      - split; [reflexivity|apply pow_pos; lia]. }
    destruct (fl 0 b) as [n d]. destruct G as [-> G]. rewrite !Z.mul_0_l. cbn [Z.sub Z.add Z.opp Z.abs]. split; [exact G|]. split; intros _; [nia|].
    apply Z.mul_nonneg_nonneg; [apply Z.pow_nonneg; lia|nia]. }
  pose proof (exponent_low a b Hb Hz) as E. cbv zeta in E. unfold fl. destruct (Z.leb_spec 0 (exponent a b)) as [He|He].
  - set (e := exponent a b) in *. pose proof (pow_pos e He) as Pe. pose proof (rne_near a (b * 2 ^ e) ltac:(nia)) as R. split; [lia|].
    assert (HeK : e <= K - 53).
    { assert (2 ^ (52 + e) < 2 ^ K) by nia. apply Z.pow_lt_mono_r_iff in H; lia. }
    rewrite !Z.mul_1_r. split; intros Hk.
    + assert (K = 53) by lia. assert (e = 0) by lia. subst K. rewrite H0 in *. change (2 ^ (54 - 53)) with 2. change (2 ^ 0) with 1 in *. rewrite !Z.mul_1_r in *. lia.
    + assert (Hm : 2 ^ e <= 2 ^ (K - 53)) by (apply Z.pow_le_mono_r; lia). replace (rne a (b * 2 ^ e) * 2 ^ e * b - a) with (rne a (b * 2 ^ e) * (b * 2 ^ e) - a) by ring. nia.
  - set (e := exponent a b) in *. pose proof (pow_pos (- e) ltac:(lia)) as Pe. pose proof (rne_near (a * 2 ^ (- e)) b Hb) as R. split; [exact Pe|].
    assert (HeK : e <= K - 53).
    { assert (2 ^ 52 < 2 ^ (K - e)) by (replace (K - e) with (K + (- e)) by lia; rewrite Z.pow_add_r by lia; nia). apply Z.pow_lt_mono_r_iff in H; lia. }
    split; intros Hk.
    + assert (Hm : 2 ^ (53 - K) <= 2 ^ (- e)) by (apply Z.pow_le_mono_r; lia). replace (54 - K) with (Z.succ (53 - K)) by lia. rewrite Z.pow_succ_r by lia. pose proof (pow_pos (53 - K) ltac:(lia)). nia.
    + pose proof (pow_pos (K - 53) ltac:(lia)) as Pk. assert (1 <= 2 ^ (K - 53) * 2 ^ (- e)) by nia.
      assert (b * 1 <= b * (2 ^ (K - 53) * 2 ^ (- e))) by (apply Z.mul_le_mono_nonneg_l; lia). lia.
Qed.

(** The seconds since 1970 as a double, for nanoseconds below 2^K and seconds below 2^M. *)
Lemma seconds_near : forall ns K M n d, 53 <= K -> 0 <= M <= 53 -> Z.abs ns < 2 ^ K -> (Z.abs ns + 2 ^ (K - 53)) < 2 ^ M * 1000000000 ->
  fl (fst (fl ns 1)) (snd (fl ns 1) * 1000000000) = (n, d) ->
  0 < d /\ 2 ^ (54 - M) * (2 * Z.abs (n * 1000000000 - ns * d)) <= (2 * 1000000000 + 2 ^ (54 - M) * 2 ^ (K - 53)) * d.
Proof.
  intros ns K M n d HK HM Hns Hs H. pose proof (fl_near ns 1 K ltac:(lia) ltac:(lia) ltac:(lia)) as F1.
  destruct (fl ns 1) as [N D] eqn:E1. cbn [fst snd] in H. destruct F1 as (HD & _ & F1). specialize (F1 HK). rewrite Z.mul_1_r in F1.
  set (w := 2 ^ (K - 53)) in *. set (v := 2 ^ (54 - M)).
  assert (Pw : 0 < w) by (apply pow_pos; lia). assert (Pv : 0 < v) by (apply pow_pos; lia).
  pose proof (fl_near N (D * 1000000000) M ltac:(lia) ltac:(lia)) as F2.
  assert (F1' : 2 * Z.abs (N - ns * D) <= w * D) by (replace (N - ns * D) with (N * 1 - ns * D) by ring; lia).
  assert (HN : Z.abs N < 2 ^ M * (D * 1000000000)).
  { assert (H1 : Z.abs N <= Z.abs (N - ns * D) + Z.abs ns * D).
    { rewrite <- (Z.abs_eq D) at 2 by lia. rewrite <- Z.abs_mul. replace (Z.abs N) with (Z.abs ((N - ns * D) + ns * D)) by (f_equal; ring). apply Z.abs_triangle. }
    assert (H2 : (Z.abs ns + w) * D < (2 ^ M * 1000000000) * D) by (apply Z.mul_lt_mono_pos_r; [exact HD|exact Hs]).
    assert (0 <= w * D) by (apply Z.mul_nonneg_nonneg; lia). lia. }
  specialize (F2 HN). rewrite H in F2. destruct F2 as (Hd & F2 & _). specialize (F2 (proj2 HM)). fold v in F2. split; [exact Hd|].
  cut ((v * (2 * Z.abs (n * 1000000000 - ns * d))) * D <= ((2 * 1000000000 + v * w) * d) * D); [intros G; apply Z.mul_le_mono_pos_r in G; [exact G|exact HD]|].
  assert (T : Z.abs (n * 1000000000 - ns * d) * D <= Z.abs (n * (D * 1000000000) - N * d) + d * Z.abs (N - ns * D)).
  { replace (Z.abs (n * 1000000000 - ns * d) * D) with (Z.abs ((n * (D * 1000000000) - N * d) + d * (N - ns * D))).
    - eapply Z.le_trans; [apply Z.abs_triangle|]. rewrite (Z.abs_mul d), (Z.abs_eq d) by lia. lia.
    - rewrite <- (Z.abs_eq D) at 3 by lia. rewrite <- Z.abs_mul. f_equal. ring. }
  set (A := Z.abs (n * 1000000000 - ns * d)) in *. set (X := Z.abs (n * (D * 1000000000) - N * d)) in *. set (Y := Z.abs (N - ns * D)) in *.
  assert (G1 : v * (A * D) <= v * (X + d * Y)) by (apply Z.mul_le_mono_nonneg_l; lia).
  assert (G2 : (v * d) * (2 * Y) <= (v * d) * (w * D)) by (apply Z.mul_le_mono_nonneg_l; [apply Z.mul_nonneg_nonneg; lia|exact F1']).
  clearbody A X Y v w. lia.
Qed.

Lemma utc_near : forall n d t, 0 < d -> exists p q s, 0 < q /\ utcfromtimestamp (n, d) - t = rne p q - s /\
  2 ^ 34 * (Z.abs (p - s * q) * d) <= q * (d + 2 ^ 34 * Z.abs (n * 1000000 - t * d)).
Proof.
  intros n d t Hd. pose proof (Z.quot_rem' n d) as Eq. pose proof (Z.rem_bound_abs n d ltac:(lia)) as Br. rewrite (Z.abs_eq d) in Br by lia.
  unfold utcfromtimestamp. cbn [fst snd]. set (whole := Z.quot n d) in *. set (frac := Z.rem n d) in *.
  pose proof (fl_near (frac * 1000000) d 20 Hd ltac:(lia)) as F. change (2 ^ 20) with 1048576 in F.
  assert (Hf : Z.abs (frac * 1000000) < 1048576 * d) by (rewrite Z.abs_mul; change (Z.abs 1000000) with 1000000; lia). specialize (F Hf).
  destruct (fl (frac * 1000000) d) as [p q]. destruct F as (Hq & F & _). specialize (F ltac:(lia)). change (54 - 20) with 34 in F. cbn [fst snd].
  exists p, q, (t - whole * 1000000). split; [exact Hq|]. split.
  { destruct (1000000 <=? rne p q); [lia|]. destruct (rne p q <? 0); lia. }
  set (s := t - whole * 1000000).
  assert (T : Z.abs (p - s * q) * d <= Z.abs (p * d - frac * 1000000 * q) + q * Z.abs (n * 1000000 - t * d)).
  { replace (Z.abs (p - s * q) * d) with (Z.abs ((p * d - frac * 1000000 * q) + q * (n * 1000000 - t * d))).
    - eapply Z.le_trans; [apply Z.abs_triangle|]. rewrite (Z.abs_mul q), (Z.abs_eq q) by lia. lia.
    - rewrite <- (Z.abs_eq d) at 3 by lia. rewrite <- Z.abs_mul. f_equal. unfold s. rewrite Eq at 1. ring. }
  set (X := Z.abs (p - s * q) * d) in *. set (Y := Z.abs (p * d - frac * 1000000 * q)) in *. set (W := Z.abs (n * 1000000 - t * d)) in *.
  change (2 ^ 34) with 17179869184 in *. clearbody X Y W. lia.
Qed.

(** Below 2^32 seconds, which is until 2106, the time loaded is the time stored. *)
Theorem main_exact : forall t, Z.abs t < 2 ^ 32 * 1000000 -> datetime64_to_datetime (1000 * t) = t.
Proof.
  intros t Ht. unfold datetime64_to_datetime. cbv zeta. destruct (fl (fst (fl (1000 * t) 1)) (snd (fl (1000 * t) 1) * 1000000000)) as [n d] eqn:E.
  change (2 ^ 32) with 4294967296 in Ht.
  assert (Ha : Z.abs (1000 * t) = 1000 * Z.abs t) by (rewrite Z.abs_mul; reflexivity).
  destruct (seconds_near (1000 * t) 62 32 n d ltac:(lia) ltac:(lia)) as (Hd & H).
  { change (2 ^ 62) with 4611686018427387904. lia. }
  { change (2 ^ (62 - 53)) with 512. change (2 ^ 32) with 4294967296. lia. }
  { exact E. }
  assert (Hn : Z.abs (n * 1000000000 - 1000 * t * d) = 1000 * Z.abs (n * 1000000 - t * d)).
  { replace (n * 1000000000 - 1000 * t * d) with (1000 * (n * 1000000 - t * d)) by ring. rewrite Z.abs_mul. reflexivity. }
  rewrite Hn in H. change (2 ^ (54 - 32)) with 4194304 in H. change (2 ^ (62 - 53)) with 512 in H.
  destruct (utc_near n d t Hd) as (p & q & s & Hq & Ht2 & Hu). change (2 ^ 34) with 17179869184 in Hu.
  set (W := Z.abs (n * 1000000 - t * d)) in *.
  assert (Hr : rne p q = s); [|lia].
  assert (HW : q * W * 1000 <= q * (495 * d)) by (rewrite <- Z.mul_assoc; apply Z.mul_le_mono_nonneg_l; lia).
  assert (HX : (2 * Z.abs (p - s * q)) * d < q * d).
  { assert (0 < q * d) by (apply Z.mul_pos_pos; lia). set (X := Z.abs (p - s * q)) in *. clearbody X W. lia. }
  apply Z.mul_lt_mono_pos_r in HX; [|exact Hd]. apply rne_only; lia.
Qed.

(** Anywhere else it is at most a microsecond off. *)
Theorem main_within : forall t, Z.abs (1000 * t) < 2 ^ 63 -> Z.abs (datetime64_to_datetime (1000 * t) - t) <= 1.
Proof.
  intros t Ht. unfold datetime64_to_datetime. cbv zeta. destruct (fl (fst (fl (1000 * t) 1)) (snd (fl (1000 * t) 1) * 1000000000)) as [n d] eqn:E.
  destruct (seconds_near (1000 * t) 63 34 n d ltac:(lia) ltac:(lia) Ht) as (Hd & H).
  { change (2 ^ (63 - 53)) with 1024. change (2 ^ 34) with 17179869184. change (2 ^ 63) with 9223372036854775808 in Ht. lia. }
  { exact E. }
  assert (Hn : Z.abs (n * 1000000000 - 1000 * t * d) = 1000 * Z.abs (n * 1000000 - t * d)).
  { replace (n * 1000000000 - 1000 * t * d) with (1000 * (n * 1000000 - t * d)) by ring. rewrite Z.abs_mul. reflexivity. }
  rewrite Hn in H. change (2 ^ (54 - 34)) with 1048576 in H. change (2 ^ (63 - 53)) with 1024 in H.
  destruct (utc_near n d t Hd) as (p & q & s & Hq & -> & Hu). change (2 ^ 34) with 17179869184 in Hu.
  set (W := Z.abs (n * 1000000 - t * d)) in *.
  assert (HW : q * W * 1000 <= q * (1466 * d)) by (rewrite <- Z.mul_assoc; apply Z.mul_le_mono_nonneg_l; lia).
  assert (HX : (1000 * Z.abs (p - s * q)) * d < (1467 * q) * d).
  { assert (0 < q * d) by (apply Z.mul_pos_pos; lia). set (X := Z.abs (p - s * q)) in *. clearbody X W. lia. }
  apply Z.mul_lt_mono_pos_r in HX; [|exact Hd]. pose proof (rne_near p q Hq) as R.
  assert (- (2 * q) < (rne p q - s) * q < 2 * q) by lia. nia.
Qed.

(** ** Restarts *)
Section Restart.
  Context {T : Type} {A : Arith T} {N : NcLib T}.

  Theorem main_clock_condition : forall (st : state T), numpy_clock N -> (forall t, dget "time" st = Some (VTime t) -> Z.abs t < 2 ^ 32 * 1000000) ->
    forall t z, dget "time" st = Some (VTime t) -> date_code "seconds" t t = Ok z -> date_decode "seconds" t z = Ok t.
  Proof.
    intros st [H1 H2] Ht t z E Ez. rewrite H1 in Ez. injection Ez as <-. specialize (Ht t E).
    rewrite H2, main_exact by (exact Ht || (rewrite Z.abs_mul; change (2 ^ 32) with 4294967296 in Ht; change (2 ^ 63) with 9223372036854775808; change (Z.abs 1000) with 1000; lia)).
    reflexivity.
  Qed.

  Theorem main_restart_time : forall L f (st : state T) fs fs', numpy_clock N -> (forall t, dget "time" st = Some (VTime t) -> Z.abs t < 2 ^ 32 * 1000000) ->
    plain_fit N -> grid_state L st -> (exists n, n <> "time" /\ In n (keys st)) ->
    (forall n a n' a', dget n st = Some (VDA a) -> dget n' st = Some (VDA a') -> ~ In n (dims a')) ->
    (forall n a, dget n st = Some (VDA a) -> xr_decode (attrs a) (arr a) = Ok (attrs a, arr a)) ->
    restart_store f false st fs = (Ok tt, fs') ->
    exists st', NetCDF.load f fs' = Ok st' /\ NoDup (keys st') /\ forall n, dget n st' = dget n st.
  Proof.
    intros L f st fs fs' Hc Ht P G Hi Hn Hx H. eapply main_restart_round_trip; try eassumption. apply main_clock_condition; assumption.
  Qed.
End Restart.
