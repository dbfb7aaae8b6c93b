(** Main lemmas for C95: AdamsBashforth. *)
From Coq Require Import String List Bool Arith ZArith QArith Qcanon Lia Lqa.
From Verif Require Import Prelude PreludeFacts ArithM NdArray NdFacts Units DataArrayM GetNp SpecUnits UnitsFacts SpecDa DaFacts
  Components Composite SpecComposite Steppers SpecSteppers SteppersFacts StepAlgebra StepRuns StepExact SpecOrder OrderMain
  SpecConverge ConvergeAlg ConvergeMain.
Import ListNotations.
Open Scope string_scope.
Open Scope nat_scope.
Open Scope list_scope.

(** ** Sums *)

Definition close (e : Qc) (a b : Qc) : Prop := (a - b <= e)%Qc /\ (b - a <= e)%Qc.

Lemma dot_close : forall m e ys zs, 1 <= m <= 4 -> length ys = m -> Forall2 (close e) ys zs ->
  close (ab_size m * e)%Qc (dot (ab_weights m) ys) (dot (ab_weights m) zs).
Proof.
  intros m e ys zs Hm Hl H. unfold close.
  destruct H as [|y1 z1 ys zs (A1 & B1) H]; [simpl in Hl; lia|].
  destruct H as [|y2 z2 ys zs (A2 & B2) H]; [simpl in Hl; subst m; cbn [ab_weights dot ab_size]; split; qc_lra|].
  destruct H as [|y3 z3 ys zs (A3 & B3) H]; [simpl in Hl; subst m; cbn [ab_weights dot ab_size]; split; qc_lra|].
  destruct H as [|y4 z4 ys zs (A4 & B4) H]; [simpl in Hl; subst m; cbn [ab_weights dot ab_size]; split; qc_lra|].
  destruct H as [|y5 z5 ys zs (A5 & B5) H]; [simpl in Hl; subst m; cbn [ab_weights dot ab_size]; split; qc_lra|].
  simpl in Hl. lia.
Qed.

Lemma ab_size_le : forall m n e, 1 <= m <= n -> n <= 4 -> (0 <= e)%Qc -> (ab_size m * e <= ab_size n * e)%Qc.
Proof.
  intros m n e Hm Hn He.
  destruct m as [|[|[|[|[|m]]]]]; try lia; destruct n as [|[|[|[|[|n]]]]]; try lia; cbn [ab_size]; qc_lra.
Qed.

Lemma ab_size_nonneg : forall n, (0 <= ab_size n)%Qc.
Proof. intros [|[|[|[|n]]]]; cbn [ab_size]; qc_lra. Qed.

(** ** Lists *)

Lemma firstn_places : forall {B} m (l : list B), m <= length l -> Forall2 (fun a j => nth_error l j = Some a) (firstn m l) (seq 0 m).
Proof.
  intros B m. induction m as [|m IH]; intros [|a l] H; simpl in H; try lia; cbn [firstn seq]; constructor; [reflexivity|].
  rewrite <- seq_shift. assert (X := IH l ltac:(lia)). clear - X. induction X; cbn [map]; constructor; auto.
Qed.

Lemma Forall2_In_l : forall {B C} (P : B -> C -> Prop) l l' a, Forall2 P l l' -> In a l -> exists b, In b l' /\ P a b.
Proof.
  intros B C P l l' a H. induction H as [|x y l l' Hxy H IH]; intros Hin; [destruct Hin|].
  destruct Hin as [<-|Hin]; [exists y; split; [left; reflexivity|auto]|]. destruct (IH Hin) as (b & Hb & Hp). exists b. split; [right|]; auto.
Qed.

Lemma nth_error_rev : forall {B} (l : list B) j, j < length l -> nth_error (rev l) j = nth_error l (length l - S j).
Proof.
  intros B l j H. destruct l as [|b l0] eqn:E; [simpl in H; lia|]. rewrite <- E in *.
  rewrite (nth_error_nth' (rev l) b) by (rewrite rev_length; exact H).
  rewrite (nth_error_nth' l b) by lia. rewrite rev_nth by exact H. reflexivity.
Qed.

Lemma places_back : forall {B} (pre post : list B) e j a, nth_error (e :: rev pre) j = Some a ->
  j <= length pre /\ nth_error (pre ++ e :: post) (length pre - j) = Some a.
Proof.
  intros B pre post e j a H. assert (Hj : j < length (e :: rev pre)) by (apply nth_error_Some; congruence).
  cbn [length] in Hj. rewrite rev_length in Hj. split; [lia|]. destruct j as [|j].
  - injection H as <-. rewrite Nat.sub_0_r, nth_error_app2, Nat.sub_diag by lia. reflexivity.
  - cbn [nth_error] in H. rewrite nth_error_rev in H by lia. rewrite nth_error_app1 by lia. exact H.
Qed.

Section ConvergeAB.
  Context {R : Registry}.

  Lemma history_calls : forall {S U} (call : S * U -> state Qc -> Z -> (S * U) * res (stepped Qc)) (prog : icaller (T:=Qc) U) dt s0 log s,
    history call prog dt s0 log s -> forall e, In e log -> exists u u' diag, prog u (e_st e) dt = (u', Ok (e_tend e, diag)).
  Proof.
    intros S U call prog dt s0 log s H. induction H as [|s0 log s u st u' tend pdiag s' diag new H IH Hp Hc]; intros e He; [destruct He|].
    apply in_app_or in He as [He|[<-|[]]]; [auto|]. exists u, u', pdiag. exact Hp.
  Qed.

  Definition time_of (st : state Qc) : Z := match dget "time" st with Some (VTime t) => t | _ => 0%Z end.

  Lemma ab_run : forall {U} cfg (prog : icaller (T:=Qc) U) dt n u log s G f L d t0 y e0, 1 <= n <= 4 ->
    history (adams_bashforth cfg prog) prog dt (mkab n None [], u) log s -> wf_log log -> (0 <= dt)%Z ->
    handed_on G log -> (forall k e, nth_error log k = Some e -> dget "time" (e_st e) = Some (VTime (clock t0 dt k))) ->
    rates_by G f dt prog -> lipschitz G L f -> (0 <= L)%Qc -> (0 <= e0)%Qc -> (forall j, 0 <= d j)%Qc ->
    (forall e post, log = e :: post -> holds_points G (e_st e) /\ near G e0 (value (e_st e)) (y 0)) ->
    (forall j, j < length log -> near G (d j) (y (S j)) (fun X c => y j X c + Q2Qc (dt # 1000000) * ab_slope n f t0 dt y j X c)%Qc) ->
    forall k e, nth_error log k = Some e ->
    let K := (1 + Q2Qc (dt # 1000000) * L * ab_size n)%Qc in
    (holds_points G (e_st e) /\ near G (bound K d e0 k) (value (e_st e)) (y k)) /\
    holds_points G (e_new e) /\ near G (bound K d e0 (S k)) (value (e_new e)) (y (S k)).
  Proof.
    intros U cfg prog dt n u log s G f L d t0 y e0 Hn H Hw Hdt Hho Hck Hr Hl HL He0 Hd H0 Hy.
    set (h := Q2Qc (dt # 1000000)) in *. assert (Hh : (0 <= h)%Qc) by (apply secs_nonneg; exact Hdt).
    set (K := (1 + h * L * ab_size n)%Qc). assert (HK : (1 <= K)%Qc).
    { unfold K. assert (X := mul_pos _ _ (mul_pos _ _ Hh HL) (ab_size_nonneg n)). generalize dependent (h * L * ab_size n)%Qc. intros. qc_lra. }
    induction k as [k IH] using lt_wf_ind. intros e He. cbv zeta.
    destruct (nth_error_split _ _ He) as (pre & post & E & Elen).
    (* the state of this call *)
    assert (Hst : holds_points G (e_st e) /\ near G (bound K d e0 k) (value (e_st e)) (y k)).
    { destruct k as [|k].
      - destruct pre; [|discriminate Elen]. apply (H0 e post E).
      - destruct (exists_last (l:=pre)) as (pre' & p & Ep); [intros ->; discriminate Elen|]. subst pre.
        rewrite app_length in Elen. simpl in Elen. rewrite <- app_assoc in E. simpl in E.
        assert (Hp : nth_error log k = Some p) by (rewrite E, nth_error_app2 by lia; replace (k - length pre') with 0 by lia; reflexivity).
        destruct (IH k ltac:(lia) p Hp) as (_ & I1 & I2).
        assert (Hv : agree G (value (e_st e)) (value (e_new p))).
        { intros X c HG. unfold value. rewrite (Hho pre' p e post E X c HG). reflexivity. }
        split; [|eapply near_agree; eauto]. intros X c HG. destruct (I1 X c HG) as (x & Hx & Hg). exists x. split; auto.
        rewrite (Hho pre' p e post E X c HG). exact Hx. }
    split; [exact Hst|]. destruct Hst as (Hh0 & Hn0). set (m := Nat.min n (S k)).
    (* the calls that count *)
    assert (Hes : forall a j, nth_error (e :: rev pre) j = Some a ->
      nth_error log (k - j) = Some a /\ holds_points G (e_st a) /\ near G (bound K d e0 k) (value (e_st a)) (y (k - j)) /\ time_of (e_st a) = clock t0 dt (k - j)).
    { intros a j Ha. destruct (places_back pre post e j a Ha) as (Hj & Hp). rewrite Elen in *. rewrite <- E in Hp. split; auto.
      assert (T : time_of (e_st a) = clock t0 dt (k - j)) by (unfold time_of; rewrite (Hck _ _ Hp); reflexivity).
      destruct j as [|j]; [rewrite Nat.sub_0_r in *; assert (a = e) by congruence; subst; auto|].
      destruct (IH (k - S j) ltac:(lia) a Hp) as ((I1 & I2) & _). split; auto. split; auto.
      eapply near_le; [exact I2|]. apply bound_le; auto. lia. }
    assert (Hpl : Forall2 (fun a j => nth_error (e :: rev pre) j = Some a) (latest m pre e) (seq 0 m)).
    { apply firstn_places. cbn [length]. rewrite rev_length. unfold m. lia. }
    assert (P : forall X c, G X c -> exists r, dget X (e_new e) = Some (VDA r) /\ in_grid r c /\
      value (e_new e) X c = (value (e_st e) X c + h * dot (ab_weights m)
        (map (fun a => f (time_of (e_st a)) (value (e_st a)) X c) (latest m pre e)))%Qc).
    { intros X c HG. destruct (Hh0 X c HG) as (x & Hx & Hgx).
      destruct (ab_point cfg prog dt n u log s Hn H Hw pre e post E X x c
        (map (fun a => f (time_of (e_st a)) (value (e_st a)) X c) (latest m pre e))) as (r & R1 & R2 & R3); auto.
      - rewrite Elen. fold m. unfold rates_of.
        assert (Q : forall a, In a (latest m pre e) -> exists t, dget X (e_tend a) = Some t /\ in_grid t c /\
                      rate (e_st a) X t c (f (time_of (e_st a)) (value (e_st a)) X c)).
        { intros a Ha. destruct (Forall2_In_l _ _ _ _ Hpl Ha) as (j & _ & Hj). destruct (Hes a j Hj) as (Hlog & Hha & _ & Ht).
          destruct (history_calls _ _ _ _ _ _ H a (nth_error_In _ _ Hlog)) as (v & v' & diag & Hp).
          apply (proj2 Hr v (e_st a) v' (e_tend a) diag); auto. rewrite (Hck _ _ Hlog), Ht. reflexivity. }
        clear - Q. induction (latest m pre e) as [|a l IHl]; cbn [map]; constructor; [apply Q; left; reflexivity|].
        apply IHl. intros; apply Q; right; auto.
      - exists r. split; auto. split; auto. rewrite (value_at _ _ _ _ R1), (value_at _ _ _ _ Hx), R3, Elen. reflexivity. }
    split; [intros X c HG; destruct (P X c HG) as (r & ? & ? & _); eauto|].
    assert (HB : (0 <= bound K d e0 k)%Qc) by (apply bound_nonneg; auto; qc_lra).
    assert (HLB : (0 <= L * bound K d e0 k)%Qc) by (apply mul_pos; auto).
    assert (N : near G (bound K d e0 k + h * (ab_size n * (L * bound K d e0 k)))%Qc (value (e_new e)) (fun X c => y k X c + h * ab_slope n f t0 dt y k X c)%Qc).
    { intros X c HG. destruct (P X c HG) as (r & _ & _ & ->). destruct (Hn0 X c HG) as (A1 & A2).
      assert (D : close (ab_size m * (L * bound K d e0 k))%Qc
        (dot (ab_weights m) (map (fun a => f (time_of (e_st a)) (value (e_st a)) X c) (latest m pre e))) (ab_slope n f t0 dt y k X c)).
      { unfold ab_slope. fold m. apply dot_close.
        - unfold m. lia.
        - rewrite map_length. apply latest_length. unfold m. lia.
        - assert (Q : Forall2 (fun a j => close (L * bound K d e0 k) (f (time_of (e_st a)) (value (e_st a)) X c) (f (clock t0 dt (k - j)) (y (k - j)) X c))
            (latest m pre e) (seq 0 m)).
          { assert (W : forall a j, nth_error (e :: rev pre) j = Some a ->
              close (L * bound K d e0 k) (f (time_of (e_st a)) (value (e_st a)) X c) (f (clock t0 dt (k - j)) (y (k - j)) X c)).
            { intros a j Ha. destruct (Hes a j Ha) as (_ & _ & Hna & ->). apply (Hl _ _ _ _ Hna X c HG). }
            clear - Hpl W. induction Hpl; constructor; auto. }
          clear - Q. induction Q; cbn [map]; constructor; auto. }
      destruct D as (D1 & D2). assert (S1 := ab_size_le m n _ ltac:(unfold m; lia) (proj2 Hn) HLB).
      assert (D1' := Qcle_trans _ _ _ D1 S1). assert (D2' := Qcle_trans _ _ _ D2 S1).
      apply (mul_le h) in D1'; auto. apply (mul_le h) in D2'; auto.
      generalize dependent (dot (ab_weights m) (map (fun a => f (time_of (e_st a)) (value (e_st a)) X c) (latest m pre e))).
      generalize (ab_slope n f t0 dt y k X c). intros q p _ _ D1 D2. clear - A1 A2 D1 D2.
      generalize dependent (h * (ab_size n * (L * bound K d e0 k)))%Qc. intros b D1 D2.
      replace (h * (p - q))%Qc with (h * p - h * q)%Qc in D1 by ring. replace (h * (q - p))%Qc with (h * q - h * p)%Qc in D2 by ring.
      generalize dependent (h * p)%Qc. generalize dependent (h * q)%Qc. intros. split; qc_lra. }
    assert (Hk : k < length log) by (apply nth_error_Some; congruence).
    eapply near_le; [eapply near_trans; [exact N|apply near_sym; apply (Hy k Hk)]|].
    cbn [bound]. apply eq_le. unfold K at 3. ring.
  Qed.
End ConvergeAB.
