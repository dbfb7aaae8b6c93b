(** Runs of a single RelaxationTendencyComponent with AdamsBashforth of any order (C97). *)
From Coq Require Import String List Bool Arith ZArith QArith Qcanon Lia Lqa.
From Verif Require Import Prelude PreludeFacts ArithM NdArray NdFacts Units DataArrayM GetNp Components Composite Steppers Basic
  SpecUnits UnitsFacts SpecArrays SpecDa SpecComposite SpecSteppers SpecBasic SpecOrder SpecRound SpecRelax
  DaFacts ABFacts RKFacts LeapFacts StepAlgebra StepRuns StepExact SteppersMain BasicFacts BasicMain RKInv ConvergeAlg RelaxFacts RelaxMain RelaxAlg RelaxRuns.
Import ListNotations.
Open Scope string_scope.
Open Scope nat_scope.
Open Scope list_scope.

(** ** The distances *)

Lemma ab_offs_length : forall n z d k, length (ab_offs n z d k) = S k.
Proof. intros n z d k. induction k as [|k IH]; cbn [ab_offs length]; auto. Qed.

Lemma ab_offs_S : forall n z d k, ab_offs n z d (S k) =
  (ab_off n z d k - z * dot (ab_weights (Nat.min n (S k))) (firstn (Nat.min n (S k)) (ab_offs n z d k)))%Qc :: ab_offs n z d k.
Proof. intros n z d k. cbn [ab_offs]. rewrite ab_offs_length. reflexivity. Qed.

Lemma dot_scale : forall d ws l, dot ws (map (Qcmult d) l) = (d * dot ws l)%Qc.
Proof. intros d ws. induction ws as [|w ws IH]; intros [|x l]; cbn [dot map]; try ring. rewrite IH. ring. Qed.

Lemma ab_offs_lin : forall n z d k, ab_offs n z d k = map (Qcmult d) (ab_offs n z 1 k).
Proof.
  intros n z d k. induction k as [|k IH].
  - cbn. f_equal. ring.
  - rewrite !ab_offs_S. cbn [map]. unfold ab_off. rewrite IH. f_equal.
    rewrite firstn_map, dot_scale. rewrite <- IH.
    assert (E : hd 0%Qc (ab_offs n z d k) = (d * hd 0%Qc (ab_offs n z 1 k))%Qc).
    { rewrite IH. destruct (ab_offs n z 1 k); cbn; ring. }
    rewrite E. ring.
Qed.

(** Each distance is at least two thirds of the one before and less than it. *)
Fixpoint slow (l : list Qc) : Prop :=
  match l with
  | x :: (y :: _) as r => (x <= y)%Qc /\ (y <= Q2Qc (3 # 2) * x)%Qc /\ slow r
  | _ => True
  end.

Lemma slow_dot : forall n x l, 1 <= n <= 4 -> (0 < x)%Qc -> slow (x :: l) -> let m := Nat.min n (S (length l)) in
  (Q2Qc (7 # 96) * x <= dot (ab_weights m) (firstn m (x :: l)))%Qc /\ (dot (ab_weights m) (firstn m (x :: l)) <= Q2Qc (5 # 3) * x)%Qc.
Proof.
  intros n x l Hn Hx Hs m.
  assert (Hm : m = 1 \/ m = 2 \/ m = 3 \/ m = 4) by (unfold m; lia).
  assert (Hl : m <= S (length l)) by (unfold m; lia). clearbody m.
  destruct l as [|y l].
  { assert (m = 1) by (cbn in Hl; lia). subst m. cbn [ab_weights firstn dot]. split; qc_lra. }
  cbn [slow] in Hs. destruct Hs as (A1 & A2 & Hs).
  destruct l as [|w l].
  { destruct Hm as [->|[->|[->| ->]]]; try (cbn in Hl; lia); cbn [ab_weights firstn dot]; split; qc_lra. }
  cbn [slow] in Hs. destruct Hs as (B1 & B2 & Hs).
  destruct l as [|v l].
  { destruct Hm as [->|[->|[->| ->]]]; try (cbn in Hl; lia); cbn [ab_weights firstn dot]; split; qc_lra. }
  cbn [slow] in Hs. destruct Hs as (C1 & C2 & Hs).
  destruct Hm as [->|[->|[->| ->]]]; cbn [ab_weights firstn dot]; split; qc_lra.
Qed.

Section Slow.
  Context (n : nat) (Hn : 1 <= n <= 4) (z : Qc) (Hz : (0 < z)%Qc) (Hz5 : (z <= Q2Qc (1 # 5))%Qc).

  Lemma offs_slow : forall k, (0 < ab_off n z 1 k)%Qc /\ slow (ab_offs n z 1 k) /\
    (ab_off n z 1 (S k) <= (1 - Q2Qc (7 # 96) * z) * ab_off n z 1 k)%Qc /\ (Q2Qc (2 # 3) * ab_off n z 1 k <= ab_off n z 1 (S k))%Qc.
  Proof.
    assert (S1 : forall k, (0 < ab_off n z 1 k)%Qc -> slow (ab_offs n z 1 k) ->
      (ab_off n z 1 (S k) <= (1 - Q2Qc (7 # 96) * z) * ab_off n z 1 k)%Qc /\ (Q2Qc (2 # 3) * ab_off n z 1 k <= ab_off n z 1 (S k))%Qc).
    { intros k P Hs. unfold ab_off at 1 4. rewrite ab_offs_S. cbn [hd]. pose proof (ab_offs_length n z 1 k) as L.
      unfold ab_off in *. destruct (ab_offs n z 1 k) as [|x l]; [discriminate L|]. cbn [hd] in *.
      destruct (slow_dot n x l Hn P Hs) as (D1 & D2). cbn [length] in L. rewrite <- L. cbv zeta in D1, D2.
      revert D1 D2. generalize (dot (ab_weights (Nat.min n (S (length l)))) (firstn (Nat.min n (S (length l))) (x :: l))). intros D D1 D2.
      clear - P D1 D2 Hz Hz5.
      assert (Z0 : (0 <= z)%Qc) by (apply Qclt_le_weak; exact Hz).
      pose proof (mul_le z _ _ Z0 D1) as E1. pose proof (mul_le z _ _ Z0 D2) as E2.
      assert (E3 : (z * x <= Q2Qc (1 # 5) * x)%Qc) by (apply Qcmult_le_compat_r; [exact Hz5|apply Qclt_le_weak; exact P]).
      replace (z * (Q2Qc (7 # 96) * x))%Qc with (Q2Qc (7 # 96) * (z * x))%Qc in E1 by ring.
      replace (z * (Q2Qc (5 # 3) * x))%Qc with (Q2Qc (5 # 3) * (z * x))%Qc in E2 by ring.
      replace ((1 - Q2Qc (7 # 96) * z) * x)%Qc with (x - Q2Qc (7 # 96) * (z * x))%Qc by ring.
      revert E1 E2 E3. generalize (z * x)%Qc (z * D)%Qc. intros zx zD E1 E2 E3. split; qc_lra. }
    induction k as [|k (IH1 & IH2 & IH3 & IH4)].
    - assert (P : (0 < ab_off n z 1 0)%Qc) by (cbn; reflexivity). split; [exact P|]. split; [exact I|]. apply S1; [exact P|exact I].
    - assert (P : (0 < ab_off n z 1 (S k))%Qc). { revert IH1 IH4. generalize (ab_off n z 1 k) (ab_off n z 1 (S k)). intros. qc_lra. }
      assert (Sl : slow (ab_offs n z 1 (S k))).
      { rewrite ab_offs_S. pose proof (ab_offs_length n z 1 k) as L. unfold ab_off at 1. unfold ab_off in IH3, IH4, IH1. rewrite ab_offs_S in IH3, IH4. cbn [hd] in IH3, IH4. unfold ab_off in IH3, IH4.
        set (y := (hd 0 (ab_offs n z 1 k) - z * dot (ab_weights (Nat.min n (S k))) (firstn (Nat.min n (S k)) (ab_offs n z 1 k)))%Qc) in *. clearbody y.
        destruct (ab_offs n z 1 k) as [|x l]; [discriminate L|]. cbn [hd] in *. cbn [slow]. split; [|split; [|exact IH2]].
        - assert (E : (0 <= z * x)%Qc) by (apply mul_pos; apply Qclt_le_weak; auto).
          replace ((1 - Q2Qc (7 # 96) * z) * x)%Qc with (x - Q2Qc (7 # 96) * (z * x))%Qc in IH3 by ring.
          revert IH3 E. generalize (z * x)%Qc. intros. qc_lra.
        - revert IH4. clear. intros. qc_lra. }
      split; [exact P|]. split; [exact Sl|]. apply S1; auto.
  Qed.

  Let f := (1 - Q2Qc (7 # 96) * z)%Qc.

  Lemma offs_power : forall k, (ab_off n z 1 k <= f ^ k)%Qc.
  Proof.
    assert (F : (0 <= f)%Qc) by (unfold f; qc_lra).
    induction k as [|k IH]; [cbn; apply Qcle_refl|]. destruct (offs_slow k) as (_ & _ & A & _). eapply Qcle_trans; [exact A|].
    cbn [Qcpower]. apply mul_le; auto.
  Qed.

  Lemma ab_between : forall v ve k, between v (ve + ab_off n z (v - ve) k)%Qc ve.
  Proof.
    intros v ve k. assert (E : ab_off n z (v - ve) k = ((v - ve) * ab_off n z 1 k)%Qc).
    { unfold ab_off. rewrite ab_offs_lin. pose proof (ab_offs_length n z 1 k) as L. destruct (ab_offs n z 1 k); [discriminate L|]. reflexivity. }
    rewrite E. destruct (offs_slow k) as (P & _). pose proof (offs_power k) as Q.
    assert (F : (0 <= f)%Qc) by (unfold f; qc_lra). assert (F1 : (f <= 1)%Qc) by (unfold f; qc_lra).
    pose proof (power_le_one f k F F1) as Q1. assert (Q2 : (ab_off n z 1 k <= 1)%Qc) by (eapply Qcle_trans; eauto).
    revert P Q2. generalize (ab_off n z 1 k). clear. intros g P Q.
    unfold between. destruct (Qclt_le_dec v ve) as [H|H]; [left|right]; split; qc_nra.
  Qed.

  Lemma ab_between_next : forall v ve k, between (ve + ab_off n z (v - ve) k)%Qc (ve + ab_off n z (v - ve) (S k))%Qc ve.
  Proof.
    intros v ve k. assert (E : forall k, ab_off n z (v - ve) k = ((v - ve) * ab_off n z 1 k)%Qc).
    { intros j. unfold ab_off. rewrite ab_offs_lin. pose proof (ab_offs_length n z 1 j) as L. destruct (ab_offs n z 1 j); [discriminate L|]. reflexivity. }
    rewrite !E. destruct (offs_slow k) as (P & _ & A & B).
    assert (F1 : ((1 - Q2Qc (7 # 96) * z) * ab_off n z 1 k <= 1 * ab_off n z 1 k)%Qc) by (apply Qcmult_le_compat_r; [qc_lra|apply Qclt_le_weak; exact P]).
    assert (A1 : (ab_off n z 1 (S k) <= ab_off n z 1 k)%Qc) by (rewrite Qcmult_1_l in F1; eapply Qcle_trans; eauto).
    revert P A1 B. generalize (ab_off n z 1 k) (ab_off n z 1 (S k)). clear. intros g h P A B.
    unfold between. destruct (Qclt_le_dec v ve) as [H|H]; [left|right]; split; qc_nra.
  Qed.

  Lemma ab_tends : forall d eps, (0 < eps)%Qc -> exists N, forall k, N <= k -> within eps (ab_off n z d k) 0%Qc.
  Proof.
    intros d eps He. assert (F : (0 <= f)%Qc) by (unfold f; qc_lra).
    set (w := (Q2Qc (7 # 96) * z)%Qc). assert (Hw : (0 < w)%Qc) by (unfold w; qc_lra).
    set (D := if Qclt_le_dec d 0 then (- d)%Qc else d).
    assert (HD : (0 <= D)%Qc /\ (d <= D)%Qc /\ (- d <= D)%Qc) by (unfold D; destruct (Qclt_le_dec d 0); repeat split; qc_lra).
    destruct (archimedes_mul D (eps * w)%Qc ltac:(clear - He Hw; qc_nra)) as (N & HN). exists N. intros k Hk. specialize (HN k Hk).
    assert (P := power_small f w k F (Qclt_le_weak _ _ Hw) (Qcle_refl _)). assert (Q := power_nonneg f k F).
    assert (B : (f ^ k * D <= eps)%Qc).
    { eapply Qcle_trans; [apply mul_le; [exact Q|exact HN]|].
      replace (f ^ k * (nq k * (eps * w)))%Qc with ((f ^ k * (1 + nq k * w) - f ^ k) * eps)%Qc by ring.
      rewrite <- (Qcmult_1_l eps) at 2. apply Qcmult_le_compat_r; [|apply Qclt_le_weak; auto].
      revert P Q. generalize (f ^ k * (1 + nq k * w))%Qc (f ^ k)%Qc. intros. qc_lra. }
    assert (E : ab_off n z d k = (d * ab_off n z 1 k)%Qc).
    { unfold ab_off. rewrite ab_offs_lin. pose proof (ab_offs_length n z 1 k) as L. destruct (ab_offs n z 1 k); [discriminate L|]. reflexivity. }
    rewrite E. destruct (offs_slow k) as (G0 & _). pose proof (offs_power k) as G1. destruct HD as (H0 & H1 & H2).
    assert (B' : (ab_off n z 1 k * D <= eps)%Qc) by (eapply Qcle_trans; [apply Qcmult_le_compat_r; eauto|exact B]).
    apply Qclt_le_weak in G0. pose proof (mul_le _ _ _ G0 H1) as M1. pose proof (mul_le _ _ _ G0 H2) as M2.
    replace (ab_off n z 1 k * - d)%Qc with (- (d * ab_off n z 1 k))%Qc in M2 by ring.
    replace (ab_off n z 1 k * d)%Qc with (d * ab_off n z 1 k)%Qc in M1 by ring.
    revert B' M1 M2. generalize (ab_off n z 1 k * D)%Qc (d * ab_off n z 1 k)%Qc. intros. split; qc_lra.
  Qed.
End Slow.

(** ** The runs *)
Section Runs.
  Context {R : Registry} (Hsane : sane_registry R) (Hps : per_second_law R).
  Context (over_s : string -> res string) (q u tu name : string) (tid : bool) (c : tcomp).
  Context (Hos : over_second_law R over_s) (Ho : over_s u = Ok tu) (Hn : new_relaxation over_s q u name tid = Ok c).
  Context (prog : icaller (T:=Qc) unit) (Hprog : prog = (fun w (st : state Qc) d => implicit_composite_call [inr (stateless (relaxation_call c q))] d w st)).

  Lemma history_called : forall {S} (call : S * unit -> state Qc -> Z -> (S * unit) * res (stepped Qc)) dt s0 log s,
    history call prog dt s0 log s -> forall e, In e log -> exists w w' diag, prog w (e_st e) dt = (w', Ok (e_tend e, diag)).
  Proof.
    intros S call dt s0 log s H. induction H as [|s0 log s w st w' tend pdiag s' diag new H IH Hp Hc]; intros e He; [destruct He|].
    apply in_app_or in He as [He|[<-|[]]]; [auto|]. exists w, w', pdiag. exact Hp.
  Qed.

  (** The tendencies of the last calls are the distances over the timescale. *)
  Lemma rates_are : forall p ve vs dt es xs ys, vs <> 0%Qc ->
    (forall e, In e es -> fit (e_st e) /\ exists w w' diag, prog w (e_st e) dt = (w', Ok (e_tend e, diag))) ->
    Forall2 (fun e x => relaxing q p ve vs (ve + x)%Qc (e_st e)) es xs -> rates_of es q p ys -> ys = map (fun x => (- (x / vs))%Qc) xs.
  Proof.
    intros p ve vs dt es xs ys Hvs Hc Hx. revert ys. induction Hx as [|e x es xs H Hx IH]; intros ys Hy; inversion Hy as [|e0 y es0 ys0 (t & Ht & _ & Hr) Hy']; subst; [reflexivity|].
    cbn [map]. f_equal; [|apply IH; auto; intros e' He'; apply Hc; right; auto].
    destruct (Hc e (or_introl eq_refl)) as (F & w & w' & dg & Hcall).
    rewrite (relax_rate over_s q u tu name tid c Ho Hn Hsane Hps Hos _ _ _ _ _ _ p ve vs _ t y F Hcall H Hvs Ht Hr).
    transitivity ((ve - (ve + x)) / vs)%Qc; [reflexivity|field; auto].
  Qed.

  Lemma Forall2_firstn : forall {X Y} (P : X -> Y -> Prop) m l l', Forall2 P l l' -> Forall2 P (firstn m l) (firstn m l').
  Proof. intros X Y P m l l' H. revert m. induction H as [|x y l l' H0 H IH]; intros [|m]; cbn [firstn]; constructor; auto. Qed.

  Lemma in_firstn_of : forall {X} m (l : list X) x, In x (firstn m l) -> In x l.
  Proof. intros X m l x H. rewrite <- (firstn_skipn m l). apply in_or_app. left. exact H. Qed.

  Lemma Forall_of_pairs : forall {X Y} (P : X -> Y -> Prop) l l' y, Forall2 P l l' -> In y l' -> exists x, In x l /\ P x y.
  Proof. intros X Y P l l' y H. induction H as [|a b l l' H0 H IH]; intros Hy; [destruct Hy|]. destruct Hy as [<-|Hy]; [exists a; split; [left; auto|auto]|]. destruct (IH Hy) as (x & Hx & Px). exists x. split; [right; auto|auto]. Qed.

  Section One.
    Context (cfg : tstep) (dt : Z) (o : order_arg) (n : nat) (a : ab Qc) (w : unit) (log : list (entry Qc)) (s : ab Qc * unit).
    Context (p : string -> nat) (ve vs v : Qc).
    Context (Ha : new_ab o = Ok a) (Hor : is_order o n) (H : history (adams_bashforth cfg prog) prog dt (a, w) log s).
    Context (Hfit : forall e, In e log -> wf_state (e_st e) /\ NoDup (keys (e_st e))).
    Context (Hho : forall pre a b post, log = pre ++ a :: b :: post -> forall X, X <> "time" -> dget X (e_st b) = dget X (e_new a)).
    Context (Htime : forall e, In e log -> exists now, dget "time" (e_st e) = Some (VTime now)).
    Context (H0 : forall e post, log = e :: post -> relaxing q p ve vs v (e_st e)) (Hvs : vs <> 0%Qc).

    Let z := (Q2Qc (dt # 1000000) / vs)%Qc.

    Lemma ab_wf : wf_log log.
    Proof.
      intros e He. destruct (Hfit e He) as [W N]. split; [apply fit_proper; split; auto|].
      destruct (history_called _ _ _ _ _ H e He) as (w1 & w2 & dg & Hc). subst prog. eapply (fit_tend over_s q u tu name tid c Ho Hn); [split; [exact W|exact N]|exact Hc].
    Qed.

    Lemma ab_new_of : forall pre e post, log = pre ++ e :: post ->
      Forall2 (fun e' x => relaxing q p ve vs (ve + x)%Qc (e_st e')) (e :: rev pre) (ab_offs n z (v - ve) (length pre)) ->
      relaxing q p ve vs (ve + ab_off n z (v - ve) (S (length pre)))%Qc (e_new e).
    Proof.
      intros pre e post E Hx.
      assert (Hin : forall e', In e' (e :: rev pre) -> In e' log).
      { intros e' He'. rewrite E. apply in_or_app. destruct He' as [<-|He']; [right; left; auto|left; apply in_rev; auto]. }
      assert (Hcall : forall e', In e' (e :: rev pre) -> fit (e_st e') /\ exists w w' diag, prog w (e_st e') dt = (w', Ok (e_tend e', diag))).
      { intros e' He'. apply Hin in He'. split; [exact (Hfit e' He')|]. exact (history_called _ _ _ _ _ H e' He'). }
      assert (Hkeys : forall e', In e' (e :: rev pre) -> forall X, In X (keys (e_tend e')) <-> X = q).
      { intros e' He' X. destruct (Hcall e' He') as (F & w1 & w2 & dg & Hc). rewrite Hprog in Hc.
        destruct (relax_tend over_s q u tu name tid c Ho Hn _ _ _ _ _ _ F Hc) as (? & ? & ? & t & r & _ & _ & _ & _ & Ht & _).
        split; [intros Hk; apply In_keys_dget in Hk as (b & Hb); rewrite Ht in Hb; destruct (String.eqb_spec X q); [auto|discriminate Hb]|].
        intros ->. apply (dget_In_keys q r). rewrite Ht, String.eqb_refl. reflexivity. }
      set (m := Nat.min n (S (length pre))) in *.
      assert (Hlat : forall e', In e' (latest m pre e) -> In e' (e :: rev pre)) by (intros e' He'; exact (in_firstn_of _ _ _ He')).
      destruct (main_ab_textbook cfg prog dt o n a w log s Ha Hor H ab_wf pre e post E q) as (x & ts & r & Ex & Er & Hts & Hext & Hv).
      { intros e' He'. apply (Hkeys e'); auto. }
      assert (Hun : forall X, X <> q -> dget X (e_new e) = dget X (e_st e)).
      { intros X HX. apply (main_ab_untouched cfg prog dt o n a w log s Ha Hor H pre e post E X). intros e' He' Hk. apply (Hkeys e' (Hlat e' He')) in Hk. auto. }
      inversion Hx as [|e0 x0 es0 xs0 Hr0 Hxr E1 E2]; subst e0 es0.
      pose proof Hr0 as (x' & eq & sc & ux & G1 & G2 & G3 & P1 & P2 & P3 & Ux & V & Ve & Vs).
      rewrite G1 in Ex. injection Ex as <-.
      assert (Pr : in_grid r p).
      { eapply in_grid_extends; [exact Hext|exact P1|]. apply Forall_forall. intros t Ht.
        destruct (Forall_of_pairs _ _ _ _ Hts Ht) as (e' & He' & Et). apply Hlat in He'.
        destruct (Hcall e' He') as (F & w1 & w2 & dg & Hc). rewrite Hprog in Hc.
        destruct (relax_tend over_s q u tu name tid c Ho Hn _ _ _ _ _ _ F Hc) as (x1 & e1 & s1 & t1 & r1 & X1 & X2 & X3 & Hrel & Hte & Hs & _).
        rewrite Hte, String.eqb_refl in Et. injection Et as <-.
        assert (Hre : exists d, relaxing q p ve vs (ve + d)%Qc (e_st e')).
        { clear - Hx He'. induction Hx as [|a0 b0 l l' A B IH]; [destruct He'|]. destruct He' as [<-|He']; [exists b0; exact A|auto]. }
        destruct Hre as (d0 & xx & ee & ss & uu & Y1 & Y2 & Y3 & Q1 & Q2 & Q3 & _).
        rewrite Y1 in X1. injection X1 as <-. rewrite Y2 in X2. injection X2 as <-. rewrite Y3 in X3. injection X3 as <-.
        assert (Pt : in_grid t1 p).
        { destruct Hrel as (_ & _ & _ & Lt & _). intros dd k Hd. rewrite Lt in Hd. apply first_len_in in Hd as (b & [<-|[<-|[<-|[]]]] & E'); [apply (Q1 dd k E')|apply (Q2 dd k E')|apply (Q3 dd k E')]. }
        destruct Hs as (_ & _ & _ & Lr & _). intros dd k Hd. rewrite Lr in Hd. apply first_len_in in Hd as (b & [<-|[]] & E'). apply (Pt dd k E'). }
      destruct (Hv p Pr) as (ys & Hys & Vr).
      rewrite <- E2 in Hx. pose proof (Forall2_firstn _ m _ _ Hx) as Hxm.
      assert (Ey := rates_are p ve vs dt (latest m pre e) (firstn m (x0 :: xs0)) ys Hvs ltac:(intros e' He'; apply Hcall; auto) Hxm Hys).
      destruct (relax_names q) as (N1 & N2 & _).
      exists r, eq, sc, ux. split; [exact Er|]. split; [rewrite Hun; auto|]. split; [rewrite Hun; auto|]. split; [auto|]. split; [auto|]. split; [auto|].
      split; [destruct Hext as (_ & At & _); unfold units_of in *; rewrite At; auto|]. split; [|auto].
      fold m in Vr. rewrite Vr, V, Ey. unfold ab_off at 1. rewrite ab_offs_S. cbn [hd]. fold m. unfold ab_off. rewrite <- E2. cbn [hd].
      assert (Ed : forall ws l, dot ws (map (fun x => (- (x / vs))%Qc) l) = (- (dot ws l / vs))%Qc).
      { intros ws. induction ws as [|b ws IHw]; intros [|y l]; cbn [dot map]; [field; auto|field; auto|field; auto|]. rewrite IHw. field; auto. }
      rewrite Ed. unfold z. generalize (dot (ab_weights m) (firstn m (x0 :: xs0))). intros D. field; auto.
    Qed.

    Lemma ab_all : forall pre e post, log = pre ++ e :: post ->
      Forall2 (fun e' x => relaxing q p ve vs (ve + x)%Qc (e_st e')) (e :: rev pre) (ab_offs n z (v - ve) (length pre)).
    Proof.
      induction pre as [|b pre IH] using rev_ind; intros e post E.
      - cbn. constructor; [|constructor]. replace (ve + (v - ve))%Qc with v by ring. exact (H0 e post E).
      - rewrite <- app_assoc in E. cbn [app] in E. pose proof (IH b (e :: post) E) as Hb. pose proof (ab_new_of pre b (e :: post) E Hb) as Hnb.
        rewrite rev_app_distr. cbn [rev app]. rewrite app_length. cbn [length]. rewrite Nat.add_1_r, ab_offs_S.
        constructor; [|exact Hb].
        assert (Hbi : In b log) by (rewrite E; apply in_or_app; right; left; auto). destruct (Htime b Hbi) as (now & Hnow).
        unfold ab_off in Hnb. rewrite ab_offs_S in Hnb. cbn [hd] in Hnb.
        assert (Hr0 : exists x0, relaxing q p ve vs x0 (e_st b)) by (inversion Hb; subst; eauto). destruct Hr0 as (x0 & Hr0).
        eapply (relaxing_next over_s q u name tid c Hn); [exact Hr0|exact Hnow|exact (Hho pre b e post E)|exact Hnb].
    Qed.

    Lemma relax_abs : forall k e, nth_error log k = Some e ->
      relaxing q p ve vs (ve + ab_off n z (v - ve) k)%Qc (e_st e) /\ relaxing q p ve vs (ve + ab_off n z (v - ve) (S k))%Qc (e_new e).
    Proof.
      intros k e He. destruct (nth_error_split _ _ He) as (pre & post & E & <-). pose proof (ab_all pre e post E) as Hx. split.
      - unfold ab_off. inversion Hx as [|e0 x0 es0 xs0 Hr0 Hxr E1 E2]; subst. exact Hr0.
      - exact (ab_new_of pre e post E Hx).
    Qed.
  End One.

  Lemma relax_ab_order : forall cfg dt o n a w log s p ve vs v, new_ab o = Ok a -> is_order o n ->
    history (adams_bashforth cfg prog) prog dt (a, w) log s ->
    (forall e, In e log -> wf_state (e_st e) /\ NoDup (keys (e_st e))) ->
    (forall pre a b post, log = pre ++ a :: b :: post -> forall X, X <> "time" -> dget X (e_st b) = dget X (e_new a)) ->
    (forall e, In e log -> exists now, dget "time" (e_st e) = Some (VTime now)) ->
    (forall e post, log = e :: post -> relaxing q p ve vs v (e_st e)) -> vs <> 0%Qc ->
    forall k e, nth_error log k = Some e ->
      relaxing q p ve vs (ve + ab_off n (Q2Qc (dt # 1000000) / vs) (v - ve) k)%Qc (e_st e) /\
      relaxing q p ve vs (ve + ab_off n (Q2Qc (dt # 1000000) / vs) (v - ve) (S k))%Qc (e_new e).
  Proof. intros cfg dt o n a w log s p ve vs v Ha Hor H Hfit Hho Htime H0 Hvs. exact (relax_abs cfg dt o n a w log s p ve vs v Ha Hor H Hfit Hho Htime H0 Hvs). Qed.

  (** With a timestep of a fifth of the timescale every order comes near, from one side. *)
  Lemma relax_abs_near : forall dt p ve vs v eps n, (0 < dt)%Z -> (Q2Qc (5 # 1) * Q2Qc (dt # 1000000) <= vs)%Qc -> (0 < eps)%Qc ->
    exists N, forall cfg o a w log s, new_ab o = Ok a -> is_order o n -> history (adams_bashforth cfg prog) prog dt (a, w) log s ->
      (forall e, In e log -> wf_state (e_st e) /\ NoDup (keys (e_st e))) ->
      (forall pre a b post, log = pre ++ a :: b :: post -> forall X, X <> "time" -> dget X (e_st b) = dget X (e_new a)) ->
      (forall e, In e log -> exists now, dget "time" (e_st e) = Some (VTime now)) ->
      (forall e post, log = e :: post -> relaxing q p ve vs v (e_st e)) ->
      forall k e, nth_error log k = Some e ->
        exists x y, relaxing q p ve vs x (e_st e) /\ relaxing q p ve vs y (e_new e) /\ between v x ve /\ between x y ve /\ (N <= k -> within eps x ve).
  Proof.
    intros dt p ve vs v eps n Hdt Hvs He. pose proof (secs_pos dt Hdt) as Hh. set (h := Q2Qc (dt # 1000000)) in *.
    assert (Hle : (h <= vs)%Qc) by qc_lra. destruct (part_of _ _ Hh Hle) as (Hn0 & Z0 & Z1).
    assert (Hv0 : (0 < vs)%Qc) by qc_lra.
    assert (Z5 : (h / vs <= Q2Qc (1 # 5))%Qc).
    { destruct (Qclt_le_dec (Q2Qc (1 # 5)) (h / vs)) as [X|X]; [exfalso|exact X].
      assert (Y : (Q2Qc (1 # 5) * vs < h / vs * vs)%Qc) by (apply Qcmult_lt_compat_r; auto).
      replace (h / vs * vs)%Qc with h in Y by (field; exact Hn0). qc_lra. }
    destruct (le_lt_dec 1 n) as [N1|N1]; [destruct (le_lt_dec n 4) as [N4|N4]|].
    - destruct (ab_tends n (conj N1 N4) _ Z0 Z5 (v - ve)%Qc eps He) as (N & HN). exists N.
      intros cfg o a w log s G1 G2 G3 G4 G5 G6 G7 k e Hk.
      destruct (relax_abs cfg dt o n a w log s p ve vs v G1 G2 G3 G4 G5 G6 G7 Hn0 k e Hk) as (A & B). fold h in A, B.
      do 2 eexists. split; [exact A|]. split; [exact B|]. split; [apply ab_between; auto|]. split; [apply ab_between_next; auto|].
      intros Hl. apply within_back. apply HN. exact Hl.
    - exists 0. intros cfg o a w log s G1 G2. destruct (order_made _ _ _ G1 G2) as (X & _). lia.
    - exists 0. intros cfg o a w log s G1 G2. destruct (order_made _ _ _ G1 G2) as (X & _). lia.
  Qed.
End Runs.
