(** Consequences of the stepping formulas in exact arithmetic. *)
From Coq Require Import String List Bool Arith ZArith QArith Qcanon Lia.
From Verif Require Import Prelude PreludeFacts ArithM NdArray NdFacts Units DataArrayM GetNp Components Composite Steppers
  SpecUnits UnitsFacts SpecDa DaFacts SpecComposite SpecSteppers SteppersFacts ABFacts RKFacts LeapFacts StepAlgebra StepRuns.
Import ListNotations.
Open Scope string_scope.
Open Scope nat_scope.
Open Scope list_scope.

Section Any.
  Context {T : Type} {A : Arith T} {R : Registry}.

  Lemma converted_fun : forall s1 s2 (x y y' : T), converted s1 s2 x y -> converted s1 s2 x y' -> y = y'.
  Proof.
    intros s1 s2 x y y' (u1 & u2 & P1 & P2 & _ & H) (v1 & v2 & Q1 & Q2 & _ & H').
    assert (v1 = u1) by congruence. assert (v2 = u2) by congruence. subst.
    destruct H as [(E & ->)|(E & ->)], H' as [(E' & ->)|(E' & ->)]; auto; congruence.
  Qed.

  Lemma rate_fun : forall (st : state T) X t c y y', rate st X t c y -> rate st X t c y' -> y = y'.
  Proof.
    intros st X t c y y' H H'. unfold rate in *. destruct (units_of t); [|congruence].
    destruct H as (x & us & Hx & Hu & H), H' as (x' & us' & Hx' & Hu' & H').
    assert (x' = x) by congruence. subst. assert (us' = us) by congruence. subst. eapply converted_fun; eauto.
  Qed.

  Lemma rates_fun : forall es X c ys ys', @rates_of T A R es X c ys -> rates_of es X c ys' -> ys = ys'.
  Proof.
    intros es X c ys ys' H. revert ys'. induction H as [|e y es ys (t & Ht & _ & Hr) H IH]; intros ys' H'; inversion H' as [|? y' ? ys1 (t' & Ht' & _ & Hr') H1]; subst; auto.
    f_equal; auto. assert (t' = t) by congruence. subst. eapply rate_fun; eauto.
  Qed.

  Lemma in_grid_extends : forall (x r : da T) ts c, extends x ts r -> in_grid x c -> Forall (fun t => in_grid t c) ts -> in_grid r c.
  Proof.
    intros x r ts c (_ & _ & _ & L) Hx Ht d m Hm. rewrite L in Hm. cbn [first_len] in Hm. destruct (dim_len x d) eqn:E.
    - injection Hm as <-. auto.
    - clear - Hm Ht. induction ts as [|t ts IH]; cbn [first_len] in Hm; [discriminate|]. inversion Ht; subst.
      destruct (dim_len t d) eqn:E; [injection Hm as <-; auto|auto].
  Qed.

  Lemma latest_length : forall k pre (e : entry T), k <= S (length pre) -> length (latest k pre e) = k.
  Proof. intros k pre e H. unfold latest. rewrite firstn_length. cbn [length]. rewrite rev_length. lia. Qed.

  Lemma rates_grid : forall es X c ys ts, @rates_of T A R es X c ys -> tendencies_of es X ts -> Forall (fun t => in_grid t c) ts.
  Proof.
    intros es X c ys ts H H'. revert ts H'. induction H as [|e y es ys (t & Ht & Hg & _) H IH]; intros ts H'; inversion H' as [|? t' ? ts1 Ht' H1]; subst; auto.
    constructor; [|apply IH; auto]. assert (t' = t) by congruence. subst. auto.
  Qed.

  Lemma rates_length : forall es X c ys, @rates_of T A R es X c ys -> length ys = length es.
  Proof. intros es X c ys H. induction H; cbn [length]; auto. Qed.

  Lemma rates_keys : forall es X c ys, @rates_of T A R es X c ys -> forall e, In e es -> In X (keys (e_tend e)).
  Proof.
    intros es X c ys H. induction H as [|e y es ys (t & Ht & _) H IH]; intros e' [].
    - subst. eapply dget_In_keys; eauto.
    - auto.
  Qed.
End Any.

Section Exact.
  Context {R : Registry}.

  (** ** Adams-Bashforth *)

  Lemma ab_textbook : forall {U} cfg (prog : icaller U) dt n u log s, 1 <= n <= 4 ->
    history (adams_bashforth cfg prog) prog dt (mkab n None [], u) log s -> wf_log log ->
    forall pre e post, log = pre ++ e :: post ->
    forall X, (forall e', In e' (latest (Nat.min n (S (length pre))) pre e) -> In X (keys (e_tend e'))) ->
    exists x ts r, dget X (e_st e) = Some (VDA x) /\ dget X (e_new e) = Some (VDA r) /\
      tendencies_of (latest (Nat.min n (S (length pre))) pre e) X ts /\ extends x ts r /\
      forall c, in_grid r c -> exists ys, rates_of (latest (Nat.min n (S (length pre))) pre e) X c ys /\
        da_at r c = (da_at x c + Q2Qc (dt # 1000000) * dot (ab_weights (Nat.min n (S (length pre)))) ys)%Qc.
  Proof.
    intros U cfg prog dt n u log s Hn H Hw pre e post E X HX.
    destruct (ab_formula_lemma cfg prog dt n u log s (proj1 Hn) H Hw pre e post E X HX) as (x & ts & r & Hx & Hr & Ht & He & Hv).
    exists x, ts, r. do 4 (split; auto). intros c Hc. destruct (Hv c Hc) as (_ & ys & Hys & V). exists ys. split; auto.
    rewrite V. pose proof (rates_length _ _ _ _ Hys) as Hl. rewrite latest_length in Hl by lia.
    rewrite ab_formula_dot by lia. rewrite Hl. reflexivity.
  Qed.

  (** The value at one point, from given rates. *)
  Lemma ab_point : forall {U} cfg (prog : icaller U) dt n u log s, 1 <= n <= 4 ->
    history (adams_bashforth cfg prog) prog dt (mkab n None [], u) log s -> wf_log log ->
    forall pre e post, log = pre ++ e :: post ->
    forall X x c ys, rates_of (latest (Nat.min n (S (length pre))) pre e) X c ys ->
    dget X (e_st e) = Some (VDA x) -> in_grid x c ->
    exists r, dget X (e_new e) = Some (VDA r) /\ in_grid r c /\
      da_at r c = (da_at x c + Q2Qc (dt # 1000000) * dot (ab_weights (Nat.min n (S (length pre)))) ys)%Qc.
  Proof.
    intros U cfg prog dt n u log s Hn H Hw pre e post E X x c ys Hys Hx Hc.
    destruct (ab_textbook cfg prog dt n u log s Hn H Hw pre e post E X (rates_keys _ _ _ _ Hys))
      as (x' & ts & r & Hx' & Hr & Ht & He & Hv).
    assert (x' = x) by congruence. subst. exists r. split; auto.
    assert (Hg : in_grid r c) by (eapply in_grid_extends; eauto; eapply rates_grid; eauto). split; auto.
    destruct (Hv c Hg) as (ys' & Hys' & V). rewrite (rates_fun _ _ _ _ _ Hys Hys'). auto.
  Qed.

  Lemma ab_polynomial : forall {U} cfg (prog : icaller U) dt n u log s, 1 <= n <= 4 ->
    history (adams_bashforth cfg prog) prog dt (mkab n None [], u) log s -> wf_log log ->
    forall pre e post, log = pre ++ e :: post ->
    forall X x c (P : list Qc) t, let k := Nat.min n (S (length pre)) in let h := Q2Qc (dt # 1000000) in
    length P <= S k -> rates_of (latest k pre e) X c (map (peval (pderiv P)) (times_back k t h)) ->
    dget X (e_st e) = Some (VDA x) -> in_grid x c ->
    exists r, dget X (e_new e) = Some (VDA r) /\ in_grid r c /\
      da_at r c = (da_at x c + (peval P (t + h) - peval P t))%Qc.
  Proof.
    intros U cfg prog dt n u log s Hn H Hw pre e post E X x c P t k h HP Hr Hx Hc.
    destruct (ab_point cfg prog dt n u log s Hn H Hw pre e post E X x c _ Hr Hx Hc) as (r & G1 & G2 & G3).
    exists r. split; auto. split; auto. rewrite G3. fold k h. rewrite ab_exact; auto. unfold k. lia.
  Qed.

  (** ** Weighted sums *)

  Lemma total_lin : forall a b k sA sB s1 (terms : list term) ys,
    Forall2 (fun (tm : term) y => let '(X, c, w) := tm in (value s1 X c = a * value sA X c + b * value sB X c + k * y)%Qc) terms ys ->
    (total terms s1 = a * total terms sA + b * total terms sB + k * dot (map snd terms) ys)%Qc.
  Proof.
    intros a b k sA sB s1 terms ys H. induction H as [|[[X c] w] y terms ys Hv H IH]; cbn [total fold_right dot map snd].
    - ring.
    - fold (total terms s1) (total terms sA) (total terms sB). rewrite IH, Hv. ring.
  Qed.

  Lemma value_at : forall (st : state Qc) X x c, dget X st = Some (VDA x) -> value st X c = da_at x c.
  Proof. intros st X x c H. unfold value. rewrite H. auto. Qed.

  Lemma on_grid_cons : forall X c w terms (st : state Qc), on_grid ((X, c, w) :: terms) st ->
    (exists x, dget X st = Some (VDA x) /\ in_grid x c) /\ on_grid terms st.
  Proof. intros X c w terms st H. unfold on_grid in H. inversion H; subst. split; auto. Qed.

  Lemma dot_heads : forall W w ws (rows : list (list Qc)) heads tails, Forall2 (fun row yt => row = fst yt :: snd yt) rows (combine heads tails) ->
    length heads = length rows -> length tails = length rows ->
    (dot W (map (dot (w :: ws)) rows) = w * dot W heads + dot W (map (dot ws) tails))%Qc.
  Proof.
    intros W w ws rows. revert W. induction rows as [|row rows IH]; intros W heads tails F H1 H2;
      destruct heads as [|h heads]; destruct tails as [|t tails]; try discriminate.
    - destruct W; cbn [map dot]; ring.
    - cbn [combine] in F. inversion F; subst. cbn [fst snd] in *. destruct W as [|v W]; [unfold dot; ring|].
      injection H1 as H1. injection H2 as H2. pose proof (IH W heads tails) as IH'. cbn [map].
      change (dot (v :: W) (dot (w :: ws) (h :: t) :: map (dot (w :: ws)) rows))
        with (v * (w * h + dot ws t) + dot W (map (dot (w :: ws)) rows))%Qc.
      change (dot (v :: W) (h :: heads)) with (v * h + dot W heads)%Qc.
      change (dot (v :: W) (dot ws t :: map (dot ws) tails)) with (v * dot ws t + dot W (map (dot ws) tails))%Qc.
      rewrite IH'; auto. ring.
  Qed.

  Lemma dot_swap : forall {E} (Rel : E -> term -> Qc -> Prop), (forall e tm y y', Rel e tm y -> Rel e tm y' -> y = y') ->
    forall W es (terms : list term) rows cols,
    Forall2 (fun e row => Forall2 (Rel e) terms row) es rows ->
    Forall2 (fun tm col => Forall2 (fun e y => Rel e tm y) es col) terms cols ->
    dot (map snd terms) (map (dot W) cols) = dot W (map (dot (map snd terms)) rows).
  Proof.
    intros E Rel Hf W es terms. induction terms as [|tm terms IH]; intros rows cols Hr Hc.
    - inversion Hc; subst. cbn [map dot]. symmetry. apply dot_zero. apply Forall_forall. intros y Hy. apply in_map_iff in Hy as (row & <- & _). reflexivity.
    - inversion Hc as [|? col ? cols' Hcol Hcols]; subst. cbn [map].
      assert (G : exists tails, Forall2 (fun row yt => row = fst yt :: snd yt) rows (combine col tails) /\ length tails = length rows /\
                 length col = length rows /\ Forall2 (fun e row => Forall2 (Rel e) terms row) es tails).
      { clear - Hr Hcol Hf. revert col Hcol. induction Hr as [|e row es rows Hrow Hr IH]; intros col Hcol; inversion Hcol as [|? y ? col' Hy Hcol']; subst.
        - exists []. repeat split; constructor.
        - destruct (IH _ Hcol') as (tails & I1 & I2 & I3 & I4). inversion Hrow as [|? y' ? row' Hy' Hrow']; subst.
          rewrite (Hf _ _ _ _ Hy' Hy). exists (row' :: tails). cbn [combine length]. repeat split; auto; constructor; auto. }
      destruct G as (tails & G1 & G2 & G3 & G4). rewrite (dot_heads W (snd tm) (map snd terms) rows col tails); auto.
      cbn [dot]. rewrite (IH tails cols'); auto.
  Qed.

  Lemma ab_balanced : forall {U} cfg (prog : icaller U) dt n u log s, 1 <= n <= 4 ->
    history (adams_bashforth cfg prog) prog dt (mkab n None [], u) log s -> wf_log log ->
    forall pre e post, log = pre ++ e :: post -> forall terms, on_grid terms (e_st e) ->
    (forall e', In e' (latest (Nat.min n (S (length pre))) pre e) -> balanced terms (e_st e') (e_tend e')) ->
    total terms (e_new e) = total terms (e_st e) /\ on_grid terms (e_new e).
  Proof.
    intros U cfg prog dt n u log s Hn H Hw pre e post E terms Hg Hb.
    set (k := Nat.min n (S (length pre))) in *. set (es := latest k pre e) in *.
    pose (Rel := fun (e' : entry Qc) (tm : term) y => let '(X, c, w) := tm in
                   exists t, dget X (e_tend e') = Some t /\ in_grid t c /\ rate (e_st e') X t c y).
    assert (Hf : forall e' tm y y', Rel e' tm y -> Rel e' tm y' -> y = y').
    { intros e' [[X c] w] y y' (t & Ht & _ & Hr) (t' & Ht' & _ & Hr'). assert (t' = t) by congruence. subst. eapply rate_fun; eauto. }
    assert (Hrows : exists rows, Forall2 (fun e' row => Forall2 (Rel e') terms row) es rows /\
              Forall (fun row => dot (map snd terms) row = 0%Qc) rows).
    { clear - Hb. assert (G : forall e', In e' es -> exists row, Forall2 (Rel e') terms row /\ dot (map snd terms) row = 0%Qc).
      { intros e' He. destruct (Hb e' He) as (ys & F & D). exists ys. split; auto. }
      clear Hb. induction es as [|e' es IH]; [exists []; split; constructor|].
      destruct (G e') as (row & G1 & G2); [left; auto|]. destruct IH as (rows & I1 & I2); [intros; apply G; right; auto|].
      exists (row :: rows). split; constructor; auto. }
    destruct Hrows as (rows & Hr1 & Hr2).
    assert (Hcols : exists cols, Forall2 (fun tm col => Forall2 (fun e' y => Rel e' tm y) es col) terms cols).
    { clear - Hr1. clearbody Rel. revert rows Hr1. induction terms as [|tm terms IH]; intros rows Hr1; [exists []; constructor|].
      assert (G : exists col tails, Forall2 (fun e' y => Rel e' tm y) es col /\ Forall2 (fun e' row => Forall2 (Rel e') terms row) es tails).
      { clear IH. induction Hr1 as [|e' row es rows Hrow Hr1 IH]; [exists [], []; split; constructor|].
        destruct IH as (col & tails & I1 & I2). inversion Hrow as [|? y ? row' Hy Hrow']; subst. exists (y :: col), (row' :: tails). split; constructor; auto. }
      destruct G as (col & tails & G1 & G2). destruct (IH tails G2) as (cols & I). exists (col :: cols). constructor; auto. }
    destruct Hcols as (cols & Hc).
    assert (Hpt : Forall2 (fun (tm : term) col => let '(X, c, w) := tm in
              (exists r, dget X (e_new e) = Some (VDA r) /\ in_grid r c) /\
              (value (e_new e) X c = value (e_st e) X c + Q2Qc (dt # 1000000) * dot (ab_weights k) col)%Qc) terms cols).
    { clear Hr1 Hr2 Hb.
      induction Hc as [|[[X c] w] col terms cols Hcol Hc IH]; [constructor|]. apply on_grid_cons in Hg as ((x & Hx & Hgx) & Hg).
      constructor; [|apply IH; auto].
      assert (Hrt : rates_of es X c col) by exact Hcol.
      destruct (ab_point cfg prog dt n u log s Hn H Hw pre e post E X x c col Hrt Hx Hgx) as (r & G1 & G2 & G3).
      split; [eauto|]. rewrite (value_at _ _ _ _ G1), (value_at _ _ _ _ Hx). exact G3. }
    split.
    - assert (Hlin : Forall2 (fun (tm : term) y => let '(X, c, w) := tm in
        (value (e_new e) X c = 1 * value (e_st e) X c + 0 * value (e_st e) X c + Q2Qc (dt # 1000000) * y)%Qc) terms (map (dot (ab_weights k)) cols)).
      { clear - Hpt. induction Hpt as [|[[X c] w] col terms cols (_ & Hv) Hp IH]; cbn [map]; constructor; auto. rewrite Hv. ring. }
      rewrite (total_lin _ _ _ _ _ _ _ _ Hlin), (dot_swap Rel Hf (ab_weights k) es terms rows cols Hr1 Hc).
      rewrite dot_zero; [ring|]. apply Forall_forall. intros y Hy. apply in_map_iff in Hy as (row & <- & Hrow).
      rewrite Forall_forall in Hr2. auto.
    - clear - Hpt. unfold on_grid. induction Hpt as [|[[X c] w] col terms cols (Hr & _) Hp IH]; constructor; auto.
  Qed.

  Lemma chained_snoc : forall {T} (log : list (entry T)) e, chained (log ++ [e]) -> chained log.
  Proof.
    intros T log e H pre e1 e2 post E. apply (H pre e1 e2 (post ++ [e])). rewrite E, <- app_assoc. reflexivity.
  Qed.

  (** Over a whole run. *)
  Lemma ab_conserved : forall {U} cfg (prog : icaller U) dt n u e0 log s, 1 <= n <= 4 ->
    history (adams_bashforth cfg prog) prog dt (mkab n None [], u) (e0 :: log) s -> wf_log (e0 :: log) -> chained (e0 :: log) ->
    forall terms, on_grid terms (e_st e0) ->
    (forall e, In e (e0 :: log) -> on_grid terms (e_st e) -> balanced terms (e_st e) (e_tend e)) ->
    forall e, In e (e0 :: log) -> total terms (e_st e) = total terms (e_st e0) /\ total terms (e_new e) = total terms (e_st e0).
  Proof.
    intros U cfg prog dt n u e0 log s Hn H Hw Hch terms Hg Hb.
    assert (Main : forall m pre e post, length pre = m -> e0 :: log = pre ++ e :: post ->
              on_grid terms (e_st e) /\ total terms (e_st e) = total terms (e_st e0) /\
              on_grid terms (e_new e) /\ total terms (e_new e) = total terms (e_st e0)).
    { induction m as [m IH] using lt_wf_ind. intros pre e post Hm E.
      assert (Hst : on_grid terms (e_st e) /\ total terms (e_st e) = total terms (e_st e0)).
      { destruct pre as [|p pre] using rev_ind; [injection E as <- _; auto|]. clear IHpre.
        rewrite app_length in Hm. cbn [length] in Hm. rewrite <- app_assoc in E. cbn [app] in E.
        destruct (IH (length pre) ltac:(lia) pre p (e :: post) eq_refl E) as (_ & _ & I3 & I4).
        rewrite (Hch pre p e post E). auto. }
      destruct Hst as (S1 & S2). split; auto. split; auto.
      destruct (ab_balanced cfg prog dt n u _ s Hn H Hw pre e post E terms S1) as (B1 & B2).
      - intros e' He'. assert (Hin : In e' (e :: rev pre)).
        { unfold latest in He'. rewrite <- (firstn_skipn (Nat.min n (S (length pre)))). apply in_or_app; auto. }
        destruct Hin as [<-|Hin]; [apply Hb; auto; rewrite E; apply in_or_app; right; left; auto|].
        apply in_rev in Hin. apply in_split in Hin as (p1 & p2 & Hp).
        assert (E' : e0 :: log = p1 ++ e' :: (p2 ++ e :: post)) by (rewrite E, Hp, <- app_assoc; reflexivity).
        destruct (IH (length p1) ltac:(subst pre; rewrite app_length in Hm; simpl in Hm; lia) p1 e' _ eq_refl E') as (I1 & _).
        apply Hb; auto. rewrite E'. apply in_or_app; right; left; auto.
      - split; auto. congruence. }
    intros e He. apply in_split in He as (pre & post & E). destruct (Main _ pre e post eq_refl E) as (_ & M1 & _ & M2). auto.
  Qed.

  (** ** Forward Euler, combinations, Runge-Kutta *)

  Lemma euler_point : forall dt (st : state Qc) tend st' X t x c y, euler_step dt st tend st' -> dget X tend = Some t ->
    rate st X t c y -> in_grid t c -> dget X st = Some (VDA x) -> in_grid x c ->
    exists r, dget X st' = Some (VDA r) /\ in_grid r c /\ da_at r c = (da_at x c + y * Q2Qc (dt # 1000000))%Qc.
  Proof.
    intros dt st tend st' X t x c y (_ & H) Ht Hy Hgt Hx Hgx. destruct (H X t Ht) as (x' & r & Hx' & Hr & He & Hv).
    assert (x' = x) by congruence. subst. exists r. split; auto. assert (Hg : in_grid r c) by (eapply in_grid_extends; eauto).
    split; auto. destruct (Hv c Hg) as (_ & y' & Hy' & V). rewrite (rate_fun _ _ _ _ _ _ Hy Hy'). auto.
  Qed.

  Lemma euler_balanced : forall dt (st : state Qc) tend st' terms, euler_step dt st tend st' -> on_grid terms st ->
    balanced terms st tend -> total terms st' = total terms st /\ on_grid terms st'.
  Proof.
    intros dt st tend st' terms He Hg (ys & F & D).
    assert (Hpt : Forall2 (fun (tm : term) y => let '(X, c, w) := tm in
              (exists r, dget X st' = Some (VDA r) /\ in_grid r c) /\
              (value st' X c = 1 * value st X c + 0 * value st X c + Q2Qc (dt # 1000000) * y)%Qc) terms ys).
    { clear D. induction F as [|[[X c] w] y terms ys (t & Ht & Hgt & Hy) F IH]; [constructor|].
      apply on_grid_cons in Hg as ((x & Hx & Hgx) & Hg). constructor; [|apply IH; auto].
      destruct (euler_point dt st tend st' X t x c y He Ht Hy Hgt Hx Hgx) as (r & G1 & G2 & G3). split; [eauto|].
      rewrite (value_at _ _ _ _ G1), (value_at _ _ _ _ Hx), G3. ring. }
    split.
    - rewrite (total_lin 1%Qc 0%Qc (Q2Qc (dt # 1000000)) st st st' terms ys).
      + rewrite D. ring.
      + clear - Hpt. induction Hpt as [|[[X c] w] y terms ys (_ & Hv) H IH]; constructor; auto.
    - clear - Hpt. unfold on_grid. induction Hpt as [|[[X c] w] y terms ys (Hr & _) H IH]; constructor; auto.
  Qed.

  Lemma combination_total : forall a b (st st' out : state Qc) terms, combination (fun x y => (a * x + b * y)%Qc) st st' out ->
    on_grid terms st -> on_grid terms st' -> (forall X c w, In (X, c, w) terms -> X <> "time") ->
    total terms out = (a * total terms st + b * total terms st')%Qc /\ on_grid terms out.
  Proof.
    intros a b st st' out terms (_ & C) H1 H2 Hn.
    assert (Hpt : Forall2 (fun (tm : term) y => let '(X, c, w) := tm in
              (exists r, dget X out = Some (VDA r) /\ in_grid r c) /\
              (value out X c = a * value st X c + b * value st' X c + 0 * y)%Qc) terms (map (fun _ => 0%Qc) terms)).
    { induction terms as [|[[X c] w] terms IH]; cbn [map]; [constructor|].
      apply on_grid_cons in H1 as ((x & Hx & Hgx) & H1). apply on_grid_cons in H2 as ((x' & Hx' & Hgx') & H2).
      constructor; [|apply IH; auto; intros; eapply Hn; right; eauto].
      assert (HX : X <> "time") by (eapply Hn; left; eauto). specialize (C X HX). rewrite Hx in C.
      destruct C as (y' & r & Hy' & Hr & He & Hv). assert (y' = x') by congruence. subst.
      assert (Hg : in_grid r c) by (eapply in_grid_extends; eauto). split; [eauto|].
      destruct (Hv c Hg) as (_ & V). rewrite (value_at _ _ _ _ Hr), (value_at _ _ _ _ Hx), (value_at _ _ _ _ Hx'), V. ring. }
    split.
    - rewrite (total_lin a b 0%Qc st st' out terms (map (fun _ => 0%Qc) terms)); [ring|].
      clear - Hpt. induction Hpt as [|[[X c] w] y terms ys (_ & Hv) H IH]; constructor; auto.
    - clear - Hpt. unfold on_grid. induction Hpt as [|[[X c] w] y terms ys (Hr & _) H IH]; constructor; auto.
  Qed.

  Lemma combination_ext : forall {T} {A : Arith T} f g (st st' out : state T), (forall x y, f x y = g x y) ->
    combination f st st' out -> combination g st st' out.
  Proof.
    intros T A f g st st' out Hfg (C1 & C2). split; auto. intros X HX. specialize (C2 X HX). destruct (dget X st) as [[x|]|]; auto.
    destruct C2 as (x' & r & H1 & H2 & H3 & H4). exists x', r. do 3 (split; auto). intros c Hc. rewrite <- Hfg. auto.
  Qed.

  (** The two schemes as convex combinations of Euler steps. *)
  Lemma rk_stages_exact : forall {U} cfg (prog : icaller U) z k0 u0 calls k u (st : state Qc) dt s' diag new,
    new_rk z = Ok k0 -> after (ssp_rk cfg prog) calls (k0, u0) = (k, u) ->
    proper_components prog -> proper_state st ->
    ssp_rk cfg prog (k, u) st dt = (s', Ok (diag, new)) ->
    (z = 3%Z /\ exists u1 u2 u3 tend1 tend2 tend3 diag1 diag2 diag3 st1 st15 st2 st25,
      prog u st dt = (u1, Ok (tend1, diag1)) /\ euler_step dt st tend1 st1 /\
      prog u1 st1 dt = (u2, Ok (tend2, diag2)) /\ euler_step dt st1 tend2 st15 /\
      combination (fun x y => (Q2Qc (3 # 4) * x + Q2Qc (1 # 4) * y)%Qc) st st15 st2 /\
      prog u2 st2 dt = (u3, Ok (tend3, diag3)) /\ euler_step dt st2 tend3 st25 /\
      combination (fun x y => (Q2Qc (1 # 3) * x + Q2Qc (2 # 3) * y)%Qc) st st25 new /\
      proper_state st1 /\ proper_state st15 /\ proper_state st2 /\ proper_state st25 /\ proper_state new) \/
    (z = 2%Z /\ exists u1 u2 tend1 tend2 diag1 diag2 st1 st2,
      prog u st dt = (u1, Ok (tend1, diag1)) /\ euler_step dt st tend1 st1 /\
      prog u1 st1 dt = (u2, Ok (tend2, diag2)) /\ euler_step dt st1 tend2 st2 /\
      combination (fun x y => (Q2Qc (1 # 2) * x + Q2Qc (1 # 2) * y)%Qc) st st2 new /\
      proper_state st1 /\ proper_state st2 /\ proper_state new).
  Proof.
    intros U cfg prog z k0 u0 calls k u st dt s' diag new Hz Haf Hpc Hps H.
    destruct (rk_reachable cfg prog z k0 u0 calls k u Hz Haf) as (R1 & R2 & R3). destruct k as [stages eu]. cbn [rk_euler rk_stages] in *.
    destruct R3 as [-> | ->].
    - right. split; auto. assert (stages = 2) by lia. subst.
      apply rk2_ok in H as (u1 & u2 & t1 & t2 & d1 & d2 & st1 & st2 & H1 & H2 & H3 & H4 & H5 & H6 & _ & _ & H7 & H8); auto.
      exists u1, u2, t1, t2, d1, d2, st1, st2. do 4 (split; auto). split; auto.
      eapply combination_ext; [|exact H5]. intros x y. cbn [aadd amul aofQ ArithQc]. ring.
    - left. split; auto. assert (stages = 3) by lia. subst.
      apply rk3_ok in H as (u1 & u2 & u3 & t1 & t2 & t3 & d1 & d2 & d3 & st1 & st15 & st2 & st25 & H1 & H2 & H3 & H4 & H5 & H6 & H7 & H8 & H9 & _ & _ & W1 & W2 & W3 & W4); auto.
      exists u1, u2, u3, t1, t2, t3, d1, d2, d3, st1, st15, st2, st25. repeat match goal with |- _ /\ _ => split end; auto.
  Qed.

  Lemma rk_conserved : forall {U} cfg (prog : icaller U) z k0 u0 calls k u (st : state Qc) dt s' diag new terms,
    new_rk z = Ok k0 -> after (ssp_rk cfg prog) calls (k0, u0) = (k, u) ->
    proper_components prog -> proper_state st ->
    ssp_rk cfg prog (k, u) st dt = (s', Ok (diag, new)) ->
    (forall X c w, In (X, c, w) terms -> X <> "time") -> on_grid terms st ->
    (forall u st u' tend diag, prog u st dt = (u', Ok (tend, diag)) -> on_grid terms st -> balanced terms st tend) ->
    total terms new = total terms st /\ on_grid terms new.
  Proof.
    intros U cfg prog z k0 u0 calls k u st dt s' diag new terms Hz Haf Hpc Hps H Hn Hg Hb.
    destruct (rk_stages_exact cfg prog z k0 u0 calls k u st dt s' diag new Hz Haf Hpc Hps H) as
      [(_ & u1 & u2 & u3 & t1 & t2 & t3 & d1 & d2 & d3 & st1 & st15 & st2 & st25 & P1 & E1 & P2 & E2 & C1 & P3 & E3 & C2 & _)
      |(_ & u1 & u2 & t1 & t2 & d1 & d2 & st1 & st2 & P1 & E1 & P2 & E2 & C & _)].
    - destruct (euler_balanced _ _ _ _ _ E1 Hg (Hb _ _ _ _ _ P1 Hg)) as (T1 & G1).
      destruct (euler_balanced _ _ _ _ _ E2 G1 (Hb _ _ _ _ _ P2 G1)) as (T2 & G2).
      destruct (combination_total _ _ _ _ _ _ C1 Hg G2 Hn) as (T3 & G3).
      destruct (euler_balanced _ _ _ _ _ E3 G3 (Hb _ _ _ _ _ P3 G3)) as (T4 & G4).
      destruct (combination_total _ _ _ _ _ _ C2 Hg G4 Hn) as (T5 & G5). split; auto.
      rewrite T5, T4, T3, T2, T1. qc_ring.
    - destruct (euler_balanced _ _ _ _ _ E1 Hg (Hb _ _ _ _ _ P1 Hg)) as (T1 & G1).
      destruct (euler_balanced _ _ _ _ _ E2 G1 (Hb _ _ _ _ _ P2 G1)) as (T2 & G2).
      destruct (combination_total _ _ _ _ _ _ C Hg G2 Hn) as (T3 & G3). split; auto. rewrite T3, T2, T1. qc_ring.
  Qed.

  Lemma rk_convex : forall {U} cfg (prog : icaller U) z k0 u0 calls k u (st : state Qc) dt s' diag new K,
    new_rk z = Ok k0 -> after (ssp_rk cfg prog) calls (k0, u0) = (k, u) ->
    proper_components prog -> proper_state st ->
    ssp_rk cfg prog (k, u) st dt = (s', Ok (diag, new)) ->
    convex_set K -> K st ->
    (forall u st u' tend diag st', prog u st dt = (u', Ok (tend, diag)) -> proper_state st -> euler_step dt st tend st' -> K st -> K st') ->
    K new.
  Proof.
    intros U cfg prog z k0 u0 calls k u st dt s' diag new K Hz Haf Hpc Hps H Hc Hk He.
    destruct (rk_stages_exact cfg prog z k0 u0 calls k u st dt s' diag new Hz Haf Hpc Hps H) as
      [(_ & u1 & u2 & u3 & t1 & t2 & t3 & d1 & d2 & d3 & st1 & st15 & st2 & st25 & P1 & E1 & P2 & E2 & C1 & P3 & E3 & C2 & W1 & W2 & W3 & W4 & W5)
      |(_ & u1 & u2 & t1 & t2 & d1 & d2 & st1 & st2 & P1 & E1 & P2 & E2 & C & W1 & W2 & W3)].
    - assert (K1 : K st1) by eauto. assert (K15 : K st15) by eauto.
      assert (K2 : K st2). { eapply Hc; [| | |exact Hk|exact K15|exact C1]; [discriminate|discriminate|apply Qc_is_canon; reflexivity]. }
      assert (K25 : K st25) by eauto.
      eapply Hc; [| | |exact Hk|exact K25|exact C2]; [discriminate|discriminate|apply Qc_is_canon; reflexivity].
    - assert (K1 : K st1) by eauto. assert (K2 : K st2) by eauto.
      eapply Hc; [| | |exact Hk|exact K2|exact C]; [discriminate|discriminate|apply Qc_is_canon; reflexivity].
  Qed.

  Lemma convex_bounds : forall (a b x y lo hi : Qc), (0 <= a)%Qc -> (0 <= b)%Qc -> (a + b = 1)%Qc ->
    (lo <= x)%Qc /\ (x <= hi)%Qc -> (lo <= y)%Qc /\ (y <= hi)%Qc -> (lo <= a * x + b * y)%Qc /\ (a * x + b * y <= hi)%Qc.
  Proof.
    intros a b x y lo hi Ha Hb Hab [Hx1 Hx2] [Hy1 Hy2]. split.
    - replace lo with (lo * a + lo * b)%Qc by (rewrite <- Qcmult_plus_distr_r, Hab; ring).
      apply Qcplus_le_compat; [rewrite (Qcmult_comm a x)|rewrite (Qcmult_comm b y)]; apply Qcmult_le_compat_r; auto.
    - replace hi with (hi * a + hi * b)%Qc by (rewrite <- Qcmult_plus_distr_r, Hab; ring).
      apply Qcplus_le_compat; [rewrite (Qcmult_comm a x)|rewrite (Qcmult_comm b y)]; apply Qcmult_le_compat_r; auto.
  Qed.

  Lemma within_convex : forall X lo hi, X <> "time" -> convex_set (within X lo hi).
  Proof.
    intros X lo hi HX a b st st' out Ha Hb Hab (x & Hx & Bx) (x' & Hx' & Bx') (_ & C). specialize (C X HX). rewrite Hx in C.
    destruct C as (y & r & Hy & Hr & (_ & _ & _ & L) & Hv). assert (y = x') by congruence. subst. exists r. split; auto.
    intros c Hc. destruct (Hv c Hc) as (Hc' & ->). apply convex_bounds; auto.
    apply Bx. intros d n Hn. apply Hc. rewrite L. cbn [first_len]. rewrite Hn. auto.
  Qed.
End Exact.
