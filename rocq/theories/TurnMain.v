(** Runs from turned states (C101). *)
From Coq Require Import String List Bool Arith ZArith QArith Qcanon Lia.
From Verif Require Import Prelude PreludeFacts ArithM NdArray Units UnitsFacts DataArrayM SpecDa DaFacts SpecArrays Tracers Components SpecColumns ColumnsMain Composite Steppers Basic MainLoop LeapLoop
  RegionFacts RunFacts SpecTurn.
Import ListNotations.
Open Scope string_scope.
Open Scope nat_scope.
Open Scope list_scope.

Section Turn.
  Context {R : Registry} (g : turn).
  Notation P := (turned_named g).
  Notation P0 := (turned_of g).

  Lemma turn_any : forall k a b, P k a b -> P0 k a b.
  Proof. intros k a b H. apply H. Qed.
  Lemma turn_attrs : forall k a b, P k a b -> attrs a = attrs b.
  Proof. intros k a b H. apply H. Qed.

  Lemma turn_len : forall k a b d, P0 k a b -> dim_len b d = None -> dim_len a d = None.
  Proof.
    intros k a b d (H1 & H2 & H3 & _) E. destruct (dim_len a d) as [n|] eqn:Ea; [|reflexivity]. exfalso.
    assert (D : In d (dims b)) by (rewrite <- H3; apply (dim_len_In a d H1); eauto). apply (dim_len_In b d H2) in D as (m & D). congruence.
  Qed.

  Lemma turn_grid : forall k a b p, P0 k a b -> in_grid b p -> in_grid a (fun d => to g d (p d)).
  Proof.
    intros k a b p H Hp d n E. destruct (dim_len b d) as [m|] eqn:Em; [|rewrite (turn_len k a b d H Em) in E; discriminate E].
    destruct H as (_ & _ & _ & _ & H & _). exact (H d n m (p d) E Em (Hp d m Em)).
  Qed.

  (** A function of the value at each point that takes the one factor to the other. *)
  Lemma turn_points : forall j k f at' a b, P0 j a b -> (forall x, f (factor g j * x)%Qc = (factor g k * f x)%Qc) -> P0 k (da_map f at' a) (da_map f at' b).
  Proof.
    intros j k f at' a b H Hf. assert (Hg := fun p => turn_grid j a b p H). destruct H as (H1 & H2 & H3 & H4 & H5 & H6).
    split; [apply wf_da_map; exact H1|]. split; [apply wf_da_map; exact H2|]. split; [exact H3|]. split; [reflexivity|]. split; [exact H5|].
    intros p Hp. change (in_grid b p) in Hp. rewrite da_at_map by assumption. rewrite da_at_map; [|exact H1|apply Hg; exact Hp]. rewrite (H6 p Hp). apply Hf.
  Qed.

  Lemma turn_map : forall k f at' a b, by_scalar f -> at' = [] \/ at' = attrs a -> P k a b -> P k (da_map f at' a) (da_map f at' b).
  Proof.
    intros k f at' a b Hf Ha (H & Hn). split.
    - apply (turn_points k k); [exact H|]. intro x. destruct Hf as [y|y|y]; cbn [amul adiv ArithQc]; unfold Qcdiv; ring.
    - destruct Hn as [Hn|Hn]; [left; exact Hn|right]. destruct Ha as [->| ->]; cbn [da_map attrs]; [|exact Hn]. intros own u1 s u2 X. discriminate X.
  Qed.

  Lemma turn_units : forall k a b u, P k a b -> oks (P k) (to_units a u) (to_units b u).
  Proof.
    intros k a b u H. unfold to_units. rewrite <- (turn_attrs _ _ _ H). destruct (dget "units" (attrs a)) as [own|] eqn:Eo; [|intros x y Hx; discriminate Hx].
    unfold parseE. destruct (parse own) as [u1|] eqn:E1; [|intros x y Hx; discriminate Hx]. destruct (parse u) as [u2|] eqn:E2; [|intros x y Hx; discriminate Hx]. cbn [bind].
    destruct (negb (one_eqb u1 u2)); [|apply oks_ok; exact H]. destruct (udim_eqb u1 u2) eqn:Ed; [|intros x y Hx; discriminate Hx]. apply oks_ok.
    apply udim_eqb_eq in Ed. destruct H as (H & Hn). split.
    - apply (turn_points k k); [exact H|]. intro x. destruct Hn as [Hn|Hn]; [rewrite Hn, !Qcmult_1_l; reflexivity|].
      unfold uconv. rewrite (Hn own u1 own u1 Eo E1 E1 eq_refl), (Hn own u1 u u2 Eo E1 E2 Ed). cbn [Qc_eqb andb amul ArithQc].
      change (Qc_eqb 0 0) with true. cbn [andb]. ring.
    - destruct Hn as [Hn|Hn]; [left; exact Hn|right]. cbn [da_map attrs]. intros own' v1 s v2 X X1 X2 X3. rewrite dget_dset_eq in X. injection X as <-. rewrite E2 in X1. injection X1 as <-.
      exact (Hn own u1 s v2 Eo E1 X2 (eq_trans Ed X3)).
  Qed.

  Lemma turn_bin : forall k op a b a' b', op = aadd \/ op = asub -> P k a b -> P k a' b' -> oks (P k) (da_binop op (attrs a) a a') (da_binop op (attrs a) b b').
  Proof.
    intros k op a b a' b' Ho (H & Hn) (G & _) r s Hr Hs.
    assert (Hl := fun d => turn_len k a b d H).
    assert (X : forall x y, op (factor g k * x)%Qc (factor g k * y)%Qc = (factor g k * op x y)%Qc) by (intros x y; destruct Ho as [->| ->]; cbn [aadd asub ArithQc]; ring).
    destruct H as (H1 & H2 & H3 & H4 & H5 & H6). destruct G as (G1 & G2 & G3 & G4 & G5 & G6).
    destruct (da_binop_ok _ _ _ _ _ Hr H1 G1) as (R1 & R2 & R3 & R4 & R5 & R6). destruct (da_binop_ok _ _ _ _ _ Hs H2 G2) as (S1 & S2 & S3 & S4 & S5 & S6).
    assert (Ed : dims r = dims s) by (rewrite R3, S3; unfold bin_dims; rewrite H3, G3; reflexivity).
    assert (Ea : forall d, dim_len a d = None -> dim_len b d = None).
    { intros d E. destruct (dim_len b d) as [m|] eqn:Eb; [|reflexivity]. exfalso. assert (D : In d (dims a)) by (rewrite H3; apply (dim_len_In b d H2); eauto). apply (dim_len_In a d H1) in D as (m' & D). congruence. }
    assert (L : forall d n m i, dim_len r d = Some n -> dim_len s d = Some m -> i < m -> to g d i < n).
    { intros d n m i. rewrite R5, S5. destruct (dim_len a d) as [x|] eqn:E1.
      - destruct (dim_len b d) as [y|] eqn:E2; [|rewrite (Hl d E2) in E1; discriminate E1]. intros Y Z. injection Y as <-. injection Z as <-. exact (H5 d x y i E1 E2).
      - rewrite (Ea d E1). apply G5. }
    assert (Hrs : P0 k r s).
    { split; [exact R1|]. split; [exact S1|]. split; [exact Ed|]. split; [congruence|]. split; [exact L|].
      intros p Gs. assert (Pr : in_grid r (fun d => to g d (p d))).
      { intros d n E. destruct (dim_len s d) as [m|] eqn:Em; [exact (L d n m (p d) E Em (Gs d m Em))|]. exfalso.
        assert (D : In d (dims s)) by (rewrite <- Ed; apply (dim_len_In r d R1); eauto). apply (dim_len_In s d S1) in D as (m & D). congruence. }
      destruct (S6 p Gs) as (Gb & Gb' & Vs). destruct (R6 _ Pr) as (_ & _ & Vr). rewrite Vr, Vs, (H6 p Gb), (G6 p Gb'). apply X. }
    split; [exact Hrs|]. destruct Hn as [Hn|Hn]; [left; exact Hn|right]. rewrite R2. exact Hn.
  Qed.

  Lemma turn_rates : forall cfg, factors_fit g cfg -> named_rates P P0 cfg.
  Proof.
    intros cfg Hf Ht k at' a b (H & _). specialize (Hf Ht k). destruct H as (H1 & H2 & H3 & H4 & H5 & H6).
    split; [exact H1|]. split; [exact H2|]. split; [exact H3|]. split; [reflexivity|]. split; [exact H5|]. rewrite Hf. exact H6.
  Qed.

  Section Runs.
    Context {U V : Type} (same : U -> V -> Prop) (p : icaller (T:=Qc) U) (q : icaller (T:=Qc) V) (Hl : turning g same p q).

    Lemma turn_ab_loop : forall {M N} (mon : M -> state Qc -> M * res unit) (mon' : N -> state Qc -> N * res unit) cfg o a0 u v, factors_fit g cfg -> new_ab (T:=Qc) o = Ok a0 -> same u v ->
      forall n stop dt m m' st st' w w' log log' e e', turned_state g st st' ->
      main_loop n [beside (adams_bashforth cfg p)] (fun w st => let (m1, r) := mon (fst w) st in ((m1, snd w), r)) stop dt (m, (a0, u)) st = ((w, log), Some (Ok e)) ->
      main_loop n [beside (adams_bashforth cfg q)] (fun w st => let (m1, r) := mon' (fst w) st in ((m1, snd w), r)) stop dt (m', (a0, v)) st' = ((w', log'), Some (Ok e')) ->
      Forall2 (turned_record g) log log' /\ turned_state g e e'.
    Proof.
      intros M N mon mon' cfg o a0 u v Hf Ho Hu n stop dt m m' st st' w w' log log' e e' Hs Hx Hy.
      exact (run_ab_loop P P0 turn_any turn_attrs turn_units turn_map turn_bin same p q Hl mon mon' cfg (turn_rates cfg Hf) o a0 u v Ho Hu n stop dt m m' st st' w w' log log' e e' Hs Hx Hy).
    Qed.

    Lemma turn_rk_loop : forall {M N} (mon : M -> state Qc -> M * res unit) (mon' : N -> state Qc -> N * res unit) cfg z k0 u v, factors_fit g cfg -> new_rk (T:=Qc) z = Ok k0 -> same u v ->
      forall n stop dt m m' st st' w w' log log' e e', turned_state g st st' ->
      main_loop n [beside (ssp_rk cfg p)] (fun w st => let (m1, r) := mon (fst w) st in ((m1, snd w), r)) stop dt (m, (k0, u)) st = ((w, log), Some (Ok e)) ->
      main_loop n [beside (ssp_rk cfg q)] (fun w st => let (m1, r) := mon' (fst w) st in ((m1, snd w), r)) stop dt (m', (k0, v)) st' = ((w', log'), Some (Ok e')) ->
      Forall2 (turned_record g) log log' /\ turned_state g e e'.
    Proof.
      intros M N mon mon' cfg z k0 u v Hf Ho Hu n stop dt m m' st st' w w' log log' e e' Hs Hx Hy.
      exact (run_rk_loop P P0 turn_any turn_attrs turn_units turn_map turn_bin same p q Hl mon mon' cfg (turn_rates cfg Hf) z k0 u v Ho Hu n stop dt m m' st st' w w' log log' e e' Hs Hx Hy).
    Qed.

    Lemma turn_leap_loop : forall {W W'} (rest : W -> W' -> Prop) qs qs' (store : W -> state Qc -> W * res unit) (store' : W' -> state Qc -> W' * res unit) cfg nu alpha, factors_fit g cfg ->
      Forall2 (turning_step g rest) qs qs' ->
      (forall u v st st' u' v', rest u v -> turned_record g st st' -> store u st = (u', Ok tt) -> store' v st' = (v', Ok tt) -> rest u' v') ->
      forall n stop dt u u' w w' st st' s1 s1' w1 w1' log log' e e', same u u' -> rest w w' -> turned_state g st st' ->
      leap_main_loop n cfg p qs store stop dt (new_leap nu alpha, u) w st = ((s1, w1, log), Some (Ok e)) ->
      leap_main_loop n cfg q qs' store' stop dt (new_leap nu alpha, u') w' st' = ((s1', w1', log'), Some (Ok e')) ->
      Forall2 (turned_record g) log log' /\ turned_state g e e'.
    Proof.
      intros W W' rest qs qs' store store' cfg nu alpha Hf Hq Hst n stop dt u u' w w' st st' s1 s1' w1 w1' log log' e e' Hu Hw Hs Hx Hy.
      exact (run_leap_loop P P0 turn_any turn_attrs turn_units turn_map turn_bin same rest p q qs qs' store store' cfg nu alpha (turn_rates cfg Hf) Hl Hq Hst
        n stop dt u u' w w' st st' s1 s1' w1 w1' log log' e e' Hu Hw Hs Hx Hy).
    Qed.

    (** Steppers are processes of the general loop. *)
    Lemma turn_ab_step : forall cfg, factors_fit g cfg -> turning_step g (abs P same) (adams_bashforth cfg p) (adams_bashforth cfg q).
    Proof.
      intros cfg Hf x y st st' dt x' y' d n d' n' Hxy Hs Hx Hy.
      exact (par_adams_bashforth P P0 turn_attrs turn_units turn_map turn_bin same p q Hl cfg (turn_rates cfg Hf) x y st st' dt x' y' (d, n) (d', n') Hxy Hs Hx Hy).
    Qed.
  End Runs.

  Lemma turn_composite : forall {U V} (same : U -> V -> Prop) (cs : list (icaller (T:=Qc) U + caller (T:=Qc) U)) (cs' : list (icaller (T:=Qc) V + caller (T:=Qc) V)),
    Forall2 (fun c c' => match c, c' with
                         | inl p, inl q => turning g same p q
                         | inr p, inr q => turning g same (fun u st _ => p u st) (fun v st _ => q v st)
                         | _, _ => False
                         end) cs cs' ->
    turning g same (fun u st dt => implicit_composite_call cs dt u st) (fun v st dt => implicit_composite_call cs' dt v st).
  Proof.
    intros U V same cs cs' H u v st st' dt u' v' t d t' d' Hu Hs Hx Hy. unfold implicit_composite_call, tendency_composite_call in *.
    refine (par_composite P P0 turn_attrs turn_units turn_bin same _ _ _ _ _ _ _ _ _ _ _ _ _ _ _ Hu Hs _ _ Hx Hy); [|constructor|constructor].
    clear - H. induction H as [|c c' cs cs' Hc H IH]; cbn; constructor; [|exact IH].
    destruct c as [p|p], c' as [q|q]; try contradiction; [|exact Hc]. intros u v st st' dt' u' v' t d t' d'. apply Hc.
  Qed.

  Lemma turn_loop : forall {W W'} (same : W -> W' -> Prop) ps ps' (store : W -> state Qc -> W * res unit) (store' : W' -> state Qc -> W' * res unit),
    Forall2 (turning_step g same) ps ps' ->
    (forall u v st st' u' v', same u v -> turned_record g st st' -> store u st = (u', Ok tt) -> store' v st' = (v', Ok tt) -> same u' v') ->
    forall n stop dt w w' st st' w1 w1' log log' e e', same w w' -> turned_state g st st' ->
    main_loop n ps store stop dt w st = ((w1, log), Some (Ok e)) -> main_loop n ps' store' stop dt w' st' = ((w1', log'), Some (Ok e')) ->
    Forall2 (turned_record g) log log' /\ turned_state g e e'.
  Proof.
    intros W W' same ps ps' store store' H1 H2 n stop dt w w' st st' w1 w1' log log' e e' Hw Hs Hx Hy.
    exact (proj2 (par_main_loop P P0 turn_any same _ _ _ _ H1 H2 n stop dt _ _ _ _ _ _ _ _ _ _ Hw Hs Hx Hy)).
  Qed.

  (** ** States that turn into themselves *)
  Lemma record_balanced : forall st, turned_record g st st -> balanced g st.
  Proof.
    intros st H name a Hin. unfold turned_record in H.
    assert (K : forall l l' : state Qc, Forall2 (fun x y => fst x = fst y /\ match snd x, snd y with VDA a, VDA b => turned_of g (fst x) a b | VTime s, VTime t => s = t | _, _ => False end) l l' -> l = l' -> In (name, VDA a) l -> turned_of g name a a).
    { induction 1 as [|x y l l' (H1 & H2) _ IH]; intros E Hi; [destruct Hi|]. injection E as -> ->. destruct Hi as [->|Hi]; [exact H2|]. apply IH; auto. }
    destruct (K st st H eq_refl Hin) as (_ & _ & _ & _ & Hr & Hv). split; [|exact Hv]. intros d n i E. exact (Hr d n n i E E).
  Qed.

  Lemma turned_to_record : forall st st', turned_state g st st' -> turned_record g st st'.
  Proof.
    intros st st' H. induction H as [|x y l l' (H1 & H2) _ IH]; constructor; [|exact IH]. split; [exact H1|].
    destruct (snd x), (snd y); cbn in H2; try exact H2; try contradiction. apply H2.
  Qed.

  Lemma balanced_start : forall st, fit_state g st -> balanced g st -> turned_state g st st.
  Proof.
    intros st Hp Hu. unfold turned_state. assert (K : forall l : state Qc, incl l st -> Forall2 (fun x y => fst x = fst y /\ match snd x, snd y with VDA a, VDA b => turned_named g (fst x) a b | VTime s, VTime t => s = t | _, _ => False end) l l).
    { induction l as [|[k v] l IH]; intro Hi; constructor; [|apply IH; intros x Hx; apply Hi; right; exact Hx]. split; [reflexivity|]. cbn [fst snd].
      assert (Hin : In (k, v) st) by (apply Hi; left; reflexivity). destruct v as [a|t]; [|reflexivity].
      destruct (Hp k a Hin) as (W & Hm). destruct (Hu k a Hin) as (Hr & Hv). split; [|exact Hm].
      split; [exact W|]. split; [exact W|]. split; [reflexivity|]. split; [reflexivity|]. split; [|exact Hv].
      intros d n m i E1 E2. rewrite E1 in E2. injection E2 as <-. apply Hr; exact E1. }
    apply K. apply incl_refl.
  Qed.

  Lemma balanced_end : forall (log : list (state Qc)) e, Forall2 (turned_record g) log log /\ turned_state g e e -> forall S, In S (log ++ [e]) -> balanced g S.
  Proof.
    intros log e (Hl & He) S Hin. apply record_balanced. apply in_app_or in Hin as [Hin|[<-|[]]]; [|apply turned_to_record; exact He].
    assert (K : forall l l' : list (state Qc), Forall2 (turned_record g) l l' -> l = l' -> In S l -> turned_record g S S).
    { induction 1 as [|x y l l' H1 _ IH]; intros E Hi; [destruct Hi|]. injection E as -> ->. destruct Hi as [->|Hi]; [exact H1|]. apply IH; auto. }
    exact (K log log Hl eq_refl Hin).
  Qed.

  Lemma balanced_loop : forall {W} ps (store : W -> state Qc -> W * res unit), Forall (fun p => turning_step g eq p p) ps ->
    (forall w w' st st', turned_record g st st' -> store w st = (w', Ok tt) -> store w st' = (w', Ok tt)) ->
    forall n stop dt w st w1 log e, fit_state g st -> balanced g st -> main_loop n ps store stop dt w st = ((w1, log), Some (Ok e)) ->
    forall S, In S (log ++ [e]) -> balanced g S.
  Proof.
    intros W ps store Hps Hst n stop dt w st w1 log e Hp Hu E. apply balanced_end.
    refine (turn_loop eq ps ps store store _ _ n stop dt w w st st w1 w1 log log e e eq_refl (balanced_start st Hp Hu) E E).
    - clear -Hps. induction Hps; constructor; auto.
    - intros u v s s' u' v' <- Hr E1 E2. rewrite (Hst _ _ _ _ Hr E1) in E2. congruence.
  Qed.

  Section Own.
    Context {U : Type} (p : icaller (T:=Qc) U) (Hl : turning g eq p p).

    Lemma balanced_ab_loop : forall {M} (mon : M -> state Qc -> M * res unit) cfg o a0 u, factors_fit g cfg -> new_ab (T:=Qc) o = Ok a0 ->
      forall n stop dt m st w log e, fit_state g st -> balanced g st ->
      main_loop n [beside (adams_bashforth cfg p)] (fun w st => let (m1, r) := mon (fst w) st in ((m1, snd w), r)) stop dt (m, (a0, u)) st = ((w, log), Some (Ok e)) ->
      forall S, In S (log ++ [e]) -> balanced g S.
    Proof.
      intros M mon cfg o a0 u Hf Ha n stop dt m st w log e Hp Hu E. apply balanced_end.
      exact (turn_ab_loop eq p p Hl mon mon cfg o a0 u u Hf Ha eq_refl n stop dt m m st st w w log log e e (balanced_start st Hp Hu) E E).
    Qed.

    Lemma balanced_rk_loop : forall {M} (mon : M -> state Qc -> M * res unit) cfg z k0 u, factors_fit g cfg -> new_rk (T:=Qc) z = Ok k0 ->
      forall n stop dt m st w log e, fit_state g st -> balanced g st ->
      main_loop n [beside (ssp_rk cfg p)] (fun w st => let (m1, r) := mon (fst w) st in ((m1, snd w), r)) stop dt (m, (k0, u)) st = ((w, log), Some (Ok e)) ->
      forall S, In S (log ++ [e]) -> balanced g S.
    Proof.
      intros M mon cfg z k0 u Hf Ha n stop dt m st w log e Hp Hu E. apply balanced_end.
      exact (turn_rk_loop eq p p Hl mon mon cfg z k0 u u Hf Ha eq_refl n stop dt m m st st w w log log e e (balanced_start st Hp Hu) E E).
    Qed.

    Lemma balanced_leap_loop : forall {W} qs (store : W -> state Qc -> W * res unit) cfg nu alpha, factors_fit g cfg -> Forall (fun q => turning_step g eq q q) qs ->
      (forall w w' st st', turned_record g st st' -> store w st = (w', Ok tt) -> store w st' = (w', Ok tt)) ->
      forall n stop dt u w st s1 w1 log e, fit_state g st -> balanced g st ->
      leap_main_loop n cfg p qs store stop dt (new_leap nu alpha, u) w st = ((s1, w1, log), Some (Ok e)) ->
      forall S, In S (log ++ [e]) -> balanced g S.
    Proof.
      intros W qs store cfg nu alpha Hf Hq Hst n stop dt u w st s1 w1 log e Hp Hu E. apply balanced_end.
      refine (turn_leap_loop eq p p Hl eq qs qs store store cfg nu alpha Hf _ _ n stop dt u u w w st st s1 s1 w1 w1 log log e e eq_refl eq_refl (balanced_start st Hp Hu) E E).
      - clear -Hq. induction Hq; constructor; auto.
      - intros u0 v s s' u' v' <- Hr E1 E2. rewrite (Hst _ _ _ _ Hr E1) in E2. congruence.
    Qed.
  End Own.
End Turn.
