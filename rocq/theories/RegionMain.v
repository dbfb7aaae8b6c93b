(** C98: time steppers, composites and main loops on part of a grid. *)
From Coq Require Import String List Bool Arith ZArith QArith Lia.
From Verif Require Import Prelude PreludeFacts ArithM NdArray Units DataArrayM SpecDa DaFacts Tracers Components Composite Steppers Basic MainLoop LeapLoop SpecRegion RegionFacts.
Import ListNotations.
Open Scope string_scope.
Open Scope nat_scope.
Open Scope list_scope.

Section Part.
  Context {T : Type} {A : Arith T} {R : Registry}.
  Context (g : cut).
  Notation P := (part_named g (T:=T)).

  Lemma part_attrs : forall k a b, P k a b -> attrs a = attrs b.
  Proof. intros k a b (_ & H & _). apply H. Qed.
  Lemma part_any : forall k a b, P k a b -> part_of g a b.
  Proof. intros k a b (_ & H & _). exact H. Qed.

  Lemma dim_len_in : forall (a : da T) d, wf_da a -> (In d (dims a) <-> dim_len a d <> None).
  Proof.
    intros a d H. rewrite (dim_len_In a d H). destruct (dim_len a d) as [n|]; split; intro X; [discriminate|eauto|destruct X; discriminate|contradiction].
  Qed.

  Lemma part_len : forall (a b : da T) d, part_of g a b -> (dim_len b d = None <-> dim_len a d = None \/ fixed g d <> None).
  Proof.
    intros a b d (H1 & H2 & _ & _ & H3 & _). specialize (H3 d). rewrite (dim_len_in a d H1), (dim_len_in b d H2) in H3. destruct H3 as (K1 & K2).
    destruct (dim_len b d) as [m|]; split; intro X.
    - discriminate X.
    - exfalso. destruct K1 as (X1 & X2); [discriminate|]. destruct X; contradiction.
    - destruct (dim_len a d) as [n|]; [|auto]. destruct (fixed g d) as [i|]; [right; discriminate|]. exfalso. apply K2; [split; [discriminate|reflexivity]|reflexivity].
    - reflexivity.
  Qed.

  Lemma part_grid : forall (a b : da T) p, part_of g a b -> in_grid b p -> in_grid a (spot g p).
  Proof.
    intros a b p H Hp d n E. assert (K := proj1 (part_len a b d H)). destruct H as (H1 & H2 & _ & _ & H3 & _ & H5 & H4 & _). unfold spot. destruct (fixed g d) as [i|] eqn:Ef.
    - exact (H5 d n i E Ef).
    - destruct (dim_len b d) as [m|] eqn:Em; [apply (H4 d n m E Em), Hp, Em|]. destruct (K eq_refl); [congruence|contradiction].
  Qed.

  Lemma part_map : forall k f at' a b, P k a b -> P k (da_map f at' a) (da_map f at' b).
  Proof.
    intros k f at' a b (Ht & H & Hm). split; [exact Ht|]. split; [|exact Hm]. assert (Hg := fun p => part_grid a b p H). destruct H as (H1 & H2 & H3 & H4 & H5 & H6 & H7 & H8 & H9).
    split; [apply wf_da_map; exact H1|]. split; [apply wf_da_map; exact H2|]. split; [exact H3|]. split; [reflexivity|]. split; [exact H5|]. split; [exact H6|]. split; [exact H7|]. split; [exact H8|].
    intros p Hp. change (in_grid b p) in Hp. rewrite !da_at_map; [f_equal; apply H9; exact Hp|exact H2|exact Hp|exact H1|apply Hg; exact Hp].
  Qed.

  Lemma part_with : forall k at' a b, P k a b -> P k (mkda (dims a) (arr a) at') (mkda (dims b) (arr b) at').
  Proof.
    intros k at' a b (Ht & (H1 & H2 & H3 & H4 & H5) & Hm). split; [exact Ht|]. split; [|exact Hm].
    split; [exact H1|]. split; [exact H2|]. split; [exact H3|]. split; [reflexivity|exact H5].
  Qed.

  Lemma part_bin : forall k op at' a b a' b', P k a b -> P k a' b' -> oks (P k) (da_binop op at' a a') (da_binop op at' b b').
  Proof.
    intros k op at' a b a' b' (Ht & H & Hm) (_ & G & Gm) r s Hr Hs. split; [exact Ht|].
    assert (Hl := fun d => part_len a b d H).
    destruct H as (H1 & H2 & H3 & H4 & H5 & H6 & H7 & H8 & H9). destruct G as (G1 & G2 & G3 & G4 & G5 & G6 & G7 & G8 & G9).
    destruct (da_binop_ok _ _ _ _ _ Hr H1 G1) as (R1 & R2 & R3 & R4 & R5 & R6). destruct (da_binop_ok _ _ _ _ _ Hs H2 G2) as (S1 & S2 & S3 & S4 & S5 & S6).
    assert (Ed : forall d, In d (dims s) <-> In d (dims r) /\ fixed g d = None).
    { intro d. rewrite R3, S3, !In_bin_dims, H5, G5. tauto. }
    split; [|intros d Hd; rewrite R3 in Hd; apply In_bin_dims in Hd as [Hd|Hd]; auto].
    assert (F : forall d n i, dim_len r d = Some n -> fixed g d = Some i -> i < n).
    { intros d n i. rewrite R5. destruct (dim_len a d) as [x|] eqn:Ea; [intros X; injection X as <-; apply H7; exact Ea|apply G7]. }
    assert (L : forall d n m, dim_len r d = Some n -> dim_len s d = Some m -> (forall i, i < m -> pick g d i < n) /\ (whole g d -> n = m)).
    { intros d n m X Y. assert (Ef : fixed g d = None) by (apply Ed, (dim_len_in s d S1); congruence). revert X Y. rewrite R5, S5. destruct (dim_len a d) as [x|] eqn:Ea.
      - destruct (dim_len b d) as [y|] eqn:Eb; [|destruct (proj1 (Hl d) Eb); congruence]. intros X Y. injection X as <-. injection Y as <-. eapply H8; eassumption.
      - rewrite (proj2 (Hl d) (or_introl Ea)). apply G8. }
    assert (Pr : forall p, in_grid s p -> in_grid r (spot g p)).
    { intros p Gs d n E. unfold spot. destruct (fixed g d) as [i|] eqn:Ef; [exact (F d n i E Ef)|]. destruct (dim_len s d) as [m|] eqn:Em; [apply (L d n m E Em), Gs, Em|].
      exfalso. assert (D : In d (dims s)) by (apply Ed; split; [apply (dim_len_in r d R1); congruence|exact Ef]). apply (dim_len_in s d S1) in D. congruence. }
    split; [exact R1|]. split; [exact S1|].
    split. { rewrite R3. intro X. apply In_bin_dims in X as [X|X]; auto. }
    split; [congruence|]. split; [exact Ed|].
    split. { intro O. rewrite R3, S3. unfold bin_dims. rewrite (H6 O), (G6 O). reflexivity. }
    split; [exact F|]. split; [exact L|].
    intros p Gs. destruct (S6 p Gs) as (Gb & Gb' & Vs). destruct (R6 _ (Pr p Gs)) as (_ & _ & Vr). rewrite Vr, Vs. f_equal; auto.
  Qed.
End Part.

Section Main.
  Context {T : Type} {A : Arith T} {R : Registry}.
  Context (g : cut).
  Notation P := (part_named g (T:=T)).
  Notation P0 := (fun _ : string => part_of g (T:=T)).

  Lemma part_units : forall k a b u, P k a b -> oks (P k) (to_units a u) (to_units b u).
  Proof.
    intros k a b u H. unfold to_units. rewrite <- (part_attrs g _ _ _ H). destruct (dget "units" (attrs a)) as [own|]; [|intros x y Hx; discriminate Hx].
    destruct (parseE own) as [u1|]; [|intros x y Hx; discriminate Hx]. destruct (parseE u) as [u2|]; [|intros x y Hx; discriminate Hx]. cbn.
    destruct (negb (one_eqb u1 u2)); [|apply oks_ok; exact H]. destruct (udim_eqb u1 u2); [|intros x y Hx; discriminate Hx]. apply oks_ok. apply part_map. exact H.
  Qed.

  Let P1 := part_any g (T:=T).
  Let Pa := part_attrs g (T:=T).
  Let Pu := part_units.
  Let Pm := fun k f at' a b (_ : by_scalar f) (_ : at' = [] \/ at' = attrs a) => part_map g (T:=T) k f at' a b.
  Let Pb := fun k op a b a' b' (_ : op = aadd \/ op = asub) => part_bin g (T:=T) k op (attrs a) a b a' b'.
  Let Pw := fun cfg : tstep => (fun _ k at' a b H => part_any g (T:=T) k _ _ (part_with g (T:=T) k at' a b H)) : named_rates P P0 cfg.

  Lemma region_composite : forall {U V} (same : U -> V -> Prop) (cs : list (icaller (T:=T) U + caller (T:=T) U)) (cs' : list (icaller (T:=T) V + caller (T:=T) V)),
    Forall2 (fun c c' => match c, c' with
                         | inl p, inl q => local g same p q
                         | inr p, inr q => local_call g same p q
                         | _, _ => False
                         end) cs cs' ->
    local g same (fun u st dt => implicit_composite_call cs dt u st) (fun v st dt => implicit_composite_call cs' dt v st).
  Proof.
    intros U V same cs cs' H u v st st' dt u' v' t d t' d' Hu Hs Hx Hy. unfold implicit_composite_call, tendency_composite_call in *.
    refine (par_composite P P0 Pa Pu Pb same _ _ _ _ _ _ _ _ _ _ _ _ _ _ _ Hu Hs _ _ Hx Hy); [|constructor|constructor].
    clear - H. induction H as [|c c' cs cs' Hc H IH]; cbn; constructor; [|exact IH].
    destruct c as [p|p], c' as [q|q]; try contradiction; [|exact Hc]. intros u v st st' dt' u' v' t d t' d'. apply Hc.
  Qed.

  Section Steps.
    Context {U V : Type} (same : U -> V -> Prop) (p : icaller (T:=T) U) (q : icaller (T:=T) V) (Hl : local g same p q).

    (** Any calls, with any states, of a new object. *)
    Lemma returned_param : forall {S S' X} (rel : S -> S' -> Prop) (Q : X -> X -> Prop) (call : S -> state T -> Z -> S * res X) (call' : S' -> state T -> Z -> S' * res X),
      (forall s s' st st' dt s1 s1' r r', rel s s' -> part_state g st st' -> call s st dt = (s1, Ok r) -> call' s' st' dt = (s1', Ok r') -> rel s1 s1' /\ Q r r') ->
      forall log log' s s', rel s s' -> returned call s log -> returned call' s' log' ->
      Forall2 (fun x y => part_state g (fst (fst x)) (fst (fst y)) /\ snd (fst x) = snd (fst y)) log log' ->
      Forall2 (fun x y => Q (snd x) (snd y)) log log'.
    Proof.
      intros S S' X rel Q call call' H log log' s s' Hs Hx Hy HF. revert s s' Hs Hx Hy.
      induction HF as [|[[st dt] r] [[st' dt'] r'] log log' (K1 & K2) HF IH]; intros s s' Hs Hx Hy; [constructor|]. cbn in *. subst dt'.
      destruct Hx as (s1 & E1 & Hx). destruct Hy as (s1' & E1' & Hy). destruct (H _ _ _ _ _ _ _ _ _ Hs K1 E1 E1') as (K3 & K4). constructor; [exact K4|eauto].
    Qed.

    Lemma ab_fresh : forall o a0 u v, new_ab (T:=T) o = Ok a0 -> same u v -> abs P same (a0, u) (a0, v).
    Proof.
      intros o a0 u v H Hu. unfold new_ab in H. destruct (check_order o); [|discriminate H]. injection H as <-. split; [reflexivity|]. split; [reflexivity|]. split; [constructor|exact Hu].
    Qed.

    Lemma region_ab : forall cfg o a0 u v log log', new_ab (T:=T) o = Ok a0 -> same u v ->
      returned (adams_bashforth cfg p) (a0, u) log -> returned (adams_bashforth cfg q) (a0, v) log' ->
      Forall2 (fun x y => part_state g (fst (fst x)) (fst (fst y)) /\ snd (fst x) = snd (fst y)) log log' ->
      Forall2 (fun x y => part_diags g (fst (snd x)) (fst (snd y)) /\ part_state g (snd (snd x)) (snd (snd y))) log log'.
    Proof.
      intros cfg o a0 u v log log' Ho Hu Hx Hy HF. exact (returned_param (abs P same) (stepping P P0) _ _ (par_adams_bashforth P P0 Pa Pu Pm Pb same p q Hl cfg (Pw cfg)) log log' _ _ (ab_fresh o a0 u v Ho Hu) Hx Hy HF).
    Qed.

    Lemma region_rk : forall cfg z k0 u v log log', new_rk (T:=T) z = Ok k0 -> same u v ->
      returned (ssp_rk cfg p) (k0, u) log -> returned (ssp_rk cfg q) (k0, v) log' ->
      Forall2 (fun x y => part_state g (fst (fst x)) (fst (fst y)) /\ snd (fst x) = snd (fst y)) log log' ->
      Forall2 (fun x y => part_diags g (fst (snd x)) (fst (snd y)) /\ part_state g (snd (snd x)) (snd (snd y))) log log'.
    Proof.
      intros cfg z k0 u v log log' Hz Hu Hx Hy HF. refine (returned_param (rks P same) (stepping P P0) _ _ (par_ssp_rk P P0 Pa Pu Pm Pb same p q Hl cfg (Pw cfg)) log log' _ _ _ Hx Hy HF).
      split; [reflexivity|]. cbn. assert (E : rk_euler k0 = mkab 1 None []). { unfold new_rk in Hz. destruct (Z.eqb z 2); [injection Hz as <-; reflexivity|]. destruct (Z.eqb z 3); [injection Hz as <-; reflexivity|discriminate Hz]. }
      rewrite E. split; [reflexivity|]. split; [reflexivity|]. split; [constructor|exact Hu].
    Qed.

    Lemma region_leap : forall cfg nu alpha u v log log', same u v ->
      returned (with_filtered cfg p) (new_leap nu alpha, u) log -> returned (with_filtered cfg q) (new_leap nu alpha, v) log' ->
      Forall2 (fun x y => part_state g (fst (fst x)) (fst (fst y)) /\ snd (fst x) = snd (fst y)) log log' ->
      Forall2 (fun x y => part_state g (fst (snd x)) (fst (snd y)) /\
        part_diags g (fst (snd (snd x))) (fst (snd (snd y))) /\ part_state g (snd (snd (snd x))) (snd (snd (snd y)))) log log'.
    Proof.
      intros cfg nu alpha u v log log' Hu Hx Hy HF.
      refine (returned_param (leaps P same) (fun r r' => part_state g (fst r) (fst r') /\ stepping P P0 (snd r) (snd r')) _ _ _ log log' _ _ _ Hx Hy HF).
      2: { split; [reflexivity|]. split; [reflexivity|]. split; [reflexivity|]. split; [exact I|exact Hu]. }
      intros s s' st st' dt s1 s1' r r' Hs Hst X Y. unfold with_filtered in *.
      destruct (leapfrog cfg p s st dt) as [[s2 z] [w|]] eqn:E; [|discriminate X]. destruct (leapfrog cfg q s' st' dt) as [[s2' z'] [w'|]] eqn:E'; [|discriminate Y].
      injection X as <- <-. injection Y as <- <-. exact (par_leapfrog P P0 Pa Pu Pm Pb same p q Hl cfg (Pw cfg) _ _ _ _ _ _ _ _ _ _ _ Hs Hst E E').
    Qed.

    (** The main loop with one of the steppers, and any monitors. *)
    Lemma region_ab_loop : forall {M N} (mon : M -> state T -> M * res unit) (mon' : N -> state T -> N * res unit) cfg o a0 u v, new_ab (T:=T) o = Ok a0 -> same u v ->
      forall n stop dt m m' st st' w w' log log' e e', part_state g st st' ->
      main_loop n [beside (adams_bashforth cfg p)] (fun w st => let (m1, r) := mon (fst w) st in ((m1, snd w), r)) stop dt (m, (a0, u)) st = ((w, log), Some (Ok e)) ->
      main_loop n [beside (adams_bashforth cfg q)] (fun w st => let (m1, r) := mon' (fst w) st in ((m1, snd w), r)) stop dt (m', (a0, v)) st' = ((w', log'), Some (Ok e')) ->
      Forall2 (part_record g) log log' /\ part_state g e e'.
    Proof.
      intros M N mon mon' cfg o a0 u v Ho Hu n stop dt m m' st st' w w' log log' e e' Hs Hx Hy.
      refine (proj2 (par_main_loop P P0 P1 (fun (x : M * (ab T * U)) (y : N * (ab T * V)) => abs P same (snd x) (snd y)) _ _ _ _ _ _ n stop dt _ _ _ _ _ _ _ _ _ _ _ Hs Hx Hy)).
      - constructor; [|constructor]. intros [m1 x] [m2 y] s s' dt' [m3 x'] [m4 y'] d k d' k' Hxy Hss X Y. unfold beside in X, Y. cbn [fst snd] in *.
        destruct (adams_bashforth cfg p x s dt') as [x1 r1] eqn:E1. destruct (adams_bashforth cfg q y s' dt') as [y1 r2] eqn:E2. injection X as <- <- ->. injection Y as <- <- ->.
        exact (par_adams_bashforth P P0 Pa Pu Pm Pb same p q Hl cfg (Pw cfg) _ _ _ _ _ _ _ _ _ Hxy Hss E1 E2).
      - intros [m1 x] [m2 y] s s' [m3 x'] [m4 y'] Hxy Hss X Y. cbn [fst snd] in *. destruct (mon m1 s). destruct (mon' m2 s'). injection X as <- <- _. injection Y as <- <- _. exact Hxy.
      - exact (ab_fresh o a0 u v Ho Hu).
    Qed.

    Lemma region_rk_loop : forall {M N} (mon : M -> state T -> M * res unit) (mon' : N -> state T -> N * res unit) cfg z k0 u v, new_rk (T:=T) z = Ok k0 -> same u v ->
      forall n stop dt m m' st st' w w' log log' e e', part_state g st st' ->
      main_loop n [beside (ssp_rk cfg p)] (fun w st => let (m1, r) := mon (fst w) st in ((m1, snd w), r)) stop dt (m, (k0, u)) st = ((w, log), Some (Ok e)) ->
      main_loop n [beside (ssp_rk cfg q)] (fun w st => let (m1, r) := mon' (fst w) st in ((m1, snd w), r)) stop dt (m', (k0, v)) st' = ((w', log'), Some (Ok e')) ->
      Forall2 (part_record g) log log' /\ part_state g e e'.
    Proof.
      intros M N mon mon' cfg z k0 u v Hz Hu n stop dt m m' st st' w w' log log' e e' Hs Hx Hy.
      refine (proj2 (par_main_loop P P0 P1 (fun (x : M * (rk T * U)) (y : N * (rk T * V)) => rks P same (snd x) (snd y)) _ _ _ _ _ _ n stop dt _ _ _ _ _ _ _ _ _ _ _ Hs Hx Hy)).
      - constructor; [|constructor]. intros [m1 x] [m2 y] s s' dt' [m3 x'] [m4 y'] d k d' k' Hxy Hss X Y. unfold beside in X, Y. cbn [fst snd] in *.
        destruct (ssp_rk cfg p x s dt') as [x1 r1] eqn:E1. destruct (ssp_rk cfg q y s' dt') as [y1 r2] eqn:E2. injection X as <- <- ->. injection Y as <- <- ->.
        exact (par_ssp_rk P P0 Pa Pu Pm Pb same p q Hl cfg (Pw cfg) _ _ _ _ _ _ _ _ _ Hxy Hss E1 E2).
      - intros [m1 x] [m2 y] s s' [m3 x'] [m4 y'] Hxy Hss X Y. cbn [fst snd] in *. destruct (mon m1 s). destruct (mon' m2 s'). injection X as <- <- _. injection Y as <- <- _. exact Hxy.
      - split; [reflexivity|]. cbn. assert (E : rk_euler k0 = mkab 1 None []). { unfold new_rk in Hz. destruct (Z.eqb z 2); [injection Hz as <-; reflexivity|]. destruct (Z.eqb z 3); [injection Hz as <-; reflexivity|discriminate Hz]. }
        rewrite E. split; [reflexivity|]. split; [reflexivity|]. split; [constructor|exact Hu].
    Qed.
  End Steps.

  (** The main loop with any processes and monitors. *)
  Lemma region_loop : forall {W W'} (same : W -> W' -> Prop) ps ps' (store : W -> state T -> W * res unit) (store' : W' -> state T -> W' * res unit),
    Forall2 (local_step g same) ps ps' ->
    (forall u v st st' u' v', same u v -> part_record g st st' -> store u st = (u', Ok tt) -> store' v st' = (v', Ok tt) -> same u' v') ->
    forall n stop dt w w' st st' w1 w1' log log' e e', same w w' -> part_state g st st' ->
    main_loop n ps store stop dt w st = ((w1, log), Some (Ok e)) -> main_loop n ps' store' stop dt w' st' = ((w1', log'), Some (Ok e')) ->
    Forall2 (part_record g) log log' /\ part_state g e e'.
  Proof.
    intros W W' same ps ps' store store' H1 H2 n stop dt w w' st st' w1 w1' log log' e e' Hw Hs Hx Hy.
    exact (proj2 (par_main_loop P P0 P1 same _ _ _ _ H1 H2 n stop dt _ _ _ _ _ _ _ _ _ _ Hw Hs Hx Hy)).
  Qed.

  (** The main loop with Leapfrog: the filtered states are stored. *)
  Lemma region_leap_loop : forall {U V W W'} (same : U -> V -> Prop) (rest : W -> W' -> Prop) (p : icaller (T:=T) U) (q : icaller (T:=T) V) qs qs'
      (store : W -> state T -> W * res unit) (store' : W' -> state T -> W' * res unit) cfg nu alpha,
    local g same p q -> Forall2 (local_step g rest) qs qs' ->
    (forall u v st st' u' v', rest u v -> part_record g st st' -> store u st = (u', Ok tt) -> store' v st' = (v', Ok tt) -> rest u' v') ->
    forall n stop dt u u' w w' st st' s1 s1' w1 w1' log log' e e', same u u' -> rest w w' -> part_state g st st' ->
    leap_main_loop n cfg p qs store stop dt (new_leap nu alpha, u) w st = ((s1, w1, log), Some (Ok e)) ->
    leap_main_loop n cfg q qs' store' stop dt (new_leap nu alpha, u') w' st' = ((s1', w1', log'), Some (Ok e')) ->
    Forall2 (part_record g) log log' /\ part_state g e e'.
  Proof.
    intros U V W W' same rest p q qs qs' store store' cfg nu alpha Hl Hq Hst n stop dt u u' w w' st st' s1 s1' w1 w1' log log' e e' Hu Hw Hs Hx Hy.
    assert (H0 : leaps P same (new_leap nu alpha, u) (new_leap nu alpha, u')) by (split; [reflexivity|]; split; [reflexivity|]; split; [reflexivity|]; split; [exact I|exact Hu]).
    revert H0 Hx Hy. generalize (new_leap nu alpha, u), (new_leap nu alpha, u'). intros s0 s0' H0 Hx Hy. clear Hu.
    revert w w' st st' log log' s0 s0' Hw Hs H0 Hx Hy. induction n as [|n IH]; intros w w' st st' log log' s0 s0' Hw Hs H0 Hx Hy; [discriminate Hx|].
    cbn [leap_main_loop] in Hx, Hy. assert (K := par_time P0 _ _ (ps0 P P0 P1 _ _ Hs)). destruct (state_time st) as [t|]; [|discriminate Hx]. destruct (state_time st') as [t'|]; [|discriminate Hy].
    specialize (K _ _ eq_refl eq_refl). subst t'. destruct (t <? stop)%Z.
    2: { injection Hx as <- <- <- <-. injection Hy as <- <- <- <-. split; [constructor|exact Hs]. }
    destruct (leapfrog cfg p s0 st dt) as [[s2 f2] [[d m]|]] eqn:E; [|discriminate Hx]. destruct (leapfrog cfg q s0' st' dt) as [[s2' f2'] [[d' m']|]] eqn:E'; [|discriminate Hy].
    destruct (par_leapfrog P P0 Pa Pu Pm Pb same p q Hl cfg (Pw cfg) _ _ _ _ _ _ _ _ _ _ _ H0 Hs E E') as (L1 & L2 & L3 & L4). cbn [fst snd] in L3, L4.
    destruct (run_processes qs w m dt) as [w2 [[ds nx]|]] eqn:Ef; [|discriminate Hx]. destruct (run_processes qs' w' m' dt) as [w2' [[ds' nx']|]] eqn:Eg; [|discriminate Hy].
    destruct (par_processes P P0 rest _ _ Hq _ _ _ _ _ _ _ _ _ _ _ Hw L4 Ef Eg) as (K1 & K2 & K3). cbv zeta in Hx, Hy.
    assert (K4 := par_update_all P0 _ _ (Forall2_cons _ _ L3 K2) _ _ (ps0 P P0 P1 _ _ L2)). set (x := update_all (d :: ds) f2) in *. set (x' := update_all (d' :: ds') f2') in *.
    destruct (store w2 x) as [w3 [[]|]] eqn:Es; [|discriminate Hx]. destruct (store' w2' x') as [w3' [[]|]] eqn:Es'; [|discriminate Hy].
    assert (K5 := Hst _ _ _ _ _ _ K1 K4 Es Es'). assert (K6 := par_time P0 _ _ K4). destruct (state_time x) as [t1|]; [|discriminate Hx]. destruct (state_time x') as [t1'|]; [|discriminate Hy].
    specialize (K6 _ _ eq_refl eq_refl). subst t1'.
    destruct (leap_main_loop n cfg p qs store stop dt s2 w3 (dset "time" (VTime (t1 + dt)) nx)) as [[[s3 v3] l] rr] eqn:El. destruct (leap_main_loop n cfg q qs' store' stop dt s2' w3' (dset "time" (VTime (t1 + dt)) nx')) as [[[s3' v3'] l'] rr'] eqn:El'.
    injection Hx as <- <- <- ->. injection Hy as <- <- <- ->.
    destruct (IH _ _ _ _ _ _ _ _ K5 (dicts_set (pv P) _ _ "time" (VTime (t1 + dt)) (VTime (t1 + dt)) K3 eq_refl) L1 El El') as (K8 & K9).
    split; [constructor; assumption|exact K9].
  Qed.
End Main.
