(** Consequences of the stepping formulas: orders, timesteps, failures, untouched
    quantities, descriptions, steady states and linear invariants. *)
From Coq Require Import String List Bool Arith ZArith QArith Qcanon Lia.
From Verif Require Import Prelude PreludeFacts ArithM NdArray NdFacts Units DataArrayM GetNp Components Composite Steppers
  SpecUnits UnitsFacts SpecDa DaFacts SpecComposite SpecSteppers SteppersFacts ABFacts RKFacts LeapFacts StepAlgebra.
Import ListNotations.
Open Scope string_scope.
Open Scope nat_scope.
Open Scope list_scope.

(** ** The order argument *)

Lemma check_order_ok : forall o n, check_order o = Ok n <-> 1 <= n <= 4 /\ is_order o n.
Proof.
  intros o n. unfold check_order, is_order.
  assert (G : forall z, (if (Z.leb 1 z && Z.leb z 4)%bool then Ok (Z.to_nat z) else Err EValue) = Ok n <-> 1 <= n <= 4 /\ z = Z.of_nat n).
  { intros z. destruct (Z.leb 1 z && Z.leb z 4)%bool eqn:E.
    - apply andb_true_iff in E as [E1 E2]. apply Z.leb_le in E1, E2. split; intros H; [injection H as <-; lia|f_equal; lia].
    - apply andb_false_iff in E. split; [discriminate|]. intros (H1 & ->). exfalso.
      destruct E as [E|E]; apply Z.leb_gt in E; lia. }
  destruct o as [z|q|]; cbn [bind].
  - apply G.
  - destruct (Z.eqb (Qnum (Qred q) mod Zpos (Qden (Qred q))) 0) eqn:E; cbn [bind].
    + apply Z.eqb_eq in E. rewrite G. assert (Hq : Qnum (Qred q) = (Zpos (Qden (Qred q)) * (Qnum (Qred q) / Zpos (Qden (Qred q))))%Z).
      { apply Z.div_exact; [lia|auto]. }
      set (z := (Qnum (Qred q) / Zpos (Qden (Qred q)))%Z) in *.
      assert (Hz : q == inject_Z z).
      { rewrite <- (Qred_correct q). unfold Qeq. simpl. rewrite Hq. ring. }
      split; intros (H1 & H2); split; auto.
      * rewrite Hz, H2. reflexivity.
      * rewrite Hz in H2. unfold Qeq in H2. simpl in H2. lia.
    + split; [discriminate|]. intros (_ & H). exfalso. apply Z.eqb_neq in E. apply E.
      assert (Hr : Qred q = inject_Z (Z.of_nat n)).
      { rewrite (Qred_complete _ _ H). unfold inject_Z, Qred.
        pose proof (Z.ggcd_gcd (Z.of_nat n) 1) as Hg. pose proof (Z.ggcd_correct_divisors (Z.of_nat n) 1) as Hd.
        destruct (Z.ggcd (Z.of_nat n) 1) as [g [a b]]. cbn [fst snd] in *. rewrite Z.gcd_1_r in Hg. subst g. destruct Hd as [Ha Hb].
        replace b with 1%Z by lia. replace a with (Z.of_nat n) by lia. reflexivity. }
      rewrite Hr. cbn [Qnum Qden inject_Z]. apply Z.mod_1_r.
  - split; [discriminate|tauto].
Qed.

Lemma new_ab_ok : forall {T} o (a : ab T), new_ab o = Ok a <-> exists n, 1 <= n <= 4 /\ is_order o n /\ a = mkab n None [].
Proof.
  intros T o a. unfold new_ab. split.
  - intros H. apply bind_ok in H as (n & Hn & H). injection H as <-. apply check_order_ok in Hn as (H1 & H2). eauto.
  - intros (n & H1 & H2 & ->). assert (Hn : check_order o = Ok n) by (apply check_order_ok; auto). rewrite Hn. reflexivity.
Qed.

Lemma new_rk_ok : forall {T} z (k : rk T), new_rk z = Ok k <-> exists n, (n = 2 \/ n = 3) /\ z = Z.of_nat n /\ k = mkrk n (mkab 1 None []).
Proof.
  intros T z k. unfold new_rk. destruct (Z.eqb z 2) eqn:E2; [|destruct (Z.eqb z 3) eqn:E3].
  - apply Z.eqb_eq in E2. split.
    + intros H. injection H as <-. exists 2. auto.
    + intros (n & [->| ->] & Hz & ->); [auto|]. subst z. discriminate.
  - apply Z.eqb_eq in E3. split.
    + intros H. injection H as <-. exists 3. auto.
    + intros (n & [->| ->] & Hz & ->); [|auto]. subst z. discriminate.
  - split; [discriminate|]. intros (n & [->| ->] & -> & _); discriminate.
Qed.

Section Any.
  Context {T : Type} {A : Arith T} {R : Registry}.

  (** ** Timesteps *)

  Lemma ab_dt_call : forall {U} cfg (prog : icaller U) a u (st : state T) dt a' u' r,
    adams_bashforth cfg prog (a, u) st dt = ((a', u'), r) ->
    match ab_dt a with
    | None => ab_dt a' = Some dt
    | Some d0 => ab_dt a' = Some d0 /\ (dt <> d0 -> a' = a /\ u' = u /\ r = Err EValue)
    end.
  Proof.
    intros U cfg prog a u st dt a' u' r H. unfold adams_bashforth, ab_call in H.
    destruct (ensure_timestep (ab_dt a) dt) as [[]|e] eqn:Et.
    - assert (G : ab_dt a' = Some dt).
      { destruct (prog u st dt) as [u1 [[tend0 pd]|e]]; cbn [bind fst snd] in H; [|injection H as <- <- _; auto].
        destruct (convert_tendencies st tend0) as [tend|e]; cbn [bind] in H; [|injection H as <- <- _; auto].
        destruct (perform_step (ab_order a) (ab_hist a ++ [tend]) st dt); injection H as <- <- _; auto. }
      apply ensure_timestep_ok in Et as [->| ->]; auto. split; auto. congruence.
    - destruct (ab_dt a) as [d0|] eqn:E; [|discriminate]. cbn [bind] in H. injection H as <- <- <-. split; auto.
      intros Hne. split; auto. split; auto. cbn. unfold ensure_timestep, raise_if in Et.
      destruct (negb (Z.eqb d0 dt)); [injection Et as <-; auto|discriminate].
  Qed.

  Lemma after_cons : forall {S U} (call : S * U -> state T -> Z -> (S * U) * res (stepped T)) c calls s,
    after call (c :: calls) s = after call calls (fst (call s (fst c) (snd c))).
  Proof. reflexivity. Qed.

  Lemma ab_dt_after : forall {U} cfg (prog : icaller U) calls a u a' u' d0, ab_dt a = Some d0 ->
    after (adams_bashforth cfg prog) calls (a, u) = (a', u') -> ab_dt a' = Some d0.
  Proof.
    intros U cfg prog calls. induction calls as [|[st dt] calls IH]; intros a u a' u' d0 Hd H.
    - injection H as <- <-. auto.
    - rewrite after_cons in H. cbn [fst snd] in H. destruct (adams_bashforth cfg prog (a, u) st dt) as [[a1 u1] r] eqn:E.
      cbn [fst] in H. eapply IH; [|eauto]. apply ab_dt_call in E. rewrite Hd in E. tauto.
  Qed.

  Lemma ab_refuses : forall {U} cfg (prog : icaller U) o a0 u0 st0 dt0 calls a u (st : state T) dt,
    new_ab o = Ok a0 -> after (adams_bashforth cfg prog) ((st0, dt0) :: calls) (a0, u0) = (a, u) -> dt <> dt0 ->
    adams_bashforth cfg prog (a, u) st dt = ((a, u), Err EValue).
  Proof.
    intros U cfg prog o a0 u0 st0 dt0 calls a u st dt Ha H Hne. apply new_ab_ok in Ha as (n & _ & _ & ->).
    rewrite after_cons in H. cbn [fst snd] in H.
    destruct (adams_bashforth cfg prog (mkab n None [], u0) st0 dt0) as [[a1 u1] r1] eqn:E. cbn [fst] in H.
    apply ab_dt_call in E. cbn [ab_dt] in E. apply (ab_dt_after _ _ _ _ _ _ _ _ E) in H.
    destruct (adams_bashforth cfg prog (a, u) st dt) as [[a2 u2] r2] eqn:E2. apply ab_dt_call in E2. rewrite H in E2.
    destruct E2 as (_ & E2). destruct (E2 Hne) as (-> & -> & ->). auto.
  Qed.

  Lemma leap_dt_call : forall {U} cfg (prog : icaller U) l u (st : state T) dt l' u' st' r,
    leapfrog cfg prog (l, u) st dt = ((l', u'), st', r) ->
    match lf_dt l with
    | None => lf_dt l' = Some dt
    | Some d0 => lf_dt l' = Some d0 /\ (dt <> d0 -> l' = l /\ u' = u /\ st' = st /\ r = Err EValue)
    end.
  Proof.
    intros U cfg prog l u st dt l' u' st' r H. unfold leapfrog, leap_call in H.
    destruct (ensure_timestep (lf_dt l) dt) as [[]|e] eqn:Et.
    - assert (G : lf_dt l' = Some dt).
      { destruct (prog u st dt) as [u1 [[tend0 pd]|e]]; cbn [bind fst snd] in H; [|injection H as <- <- _; auto].
        destruct (convert_tendencies st tend0) as [tend|e]; cbn [bind] in H; [|injection H as <- <- _; auto].
        destruct (match lf_old l with None => (st, step_forward_euler st tend dt) | Some old => _ end) as [st1 [new0|e]];
          injection H as <- <- _; auto. }
      apply ensure_timestep_ok in Et as [->| ->]; auto. split; auto. congruence.
    - destruct (lf_dt l) as [d0|] eqn:E; [|discriminate]. cbn [bind] in H. injection H as <- <- <- <-. split; auto.
      intros Hne. split; auto. split; auto. split; auto. cbn. unfold ensure_timestep, raise_if in Et.
      destruct (negb (Z.eqb d0 dt)); [injection Et as <-; auto|discriminate].
  Qed.

  Lemma leap_dt_after : forall {U} cfg (prog : icaller U) calls (l : leap T) u l' u' d0, lf_dt l = Some d0 ->
    lafter (leapfrog cfg prog) calls (l, u) = (l', u') -> lf_dt l' = Some d0.
  Proof.
    intros U cfg prog calls. induction calls as [|[st dt] calls IH]; intros l u l' u' d0 Hd H.
    - injection H as <- <-. auto.
    - unfold lafter in H. cbn [fold_left fst snd] in H. destruct (leapfrog cfg prog (l, u) st dt) as [[[l1 u1] st1] r] eqn:E.
      cbn [fst] in H. eapply IH; [|exact H]. apply leap_dt_call in E. rewrite Hd in E. tauto.
  Qed.

  Lemma leap_refuses : forall {U} cfg (prog : icaller U) nu alpha u0 st0 dt0 calls l u (st : state T) dt,
    lafter (leapfrog cfg prog) ((st0, dt0) :: calls) (new_leap nu alpha, u0) = (l, u) -> dt <> dt0 ->
    leapfrog cfg prog (l, u) st dt = ((l, u), st, Err EValue).
  Proof.
    intros U cfg prog nu alpha u0 st0 dt0 calls l u st dt H Hne. unfold lafter in H. cbn [fold_left fst snd] in H.
    destruct (leapfrog cfg prog (new_leap nu alpha, u0) st0 dt0) as [[[l1 u1] st1] r1] eqn:E. cbn [fst] in H.
    apply leap_dt_call in E. cbn [lf_dt new_leap] in E. apply (leap_dt_after cfg prog calls _ _ _ _ _ E) in H.
    destruct (leapfrog cfg prog (l, u) st dt) as [[[l2 u2] st2] r2] eqn:E2. apply leap_dt_call in E2. rewrite H in E2.
    destruct E2 as (_ & E2). destruct (E2 Hne) as (-> & -> & -> & ->). auto.
  Qed.

  Lemma ab_call_dt : forall {U} (prog : icaller U) a u (st : state T) dt a' u' r,
    ab_call prog (a, u) st dt = ((a', u'), r) ->
    match ab_dt a with
    | None => ab_dt a' = Some dt
    | Some d0 => ab_dt a' = Some d0 /\ (dt <> d0 -> a' = a /\ u' = u /\ r = Err EValue)
    end.
  Proof.
    intros U prog a u st dt a' u' r H.
    assert (H' : adams_bashforth (mktstep false "" [] [] []) prog (a, u) st dt = ((a', u'), finish_step (mktstep false "" [] [] []) dt st r)).
    { unfold adams_bashforth. rewrite H. auto. }
    apply ab_dt_call in H'. destruct (ab_dt a) as [d0|] eqn:E; auto. destruct H' as (H1 & H2). split; auto. intros Hne.
    destruct (H2 Hne) as (-> & -> & H3). split; auto. split; auto. unfold ab_call in H. rewrite E in H.
    unfold ensure_timestep, raise_if in H. assert (Ed : Z.eqb d0 dt = false) by (apply Z.eqb_neq; auto). rewrite Ed in H. cbn [negb] in H.
    injection H as <-. auto.
  Qed.

  Lemma inner_euler_dt : forall {U} (prog : icaller U) a u (st : state T) dt a' u' r,
    inner_euler prog (a, u) st dt = ((a', u'), r) ->
    match ab_dt a with
    | None => ab_dt a' = Some dt
    | Some d0 => ab_dt a' = Some d0 /\ (dt <> d0 -> a' = a /\ u' = u /\ r = Err EValue)
    end.
  Proof.
    intros U prog a u st dt a' u' r H. unfold inner_euler in H. destruct (ab_call prog (a, u) st dt) as [[a1 u1] r1] eqn:E.
    injection H as <- <- <-. apply ab_call_dt in E. destruct (ab_dt a); auto. destruct E as (E1 & E2). split; auto.
    intros Hne. destruct (E2 Hne) as (-> & -> & ->). auto.
  Qed.

  Lemma ssp_rk_dt : forall {U} cfg (prog : icaller U) k u (st : state T) dt k' u' r,
    ssp_rk cfg prog (k, u) st dt = ((k', u'), r) ->
    match ab_dt (rk_euler k) with
    | None => ab_dt (rk_euler k') = Some dt
    | Some d0 => ab_dt (rk_euler k') = Some d0 /\ (dt <> d0 -> k' = k /\ u' = u /\ r = Err EValue)
    end.
  Proof.
    intros U cfg prog k u st dt k' u' r H. unfold ssp_rk in H.
    destruct ((if Nat.eqb (rk_stages k) 2 then rk2 else rk3) prog (rk_euler k, u) st dt) as [[e u1] r1] eqn:E.
    injection H as <- <- <-. cbn [rk_euler].
    assert (G : match ab_dt (rk_euler k) with
                | None => ab_dt e = Some dt
                | Some d0 => ab_dt e = Some d0 /\ (dt <> d0 -> e = rk_euler k /\ u1 = u /\ r1 = Err EValue)
                end).
    { assert (Step : forall a v s a' v' x, inner_euler prog (a, v) s dt = ((a', v'), x) -> ab_dt a = Some dt -> ab_dt a' = Some dt).
      { intros a v s a' v' x Hx Hd. apply inner_euler_dt in Hx. rewrite Hd in Hx. tauto. }
      destruct (Nat.eqb (rk_stages k) 2); [unfold rk2 in E|unfold rk3 in E];
        destruct (inner_euler prog (rk_euler k, u) st dt) as [[e1 u2] [[dg1 st1]|x1]] eqn:E1; apply inner_euler_dt in E1.
      - assert (D1 : ab_dt e1 = Some dt /\ (forall d0, ab_dt (rk_euler k) = Some d0 -> d0 = dt)).
        { destruct (ab_dt (rk_euler k)) as [d0|]; [|split; auto; congruence]. destruct E1 as (E1 & E1').
          destruct (Z.eq_dec dt d0) as [<-|Hne]; [split; auto; congruence|]. destruct (E1' Hne) as (_ & _ & ?). discriminate. }
        destruct D1 as (D1 & D2).
        destruct (inner_euler prog (e1, u2) st1 dt) as [[e2 u3] r2] eqn:E2. apply Step in E2; auto. injection E as <- <- <-.
        destruct (ab_dt (rk_euler k)) as [d0|]; auto. rewrite (D2 d0 eq_refl). split; auto. congruence.
      - injection E as <- <- <-. destruct (ab_dt (rk_euler k)) as [d0|]; auto.
      - assert (D1 : ab_dt e1 = Some dt /\ (forall d0, ab_dt (rk_euler k) = Some d0 -> d0 = dt)).
        { destruct (ab_dt (rk_euler k)) as [d0|]; [|split; auto; congruence]. destruct E1 as (E1 & E1').
          destruct (Z.eq_dec dt d0) as [<-|Hne]; [split; auto; congruence|]. destruct (E1' Hne) as (_ & _ & ?). discriminate. }
        destruct D1 as (D1 & D2).
        destruct (inner_euler prog (e1, u2) st1 dt) as [[e2 u3] r2] eqn:E2. apply Step in E2; auto.
        assert (D3 : ab_dt e = Some dt).
        { match type of E with context [match ?m with Ok _ => _ | Err _ => _ end] => destruct m as [st2|x] end; [|injection E as <- <- <-; auto].
          destruct (inner_euler prog (e2, u3) st2 dt) as [[e3 u4] r3] eqn:E3. apply Step in E3; auto. injection E as <- <- <-. auto. }
        destruct (ab_dt (rk_euler k)) as [d0|]; auto. rewrite (D2 d0 eq_refl). split; auto. congruence.
      - injection E as <- <- <-. destruct (ab_dt (rk_euler k)) as [d0|]; auto. }
    destruct (ab_dt (rk_euler k)) as [d0|]; auto. destruct G as (G1 & G2). split; auto. intros Hne.
    destruct (G2 Hne) as (-> & -> & ->). destruct k; auto.
  Qed.

  Lemma rk_dt_after : forall {U} cfg (prog : icaller U) calls k u k' u' d0, ab_dt (rk_euler k) = Some d0 ->
    after (ssp_rk cfg prog) calls (k, u) = (k', u') -> ab_dt (rk_euler k') = Some d0.
  Proof.
    intros U cfg prog calls. induction calls as [|[st dt] calls IH]; intros k u k' u' d0 Hd H.
    - injection H as <- <-. auto.
    - rewrite after_cons in H. cbn [fst snd] in H. destruct (ssp_rk cfg prog (k, u) st dt) as [[k1 u1] r] eqn:E.
      cbn [fst] in H. eapply IH; [|eauto]. apply ssp_rk_dt in E. rewrite Hd in E. tauto.
  Qed.

  Lemma rk_refuses : forall {U} cfg (prog : icaller U) z k0 u0 st0 dt0 calls k u (st : state T) dt,
    new_rk z = Ok k0 -> after (ssp_rk cfg prog) ((st0, dt0) :: calls) (k0, u0) = (k, u) -> dt <> dt0 ->
    ssp_rk cfg prog (k, u) st dt = ((k, u), Err EValue).
  Proof.
    intros U cfg prog z k0 u0 st0 dt0 calls k u st dt Ha H Hne. apply new_rk_ok in Ha as (n & _ & _ & ->).
    rewrite after_cons in H. cbn [fst snd] in H.
    destruct (ssp_rk cfg prog (mkrk n (mkab 1 None []), u0) st0 dt0) as [[k1 u1] r1] eqn:E. cbn [fst] in H.
    apply ssp_rk_dt in E. cbn [ab_dt rk_euler] in E. apply (rk_dt_after _ _ _ _ _ _ _ _ E) in H.
    destruct (ssp_rk cfg prog (k, u) st dt) as [[k2 u2] r2] eqn:E2. apply ssp_rk_dt in E2. rewrite H in E2.
    destruct E2 as (_ & E2). destruct (E2 Hne) as (-> & -> & ->). auto.
  Qed.

  (** ** Memory *)

  Lemma ab_memory : forall {U} cfg (prog : icaller U) dt o (a0 : ab T) u log a u', new_ab o = Ok a0 ->
    history (adams_bashforth cfg prog) prog dt (a0, u) log (a, u') -> length (ab_hist a) = Nat.min (ab_order a0 - 1) (length log).
  Proof.
    intros U cfg prog dt o a0 u log a u' Ho H. apply new_ab_ok in Ho as (n & Hn & _ & ->). cbn [ab_order].
    apply ab_inv in H as (_ & _ & hs & F & E); [|lia]. rewrite <- (rev_length (ab_hist a)), E, firstn_length, rev_length.
    rewrite (Forall2_len _ _ _ F). lia.
  Qed.

  (** Once a failed step has overfilled the memory, no call trims it again. *)
  Lemma ab_growth : forall {U} cfg (prog : icaller U) a u (st : state T) dt s' r,
    adams_bashforth cfg prog (a, u) st dt = (s', Ok r) -> ab_order a <= length (ab_hist a) ->
    length (ab_hist (fst s')) = S (length (ab_hist a)).
  Proof.
    intros U cfg prog a u st dt [a' u'] [diag new] H Hl. apply adams_bashforth_ok in H as (d0 & H & _).
    apply ab_call_ok in H as (t0 & t & n0 & _ & _ & _ & _ & _ & ->). cbn [fst ab_hist].
    rewrite app_length. cbn [length]. replace (Nat.eqb (length (ab_hist a) + 1) (ab_order a)) with false.
    - rewrite app_length. cbn [length]. lia.
    - symmetry. apply Nat.eqb_neq. lia.
  Qed.

  (** Failures before the step: only the timestep is remembered. *)
  Lemma ab_early_failure : forall {U} cfg (prog : icaller U) a u (st : state T) dt u1 r, prog u st dt = (u1, r) ->
    (ab_dt a = None \/ ab_dt a = Some dt) ->
    match r with
    | Err _ => True
    | Ok (tend, _) => exists X t, In (X, t) tend /\ ~ has_rate st X t
    end ->
    exists e, adams_bashforth cfg prog (a, u) st dt = ((mkab (ab_order a) (Some dt) (ab_hist a), u1), Err e).
  Proof.
    intros U cfg prog a u st dt u1 r Hp Hd Hf. unfold adams_bashforth, ab_call.
    rewrite (proj2 (ensure_timestep_ok (ab_dt a) dt) Hd), Hp. destruct r as [[tend pd]|e]; cbn [bind fst snd].
    - destruct (convert_tendencies st tend) as [tc|e] eqn:Ec; cbn [bind]; [|eexists; reflexivity].
      exfalso. destruct Hf as (X & t & Hin & Hn). apply Hn. clear - Ec Hin. unfold convert_tendencies in Ec.
      revert tc Ec. induction tend as [|[k v] tend IH]; intros tc Ec; [destruct Hin|]. cbn [mapM] in Ec.
      apply bind_ok in Ec as ([k' w] & Hk & Ec). apply bind_ok in Ec as (tc' & Ht & _).
      destruct Hin as [Hin|Hin]; [|eauto]. injection Hin as -> ->. eapply (conv_has_rate st X t w). unfold conv. rewrite Hk. f_equal. f_equal.
      unfold convert_one in Hk. destruct (dget "units" (attrs t)); [|congruence]. apply bind_ok in Hk as ([x|z] & _ & Hk); [|discriminate].
      destruct (dget "units" (attrs x)); [|discriminate]. apply bind_ok in Hk as (? & _ & Hk). congruence.
    - eexists; reflexivity.
  Qed.

  (** ** What the new state says about each quantity *)

  (** Every quantity of the new state is the old one or extends it. *)
  Lemma ab_described : forall {U} cfg (prog : icaller U) dt n u log s, 1 <= n ->
    history (adams_bashforth cfg prog) prog dt (mkab n None [], u) log s -> wf_log log ->
    forall pre e post, log = pre ++ e :: post -> forall X,
    dget X (e_new e) = dget X (e_st e) \/
    exists x ts r, dget X (e_st e) = Some (VDA x) /\ dget X (e_new e) = Some (VDA r) /\ extends x ts r /\
      forall t, In t ts -> exists e' t0, In e' (pre ++ [e]) /\ dget X (e_tend e') = Some t0 /\ dims t = dims t0.
  Proof.
    intros U cfg prog dt n u log s Hn H Hw pre e post E X.
    destruct (ab_entry cfg prog dt n u log s Hn H pre e post E) as (hist & new0 & hs & F & Hrev & Hlen & Hs & Hnew).
    apply perform_step_ok in Hs as (d & l & Eh & Hk & Hk'); [|lia].
    set (k := Nat.min n (S (length pre))) in *. set (es := latest k pre e) in *.
    assert (Hin : forall e', In e' es -> In e' (pre ++ [e])).
    { intros e' He. unfold es, latest in He. assert (He2 : In e' (e :: rev pre)).
      { rewrite <- (firstn_skipn k). apply in_or_app; auto. }
      apply in_or_app. destruct He2 as [->|He2]; [right; left; auto|left; apply in_rev; auto]. }
    assert (Hlog : forall e', In e' (pre ++ [e]) -> In e' log).
    { intros e' He. subst log. apply in_app_or in He as [He|[<-|[]]]; apply in_or_app; [left|right; left]; auto. }
    destruct (In_dec_str X (keys d)) as [Hd|Hd].
    2: { left. rewrite Hnew, copy_untouched_get, (Hk' X Hd). auto. }
    right. destruct (Hk X Hd) as (r & Hr & Hg).
    assert (Hce : forall d0, In d0 hist -> exists e', In e' es /\ convert_tendencies (e_st e') (e_tend e') = Ok d0).
    { intros d0 Hd0. assert (In d0 hs) by (rewrite <- Hrev, <- in_rev; auto).
      clear - F H0. induction F; simpl in *; [contradiction|]. destruct H0 as [->|H0]; eauto.
      destruct IHF as (e' & ? & ?); eauto. }
    assert (Hcx : forall d0 t, In d0 hist -> dget X d0 = Some t -> exists e' t0, In e' es /\ dget X (e_tend e') = Some t0 /\ dims t = dims t0 /\ wf_da t).
    { intros d0 t Hd0 Hgt. destruct (Hce d0 Hd0) as (e' & He' & Hc). apply convert_ok in Hc as (_ & Hc). specialize (Hc X).
      destruct (dget X (e_tend e')) as [t0|] eqn:Et; [|congruence]. destruct Hc as (t' & Hc & Hc').
      rewrite Hgt in Hc'. injection Hc' as <-. apply conv_spec in Hc as (W & D & _).
      - exists e', t0. auto.
      - eapply (proj2 (Hw e' (Hlog _ (Hin _ He')))); eauto. }
    apply ab_one_ok in Hr as (x & ts & Hx & (Fp & Lp) & Hext & _).
    - exists x, ts, r. split; auto. split. { rewrite Hnew, copy_untouched_get, Hg; auto. } split; auto.
      intros t Ht. assert (G : exists d0, In d0 (firstn (length hist) (rev hist)) /\ dget X d0 = Some t).
      { clear - Fp Ht. induction Fp; simpl in *; [contradiction|]. destruct Ht as [->|Ht]; eauto. destruct IHFp as (d0 & ? & ?); eauto. }
      destruct G as (d0 & Hd0 & Hgd).
      assert (Hdh : In d0 hist) by (apply in_rev; rewrite <- (firstn_skipn (length hist)); apply in_or_app; auto).
      destruct (Hcx d0 t Hdh Hgd) as (e' & t0 & He' & Hg' & D & _). exists e', t0. auto.
    - intros x Hx. assert (In e log) by (subst log; apply in_or_app; right; left; auto). destruct (Hw e H0) as [[_ Hps] _]. eauto.
    - intros d0 t Hd0 Hgt. destruct (Hcx d0 t Hd0 Hgt) as (? & ? & _ & _ & _ & ?); auto.
  Qed.

  Lemma extends_same_dims : forall (x r : da T) ts, extends x ts r -> wf_da x -> (forall t d, In t ts -> In d (dims t) -> In d (dims x)) ->
    (forall t, In t ts -> wf_da t) -> dims r = dims x /\ forall d, dim_len r d = dim_len x d.
  Proof.
    intros x r ts (W & At & (extra & D) & L) Wx Hi Wt.
    assert (Hl : forall d, dim_len r d = dim_len x d).
    { intros d. rewrite L. cbn [first_len]. destruct (dim_len x d) eqn:E; auto.
      clear L. induction ts as [|t ts IH]; cbn [first_len]; auto. destruct (dim_len t d) eqn:Et.
      - assert (Hd : In d (dims t)) by (apply dim_len_In; eauto; apply Wt; left; auto). apply Hi in Hd; [|left; auto].
        apply dim_len_In in Hd as (m & Hm); auto. congruence.
      - apply IH; [intros; eapply Hi; [right; eauto|auto]|intros; apply Wt; right; auto]. }
    split; auto. rewrite D. destruct extra as [|d extra]; [apply app_nil_r|]. exfalso.
    assert (Hd : In d (dims r)) by (rewrite D; apply in_or_app; right; left; auto).
    apply (dim_len_In r d W) in Hd as (m & Hm). rewrite Hl in Hm. assert (Hx : In d (dims x)) by (apply dim_len_In; eauto).
    destruct W as (_ & Hnd & _). rewrite D in Hnd. clear - Hnd Hx. induction (dims x) as [|a l IH]; [destruct Hx|].
    inversion Hnd; subst. destruct Hx as [->|Hx]; [|apply IH; auto]. apply H1. apply in_or_app. right; left; auto.
  Qed.
End Any.
