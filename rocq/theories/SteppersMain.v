(** Main lemmas about the time steppers, in the form of the property theorems. *)
From Coq Require Import String List Bool Arith ZArith QArith Qcanon Lia.
From Verif Require Import Prelude PreludeFacts ArithM NdArray NdFacts Units DataArrayM GetNp SpecUnits UnitsFacts SpecDa DaFacts
  Components Composite SpecComposite Steppers SpecSteppers SteppersFacts ABFacts RKFacts LeapFacts StepAlgebra
  StepRuns StepExact StepSteady StepUnits StepDiag.
Import ListNotations.
Open Scope string_scope.
Open Scope nat_scope.
Open Scope list_scope.

Lemma is_order_fun : forall o n m, is_order o n -> is_order o m -> n = m.
Proof.
  intros [z|q|] n m; cbn [is_order]; intros H1 H2; [lia| |destruct H1].
  rewrite H1 in H2. unfold Qeq in H2. cbn in H2. lia.
Qed.

Lemma order_made : forall {T} o n (a : ab T), new_ab o = Ok a -> is_order o n -> 1 <= n <= 4 /\ a = mkab n None [].
Proof.
  intros T o n a H Ho. apply new_ab_ok in H as (m & Hm & Hom & ->). rewrite (is_order_fun _ _ _ Ho Hom). auto.
Qed.

Section Any.
  Context {T : Type} {A : Arith T} {R : Registry}.

  Lemma main_ab_formula : forall {U} cfg (prog : icaller (T:=T) U) dt o n a u log s, new_ab o = Ok a -> is_order o n ->
    history (adams_bashforth cfg prog) prog dt (a, u) log s -> wf_log log ->
    forall pre e post, log = pre ++ e :: post -> let es := latest (Nat.min n (S (length pre))) pre e in
    forall X, (forall e', In e' es -> In X (keys (e_tend e'))) ->
    exists x ts r, dget X (e_st e) = Some (VDA x) /\ dget X (e_new e) = Some (VDA r) /\
      tendencies_of es X ts /\ extends x ts r /\
      forall c, in_grid r c -> in_grid x c /\ exists ys, rates_of es X c ys /\
        da_at r c = ab_formula (aofQ (dt # 1000000)) (da_at x c) ys.
  Proof.
    intros U cfg prog dt o n a u log s Ha Ho Hh Hw pre e post E es X Hk.
    destruct (order_made _ _ _ Ha Ho) as [Hn ->]. exact (ab_formula_lemma cfg prog dt n u log s (proj1 Hn) Hh Hw pre e post E X Hk).
  Qed.

  Lemma main_ab_untouched : forall {U} cfg (prog : icaller (T:=T) U) dt o n a u log s, new_ab o = Ok a -> is_order o n ->
    history (adams_bashforth cfg prog) prog dt (a, u) log s ->
    forall pre e post, log = pre ++ e :: post -> forall X,
    (forall e', In e' (latest (Nat.min n (S (length pre))) pre e) -> ~ In X (keys (e_tend e'))) ->
    dget X (e_new e) = dget X (e_st e).
  Proof.
    intros U cfg prog dt o n a u log s Ha Ho Hh pre e post E X Hk.
    destruct (order_made _ _ _ Ha Ho) as [Hn ->]. exact (ab_untouched cfg prog dt n u log s (proj1 Hn) Hh pre e post E X Hk).
  Qed.

  Lemma main_ab_returns : forall {U} cfg (prog : icaller (T:=T) U) dt o n a u log a1 u1, new_ab o = Ok a -> is_order o n ->
    ts_tid cfg = false -> history (adams_bashforth cfg prog) prog dt (a, u) log (a1, u1) -> wf_log log ->
    forall st u2 tend pdiag, proper_state st -> proper tend -> prog u1 st dt = (u2, Ok (tend, pdiag)) ->
    can_step st tend (map e_tend (firstn (n - 1) (rev log))) ->
    exists a' new, adams_bashforth cfg prog (a1, u1) st dt = ((a', u2), Ok (pdiag, new)).
  Proof.
    intros U cfg prog dt o n a u log a1 u1 Ha Ho Ht Hh Hw. destruct (order_made _ _ _ Ha Ho) as [Hn ->].
    exact (ab_returns cfg prog dt n u log a1 u1 Hn Ht Hh Hw).
  Qed.

  Lemma main_ab_described : forall {U} cfg (prog : icaller (T:=T) U) dt o a u log s, new_ab o = Ok a ->
    history (adams_bashforth cfg prog) prog dt (a, u) log s -> wf_log log ->
    forall pre e post, log = pre ++ e :: post -> forall X,
    dget X (e_new e) = dget X (e_st e) \/
    exists x ts r, dget X (e_st e) = Some (VDA x) /\ dget X (e_new e) = Some (VDA r) /\ extends x ts r /\
      forall t, In t ts -> exists e' t0, In e' (pre ++ [e]) /\ dget X (e_tend e') = Some t0 /\ dims t = dims t0.
  Proof.
    intros U cfg prog dt o a u log s Ha Hh Hw pre e post E X. apply new_ab_ok in Ha as (n & Hn & _ & ->).
    exact (ab_described cfg prog dt n u log s (proj1 Hn) Hh Hw pre e post E X).
  Qed.

  Lemma main_ab_diagnostics : forall {U} cfg (prog : icaller (T:=T) U) dt o a u log s, new_ab o = Ok a ->
    history (adams_bashforth cfg prog) prog dt (a, u) log s -> wf_log log -> NoDup (keys (ts_out cfg)) ->
    forall pre e post, log = pre ++ e :: post -> exists u1 u2 pdiag,
      prog u1 (e_st e) dt = (u2, Ok (e_tend e, pdiag)) /\
      if ts_tid cfg then with_differences cfg dt (e_st e) (e_new e) pdiag (e_diag e) else e_diag e = pdiag.
  Proof.
    intros U cfg prog dt o a u log s Ha Hh Hw Hd pre e post E. apply new_ab_ok in Ha as (n & Hn & _ & ->).
    exact (ab_diagnostics cfg prog dt n u log s (proj1 Hn) Hh Hw Hd pre e post E).
  Qed.

  (** ** Leapfrog *)

  Lemma main_leap_untouched : forall {U} cfg (prog : icaller (T:=T) U) dt nu alpha u log s,
    lhistory cfg prog dt (new_leap nu alpha, u) log s -> wf_llog log ->
    forall e X, In e log -> ~ In X (keys (l_tend e)) ->
    dget X (l_after e) = dget X (l_st e) /\ dget X (l_new e) = dget X (l_st e).
  Proof.
    intros U cfg prog dt nu alpha u log s Hh Hw e X He Hn.
    destruct (leap_formula_lemma cfg prog dt nu alpha u log s Hh Hw) as [H1 H2].
    apply in_split in He as (pre & post & E). destruct pre as [|p pre _] using rev_ind.
    - destruct (H1 e post E) as [-> [Hs _]]. auto.
    - rewrite <- app_assoc in E. destruct (H2 pre p e post E) as [Hs1 [Hs2 _]]. auto.
  Qed.

  Lemma main_leap_described : forall {U} cfg (prog : icaller (T:=T) U) dt nu alpha u log s,
    lhistory cfg prog dt (new_leap nu alpha, u) log s -> wf_llog log ->
    (forall e post X t, log = e :: post -> dget X (l_tend e) = Some t -> exists x r,
       dget X (l_st e) = Some (VDA x) /\ dget X (l_after e) = Some (VDA x) /\ dget X (l_new e) = Some (VDA r) /\ extends x [t] r) /\
    (forall pre p e post X t, log = pre ++ p :: e :: post -> dget X (l_tend e) = Some t -> exists o x x' r,
       dget X (l_after p) = Some (VDA o) /\ dget X (l_st e) = Some (VDA x) /\ dget X (l_after e) = Some (VDA x') /\
       dget X (l_new e) = Some (VDA r) /\ extends x [] x' /\ extends o [t] r).
  Proof.
    intros U cfg prog dt nu alpha u log s Hh Hw.
    destruct (leap_formula_lemma cfg prog dt nu alpha u log s Hh Hw) as [H1 H2]. split.
    - intros e post X t E Ht. destruct (H1 e post E) as [-> [_ He]]. destruct (He X t Ht) as (x & r & Ex & Er & Hx & _).
      exists x, r. auto.
    - intros pre p e post X t E Ht. destruct (H2 pre p e post E) as [_ [_ He]].
      destruct (He X t Ht) as (o & x & x' & r & Eo & Ex & Ex' & Er & X1 & X2 & _). exists o, x, x', r. auto 10.
  Qed.

  (** ** Runge-Kutta *)

  Lemma main_rk3 : forall {U} cfg (prog : icaller (T:=T) U) k0 u0 calls k u st dt s' diag new,
    new_rk 3 = Ok k0 -> after (ssp_rk cfg prog) calls (k0, u0) = (k, u) ->
    proper_components prog -> proper_state st -> ssp_rk cfg prog (k, u) st dt = (s', Ok (diag, new)) ->
    exists u1 u2 u3 tend1 tend2 tend3 diag1 diag2 diag3 st1 st15 st2 st25,
      prog u st dt = (u1, Ok (tend1, diag1)) /\ euler_step dt st tend1 st1 /\
      prog u1 st1 dt = (u2, Ok (tend2, diag2)) /\ euler_step dt st1 tend2 st15 /\
      combination (fun x y => aadd (amul (aofQ (3 # 4)) x) (amul (aofQ (1 # 4)) y)) st st15 st2 /\
      prog u2 st2 dt = (u3, Ok (tend3, diag3)) /\ euler_step dt st2 tend3 st25 /\
      combination (fun x y => aadd (amul (aofQ (1 # 3)) x) (amul (aofQ (2 # 3)) y)) st st25 new /\ snd s' = u3.
  Proof.
    intros U cfg prog k0 u0 calls k u st dt s' diag new Hk Ha Hp Hst H.
    destruct (rk_reachable cfg prog 3 k0 u0 calls k u Hk Ha) as (Ho & Hz & _).
    destruct k as [n e]. cbn [rk_euler rk_stages] in *. assert (n = 3) by lia. subst n.
    destruct (rk3_ok cfg prog e u st dt s' diag new Ho Hp Hst H)
      as (u1 & u2 & u3 & t1 & t2 & t3 & d1 & d2 & d3 & st1 & st15 & st2 & st25 & H1 & H2 & H3 & H4 & H5 & H6 & H7 & H8 & _ & H9 & _).
    exists u1, u2, u3, t1, t2, t3, d1, d2, d3, st1, st15, st2, st25.
    repeat match goal with |- _ /\ _ => split end; assumption.
  Qed.

  Lemma main_rk2 : forall {U} cfg (prog : icaller (T:=T) U) k0 u0 calls k u st dt s' diag new,
    new_rk 2 = Ok k0 -> after (ssp_rk cfg prog) calls (k0, u0) = (k, u) ->
    proper_components prog -> proper_state st -> ssp_rk cfg prog (k, u) st dt = (s', Ok (diag, new)) ->
    exists u1 u2 tend1 tend2 diag1 diag2 st1 st2,
      prog u st dt = (u1, Ok (tend1, diag1)) /\ euler_step dt st tend1 st1 /\
      prog u1 st1 dt = (u2, Ok (tend2, diag2)) /\ euler_step dt st1 tend2 st2 /\
      combination (fun x y => amul (aofQ (1 # 2)) (aadd x y)) st st2 new /\ snd s' = u2.
  Proof.
    intros U cfg prog k0 u0 calls k u st dt s' diag new Hk Ha Hp Hst H.
    destruct (rk_reachable cfg prog 2 k0 u0 calls k u Hk Ha) as (Ho & Hz & _).
    destruct k as [n e]. cbn [rk_euler rk_stages] in *. assert (n = 2) by lia. subst n.
    destruct (rk2_ok cfg prog e u st dt s' diag new Ho Hp Hst H)
      as (u1 & u2 & t1 & t2 & d1 & d2 & st1 & st2 & H1 & H2 & H3 & H4 & H5 & _ & H9 & _).
    exists u1, u2, t1, t2, d1, d2, st1, st2.
    repeat match goal with |- _ /\ _ => split end; assumption.
  Qed.

  (** Dims of a quantity that come from the state or from a tendency of it. *)
  Lemma extends_dims : forall (x r : da T) ts d, wf_da x -> Forall wf_da ts -> extends x ts r -> In d (dims r) ->
    In d (dims x) \/ exists t, In t ts /\ In d (dims t).
  Proof.
    intros x r ts d Wx Wt (Wr & _ & _ & Hl) Hd. apply (dim_len_In r d Wr) in Hd as [n Hn]. rewrite Hl in Hn.
    cbn [first_len] in Hn. destruct (dim_len x d) as [m|] eqn:E; [left; apply dim_len_In; eauto|]. right.
    clear - Wt Hn. induction Wt as [|t ts W Wt IH]; [discriminate|]. cbn [first_len] in Hn.
    destruct (dim_len t d) as [m|] eqn:E; [exists t; split; [simpl; auto|apply dim_len_In; eauto]|].
    destruct (IH Hn) as (t' & Hi & Hd). exists t'. simpl; auto.
  Qed.

  Lemma euler_dims : forall dt (st : state T) tend st' X x r d, proper_state st -> proper tend -> euler_step dt st tend st' ->
    dget X st = Some (VDA x) -> dget X st' = Some (VDA r) -> In d (dims r) ->
    In d (dims x) \/ exists t, dget X tend = Some t /\ In d (dims t).
  Proof.
    intros dt st tend st' X x r d [_ Wst] [_ Wt] [Hs He] Ex Er Hd. destruct (dget X tend) as [t|] eqn:Et.
    - destruct (He X t Et) as (x' & r' & Ex' & Er' & Hx & _). rewrite Ex in Ex'. injection Ex' as <-. rewrite Er in Er'. injection Er' as <-.
      destruct (extends_dims x r [t] d) as [H|(t' & [<-|[]] & H)]; eauto. 
    - apply dget_none in Et. rewrite (Hs X Et) in Er. left. congruence.
  Qed.

  Lemma combination_dims : forall f (st st' out : state T) X x r d, proper_state st -> proper_state st' -> combination f st st' out -> X <> "time" ->
    dget X st = Some (VDA x) -> dget X out = Some (VDA r) -> exists x', dget X st' = Some (VDA x') /\ extends x [x'] r /\
    (In d (dims r) -> In d (dims x) \/ In d (dims x')).
  Proof.
    intros f st st' out X x r d [_ Wst] [_ Wst'] [_ Hc] Hne Ex Er. specialize (Hc X Hne). rewrite Ex in Hc.
    destruct Hc as (x' & r' & Ex' & Er' & Hx & _). rewrite Er in Er'. injection Er' as <-. exists x'. split; auto. split; auto.
    intros Hd. destruct (extends_dims x r [x'] d) as [H|(t' & [<-|[]] & H)]; eauto.
  Qed.

  Lemma combination_some : forall f (st st' out : state T) X x, combination f st st' out -> X <> "time" ->
    dget X st = Some (VDA x) -> exists r, dget X out = Some (VDA r).
  Proof. intros f st st' out X x [_ Hc] Hne Ex. specialize (Hc X Hne). rewrite Ex in Hc. destruct Hc as (x' & r & _ & Er & _). eauto. Qed.

  Lemma euler_some : forall dt (st : state T) tend st' X x, euler_step dt st tend st' -> dget X st = Some (VDA x) -> exists r, dget X st' = Some (VDA r).
  Proof.
    intros dt st tend st' X x [Hs He] Ex. destruct (dget X tend) as [t|] eqn:Et.
    - destruct (He X t Et) as (x' & r' & _ & Er' & _). eauto.
    - apply dget_none in Et. rewrite (Hs X Et). eauto.
  Qed.

  Lemma main_rk_described : forall {U} cfg (prog : icaller (T:=T) U) z k0 u0 calls k u st dt s' diag new,
    new_rk z = Ok k0 -> after (ssp_rk cfg prog) calls (k0, u0) = (k, u) ->
    proper_components prog -> proper_state st -> ssp_rk cfg prog (k, u) st dt = (s', Ok (diag, new)) ->
    dget "time" new = dget "time" st /\
    forall X, X <> "time" ->
      match dget X st with
      | None => dget X new = None
      | Some (VTime _) => False
      | Some (VDA x) => exists r extra, dget X new = Some (VDA r) /\ wf_da r /\ attrs r = attrs x /\ dims r = dims x ++ extra /\
          forall d, In d extra -> exists u1 st1 u2 tend diag1 t, prog u1 st1 dt = (u2, Ok (tend, diag1)) /\
                                   dget X tend = Some t /\ In d (dims t)
      end.
  Proof.
    intros U cfg prog z k0 u0 calls k u st dt s' diag new Hk Ha Hp Hst H.
    destruct (rk_reachable cfg prog z k0 u0 calls k u Hk Ha) as (Ho & Hz & Hz').
    destruct k as [n e]. cbn [rk_euler rk_stages] in *.
    assert (Hfin : forall X x, X <> "time" -> dget X st = Some (VDA x) -> forall f st2, combination f st st2 new -> proper_state st2 ->
      (forall x2 d, dget X st2 = Some (VDA x2) -> In d (dims x2) -> In d (dims x) \/
         exists u1 st1 u2 tend diag1 t, prog u1 st1 dt = (u2, Ok (tend, diag1)) /\ dget X tend = Some t /\ In d (dims t)) ->
      exists r extra, dget X new = Some (VDA r) /\ wf_da r /\ attrs r = attrs x /\ dims r = dims x ++ extra /\
          forall d, In d extra -> exists u1 st1 u2 tend diag1 t, prog u1 st1 dt = (u2, Ok (tend, diag1)) /\
                                   dget X tend = Some t /\ In d (dims t)).
    { intros X x Hne Ex f st2 Hc Hp2 Hd. destruct (combination_some _ _ _ _ _ _ Hc Hne Ex) as (r & Er).
      destruct (combination_dims f st st2 new X x r "" Hst Hp2 Hc Hne Ex Er) as (x2 & Ex2 & (Wr & Hat & (extra & Hex) & Hl) & _).
      exists r, extra. repeat match goal with |- _ /\ _ => split end; auto. intros d Hdd.
      destruct (combination_dims f st st2 new X x r d Hst Hp2 Hc Hne Ex Er) as (x2' & Ex2' & _ & Hin).
      rewrite Ex2 in Ex2'. injection Ex2' as <-.
      assert (Hnd : ~ In d (dims x)).
      { destruct Wr as (_ & Hnd & _). rewrite Hex in Hnd.
        clear - Hnd Hdd. intros Hx. induction (dims x) as [|a l IH]; [destruct Hx|]. cbn [app] in Hnd. inversion Hnd; subst.
        destruct Hx as [<-|Hx]; [apply H1, in_or_app; auto|auto]. }
      destruct Hin as [Hin|Hin]; [rewrite Hex; apply in_or_app; auto|contradiction|].
      destruct (Hd x2 d Ex2 Hin); [contradiction|auto]. }
    assert (Hany : forall f st2, combination f st st2 new -> (forall X x, X <> "time" -> dget X st = Some (VDA x) ->
        exists r extra, dget X new = Some (VDA r) /\ wf_da r /\ attrs r = attrs x /\ dims r = dims x ++ extra /\
          forall d, In d extra -> exists u1 st1 u2 tend diag1 t, prog u1 st1 dt = (u2, Ok (tend, diag1)) /\
                                   dget X tend = Some t /\ In d (dims t)) ->
      dget "time" new = dget "time" st /\
      forall X, X <> "time" ->
      match dget X st with
      | None => dget X new = None
      | Some (VTime _) => False
      | Some (VDA x) => exists r extra, dget X new = Some (VDA r) /\ wf_da r /\ attrs r = attrs x /\ dims r = dims x ++ extra /\
          forall d, In d extra -> exists u1 st1 u2 tend diag1 t, prog u1 st1 dt = (u2, Ok (tend, diag1)) /\
                                   dget X tend = Some t /\ In d (dims t)
      end).
    { intros f st2 [Ht Hc] Hx. split; auto. intros X Hne. specialize (Hc X Hne). destruct (dget X st) as [[x|]|] eqn:Ex; auto. }
    assert (Hn : n = 2 \/ n = 3) by lia. destruct Hn as [->| ->].
    - destruct (rk2_ok cfg prog e u st dt s' diag new Ho Hp Hst H)
        as (u1 & u2 & t1 & t2 & d1 & d2 & st1 & st2 & P1 & E1 & P2 & E2 & C & _ & _ & _ & S1 & S2).
      apply (Hany _ _ C). intros X x Hne Ex. apply (Hfin X x Hne Ex _ _ C S2). intros x2 d Ex2 Hd.
      destruct (euler_some _ _ _ _ _ _ E1 Ex) as (x1 & Ex1).
      destruct (euler_dims dt st1 t2 st2 X x1 x2 d S1 (Hp _ _ _ _ _ _ P2) E2 Ex1 Ex2 Hd) as [K|(t & Ht & K)]; [|right; eauto 10].
      destruct (euler_dims dt st t1 st1 X x x1 d Hst (Hp _ _ _ _ _ _ P1) E1 Ex Ex1 K) as [K'|(t & Ht & K')]; [auto|right; eauto 10].
    - destruct (rk3_ok cfg prog e u st dt s' diag new Ho Hp Hst H)
        as (u1 & u2 & u3 & t1 & t2 & t3 & d1 & d2 & d3 & st1 & st15 & st2 & st25 & P1 & E1 & P2 & E2 & C1 & P3 & E3 & C & _ & _ & _ & S1 & S15 & S2 & S25).
      apply (Hany _ _ C). intros X x Hne Ex. apply (Hfin X x Hne Ex _ _ C S25). intros x25 d Ex25 Hd.
      destruct (euler_some _ _ _ _ _ _ E1 Ex) as (x1 & Ex1). destruct (euler_some _ _ _ _ _ _ E2 Ex1) as (x15 & Ex15).
      destruct (combination_some _ _ _ _ _ _ C1 Hne Ex) as (x2 & Ex2).
      destruct (euler_dims dt st2 t3 st25 X x2 x25 d S2 (Hp _ _ _ _ _ _ P3) E3 Ex2 Ex25 Hd) as [K|(t & Ht & K)]; [|right; eauto 10].
      destruct (combination_dims _ st st15 st2 X x x2 d Hst S15 C1 Hne Ex Ex2) as (x15' & Ex15' & _ & Hin).
      rewrite Ex15 in Ex15'. injection Ex15' as <-. destruct (Hin K) as [K1|K1]; auto.
      destruct (euler_dims dt st1 t2 st15 X x1 x15 d S1 (Hp _ _ _ _ _ _ P2) E2 Ex1 Ex15 K1) as [K2|(t & Ht & K2)]; [|right; eauto 10].
      destruct (euler_dims dt st t1 st1 X x x1 d Hst (Hp _ _ _ _ _ _ P1) E1 Ex Ex1 K2) as [K'|(t & Ht & K')]; [auto|right; eauto 10].
  Qed.
End Any.

Section Exact.
  Context {R : Registry}.

  Lemma main_ab_textbook : forall {U} cfg (prog : icaller (T:=Qc) U) dt o n a u log s, new_ab o = Ok a -> is_order o n ->
    history (adams_bashforth cfg prog) prog dt (a, u) log s -> wf_log log ->
    forall pre e post, log = pre ++ e :: post -> let k := Nat.min n (S (length pre)) in let es := latest k pre e in
    forall X, (forall e', In e' es -> In X (keys (e_tend e'))) ->
    exists x ts r, dget X (e_st e) = Some (VDA x) /\ dget X (e_new e) = Some (VDA r) /\
      tendencies_of es X ts /\ extends x ts r /\
      forall c, in_grid r c -> exists ys, rates_of es X c ys /\
        da_at r c = (da_at x c + Q2Qc (dt # 1000000) * dot (ab_weights k) ys)%Qc.
  Proof.
    intros U cfg prog dt o n a u log s Ha Ho Hh Hw pre e post E k es X Hk.
    destruct (order_made _ _ _ Ha Ho) as [Hn ->]. exact (ab_textbook cfg prog dt n u log s Hn Hh Hw pre e post E X Hk).
  Qed.

  Lemma main_ab_polynomial : forall {U} cfg (prog : icaller (T:=Qc) U) dt o n a u log s, new_ab o = Ok a -> is_order o n ->
    history (adams_bashforth cfg prog) prog dt (a, u) log s -> wf_log log ->
    forall pre e post, log = pre ++ e :: post ->
    forall X x c (P : list Qc) t, let k := Nat.min n (S (length pre)) in let h := Q2Qc (dt # 1000000) in
    length P <= S k -> rates_of (latest k pre e) X c (map (peval (pderiv P)) (times_back k t h)) ->
    dget X (e_st e) = Some (VDA x) -> in_grid x c ->
    exists r, dget X (e_new e) = Some (VDA r) /\ in_grid r c /\
      da_at r c = (da_at x c + (peval P (t + h) - peval P t))%Qc.
  Proof.
    intros U cfg prog dt o n a u log s Ha Ho Hh Hw. destruct (order_made _ _ _ Ha Ho) as [Hn ->].
    exact (ab_polynomial cfg prog dt n u log s Hn Hh Hw).
  Qed.

  Lemma main_ab_conserved : forall {U} cfg (prog : icaller (T:=Qc) U) dt o a u e0 log s, new_ab o = Ok a ->
    history (adams_bashforth cfg prog) prog dt (a, u) (e0 :: log) s -> wf_log (e0 :: log) -> chained (e0 :: log) ->
    forall terms, on_grid terms (e_st e0) ->
    (forall e, In e (e0 :: log) -> on_grid terms (e_st e) -> balanced terms (e_st e) (e_tend e)) ->
    forall e, In e (e0 :: log) -> total terms (e_st e) = total terms (e_st e0) /\ total terms (e_new e) = total terms (e_st e0).
  Proof.
    intros U cfg prog dt o a u e0 log s Ha Hh Hw Hc. apply new_ab_ok in Ha as (n & Hn & _ & ->).
    exact (ab_conserved cfg prog dt n u e0 log s Hn Hh Hw Hc).
  Qed.

  Lemma latest_incl : forall {T} k pre (e e' : entry T), In e' (latest k pre e) -> In e' (pre ++ [e]).
  Proof.
    intros T k pre e e' H. unfold latest in H. apply in_or_app.
    assert (Hi : In e' (e :: rev pre)).
    { rewrite <- (firstn_skipn k (e :: rev pre)). apply in_or_app. auto. }
    destruct Hi as [<-|Hi]; [right; simpl; auto|left; apply in_rev; auto].
  Qed.

  (** With zero tendencies nothing ever changes. *)
  Lemma main_ab_steady : forall {U} cfg (prog : icaller (T:=Qc) U) dt o a u e0 log s X, new_ab o = Ok a ->
    history (adams_bashforth cfg prog) prog dt (a, u) (e0 :: log) s -> wf_log (e0 :: log) -> chained (e0 :: log) ->
    (forall e, In e (e0 :: log) -> exists t, dget X (e_tend e) = Some t /\ no_change (e_st e) X t) ->
    forall e, In e (e0 :: log) -> dget X (e_st e) = dget X (e_st e0) /\ dget X (e_new e) = dget X (e_st e0).
  Proof.
    intros U cfg prog dt o a u e0 log s X Ha Hh Hw Hc Hz. apply new_ab_ok in Ha as (n & Hn & _ & ->).
    assert (Hgo : forall pre post, e0 :: log = pre ++ post -> forall e, In e pre ->
              dget X (e_st e) = dget X (e_st e0) /\ dget X (e_new e) = dget X (e_st e0)).
    { induction pre as [|p pre IH] using rev_ind; intros post E e He; [destruct He|].
      rewrite <- app_assoc in E. cbn [app] in E. specialize (IH _ E).
      apply in_app_or in He as [He|[<-|[]]]; [apply IH; auto|].
      assert (Hst : dget X (e_st p) = dget X (e_st e0)).
      { destruct pre as [|q pre _] using rev_ind; [injection E as -> _; auto|].
        rewrite <- app_assoc in E. rewrite (Hc pre q p post E). apply IH. apply in_or_app; simpl; auto. }
      split; auto. rewrite <- Hst. eapply (ab_steady cfg prog dt n u (e0 :: log) s Hn Hh Hw pre p post E X).
      intros e' He'. apply latest_incl in He'.
      assert (Hin : In e' (e0 :: log)).
      { rewrite E. apply in_app_or in He' as [He'|[<-|[]]]; apply in_or_app; simpl; auto. }
      destruct (Hz e' Hin) as (t & Ht & Hr & Hd). exists t. split; auto. split; auto.
      intros x Hx. apply Hd. apply in_app_or in He' as [He'|[<-|[]]]; [|auto].
      destruct (IH e' He') as [-> _]. congruence. }
    intros e He. apply (Hgo (e0 :: log) []); [rewrite app_nil_r; auto|auto].
  Qed.

  Lemma main_leap_steady : forall {U} cfg (prog : icaller (T:=Qc) U) dt nu alpha u e0 log s X,
    lhistory cfg prog dt (new_leap nu alpha, u) (e0 :: log) s -> wf_llog (e0 :: log) -> lchained (e0 :: log) ->
    (forall e t, In e (e0 :: log) -> dget X (l_tend e) = Some t -> no_change (l_st e) X t) ->
    forall e, In e (e0 :: log) -> dget X (l_st e) = dget X (l_st e0) /\ dget X (l_after e) = dget X (l_st e0) /\
      dget X (l_new e) = dget X (l_st e0).
  Proof.
    intros U cfg prog dt nu alpha u e0 log s X Hh Hw Hc Hz.
    destruct (leap_formula_lemma cfg prog dt nu alpha u _ s Hh Hw) as [H1 H2].
    assert (Hgo : forall pre post, e0 :: log = pre ++ post -> forall e, In e pre ->
              dget X (l_st e) = dget X (l_st e0) /\ dget X (l_after e) = dget X (l_st e0) /\ dget X (l_new e) = dget X (l_st e0)).
    { induction pre as [|p pre IH] using rev_ind; intros post E e He; [destruct He|].
      rewrite <- app_assoc in E. cbn [app] in E. specialize (IH _ E).
      apply in_app_or in He as [He|[<-|[]]]; [apply IH; auto|].
      assert (Hin : In p (e0 :: log)) by (rewrite E; apply in_or_app; simpl; auto).
      destruct (Hw p Hin) as [Wp Wt].
      destruct pre as [|q pre _] using rev_ind.
      - injection E as <- E. destruct (H1 e0 log eq_refl) as [-> He]. split; auto. split; auto.
        eapply euler_same; eauto.
      - rewrite <- app_assoc in E. destruct (IH q) as (_ & Ha & Hn); [apply in_or_app; simpl; auto|].
        assert (Hst : dget X (l_st p) = dget X (l_st e0)) by (rewrite (Hc pre q p post E); auto).
        destruct (leap_steady dt nu alpha _ _ _ _ _ X (H2 pre q p post E)) as [K1 K2]; auto; [congruence|].
        rewrite K1, K2. auto. }
    intros e He. apply (Hgo (e0 :: log) []); [rewrite app_nil_r; auto|auto].
  Qed.

  Lemma main_leap_filter : forall {U} cfg (prog : icaller (T:=Qc) U) dt nu alpha u log s,
    lhistory cfg prog dt (new_leap nu alpha, u) log s -> wf_llog log ->
    forall pre p e post X t, log = pre ++ p :: e :: post -> dget X (l_tend e) = Some t ->
    exists o x x' n, dget X (l_after p) = Some (VDA o) /\ dget X (l_st e) = Some (VDA x) /\
      dget X (l_after e) = Some (VDA x') /\ dget X (l_new e) = Some (VDA n) /\
      forall c, in_grid x c -> in_grid x' c /\ in_grid n c /\ exists y, rate (l_st e) X t c y /\
        let plain := (da_at o c + Q2Qc (2 # 1) * y * Q2Qc (dt # 1000000))%Qc in
        (alpha = Q2Qc (1 # 2) -> (da_at o c + da_at x' c + da_at n c = da_at o c + da_at x c + plain)%Qc) /\
        (alpha = 1%Qc -> da_at n c = plain) /\
        (nu = 0%Qc -> da_at x' c = da_at x c /\ da_at n c = plain).
  Proof.
    intros U cfg prog dt nu alpha u log s Hh Hw pre p e post X t E Ht.
    destruct (leap_formula_lemma cfg prog dt nu alpha u log s Hh Hw) as [_ H2].
    exact (leap_filter dt nu alpha _ _ _ _ _ X t (H2 pre p e post E) Ht).
  Qed.

  Lemma main_rk_untouched : forall {U} cfg (prog : icaller (T:=Qc) U) z k0 u0 calls k u st dt s' diag new X,
    new_rk z = Ok k0 -> after (ssp_rk cfg prog) calls (k0, u0) = (k, u) ->
    proper_components prog -> proper_state st -> ssp_rk cfg prog (k, u) st dt = (s', Ok (diag, new)) ->
    (forall u st u' tend diag, prog u st dt = (u', Ok (tend, diag)) -> ~ In X (keys tend)) ->
    dget X new = dget X st.
  Proof.
    intros U cfg prog z k0 u0 calls k u st dt s' diag new X Hk Ha Hp Hst H Hn.
    eapply (rk_steady cfg prog z k0 u0 calls k u st dt s' diag new X); eauto.
    intros u1 st1 u2 tend d t Hpr Ht. exfalso. eapply Hn; eauto. eapply dget_In_keys; eauto.
  Qed.

  Lemma main_rk_bounds : forall {U} cfg (prog : icaller (T:=Qc) U) z k0 u0 calls k u st dt s' diag new X lo hi,
    new_rk z = Ok k0 -> after (ssp_rk cfg prog) calls (k0, u0) = (k, u) ->
    proper_components prog -> proper_state st -> ssp_rk cfg prog (k, u) st dt = (s', Ok (diag, new)) ->
    X <> "time" -> within X lo hi st ->
    (forall u st u' tend diag st', prog u st dt = (u', Ok (tend, diag)) -> proper_state st -> euler_step dt st tend st' ->
       within X lo hi st -> within X lo hi st') ->
    within X lo hi new.
  Proof.
    intros U cfg prog z k0 u0 calls k u st dt s' diag new X lo hi Hk Ha Hp Hst H Hne Hw He.
    eapply (rk_convex cfg prog z k0 u0 calls k u st dt s' diag new (within X lo hi)); eauto. apply within_convex; auto.
  Qed.

  Context (Hsane : sane_registry R) (Hps : per_second_law R).

  Lemma main_ab_physical : forall {U} cfg (prog : icaller (T:=Qc) U) dt o n a u log s, new_ab o = Ok a -> is_order o n ->
    history (adams_bashforth cfg prog) prog dt (a, u) log s -> wf_log log ->
    forall pre e post, log = pre ++ e :: post -> let k := Nat.min n (S (length pre)) in let es := latest k pre e in
    forall X, same_units X (map e_st es) -> (forall e', In e' es -> In X (keys (e_tend e'))) ->
    exists x ts r, dget X (e_st e) = Some (VDA x) /\ dget X (e_new e) = Some (VDA r) /\ tendencies_of es X ts /\ extends x ts r /\
      forall c b bs, in_grid r c -> amount x c = Some b -> Forall2 (fun t v => amount t c = Some v) ts bs ->
        amount r c = Some (b + Q2Qc (dt # 1000000) * dot (ab_weights k) bs)%Qc.
  Proof.
    intros U cfg prog dt o n a u log s Ha Ho Hh Hw pre e post E k es X Hu Hk. destruct (order_made _ _ _ Ha Ho) as [Hn ->].
    exact (ab_physical Hsane Hps cfg prog dt n u log s Hn Hh Hw pre e post E X Hu Hk).
  Qed.

  Lemma main_ab_alike : forall {U} cfg1 cfg2 (prog1 prog2 : icaller (T:=Qc) U) dt o a u ks log1 log2 a1 v1 a2 v2, new_ab o = Ok a ->
    (forall u st1 st2 u1 u2 tend1 tend2 diag1 diag2, alike_states st1 st2 ->
       prog1 u st1 dt = (u1, Ok (tend1, diag1)) -> prog2 u st2 dt = (u2, Ok (tend2, diag2)) ->
       u1 = u2 /\ alike_tendencies tend1 tend2 /\ forall X, In X (keys tend1) <-> In X ks) ->
    history (adams_bashforth cfg1 prog1) prog1 dt (a, u) log1 (a1, v1) -> wf_log log1 -> chained log1 ->
    history (adams_bashforth cfg2 prog2) prog2 dt (a, u) log2 (a2, v2) -> wf_log log2 -> chained log2 ->
    length log1 = length log2 ->
    (forall e1 e2 l1 l2, log1 = e1 :: l1 -> log2 = e2 :: l2 -> alike_states (e_st e1) (e_st e2)) ->
    Forall2 (fun e1 e2 => alike_states (e_st e1) (e_st e2) /\ alike_tendencies (e_tend e1) (e_tend e2) /\
               alike_states (e_new e1) (e_new e2)) log1 log2.
  Proof.
    intros U cfg1 cfg2 prog1 prog2 dt o a u ks log1 log2 a1 v1 a2 v2 Ha Hp H1 W1 C1 H2 W2 C2 Hl Hf.
    apply new_ab_ok in Ha as (n & Hn & _ & ->).
    exact (proj1 (ab_runs_alike Hsane Hps cfg1 cfg2 prog1 prog2 dt n u ks log1 log2 a1 v1 a2 v2 Hn Hp H1 W1 C1 H2 W2 C2 Hl Hf)).
  Qed.

  Lemma main_leap_alike : forall {U} cfg1 cfg2 (prog1 prog2 : icaller (T:=Qc) U) dt (nu alpha : Qc) u log1 log2 a1 v1 a2 v2,
    (forall u st1 st2 u1 u2 tend1 tend2 diag1 diag2, alike_states st1 st2 ->
       prog1 u st1 dt = (u1, Ok (tend1, diag1)) -> prog2 u st2 dt = (u2, Ok (tend2, diag2)) ->
       u1 = u2 /\ alike_tendencies tend1 tend2) ->
    lhistory cfg1 prog1 dt (new_leap nu alpha, u) log1 (a1, v1) -> wf_llog log1 -> lchained log1 ->
    lhistory cfg2 prog2 dt (new_leap nu alpha, u) log2 (a2, v2) -> wf_llog log2 -> lchained log2 ->
    length log1 = length log2 ->
    (forall e1 e2 l1 l2, log1 = e1 :: l1 -> log2 = e2 :: l2 -> alike_states (l_st e1) (l_st e2)) ->
    Forall2 (fun e1 e2 => alike_states (l_st e1) (l_st e2) /\ alike_tendencies (l_tend e1) (l_tend e2) /\
               alike_states (l_after e1) (l_after e2) /\ alike_states (l_new e1) (l_new e2)) log1 log2.
  Proof.
    intros U cfg1 cfg2 prog1 prog2 dt nu alpha u log1 log2 a1 v1 a2 v2 Hp H1 W1 C1 H2 W2 C2 Hl Hf.
    exact (proj1 (leap_runs_alike Hsane Hps cfg1 cfg2 prog1 prog2 dt nu alpha u log1 log2 a1 v1 a2 v2 Hp H1 W1 C1 H2 W2 C2 Hl Hf)).
  Qed.

  (** Order 1: the diagnosed tendency is the tendency the components returned. *)
  Lemma main_euler_difference : forall {U} cfg (prog : icaller (T:=Qc) U) dt o a u log s, new_ab o = Ok a -> is_order o 1 ->
    history (adams_bashforth cfg prog) prog dt (a, u) log s -> wf_log log -> NoDup (keys (ts_out cfg)) -> ts_tid cfg = true -> dt <> 0%Z ->
    forall e X t, In e log -> In X (keys (ts_out cfg)) -> dget X (e_tend e) = Some t ->
    exists x r d, dget X (e_st e) = Some (VDA x) /\ dget X (e_new e) = Some (VDA r) /\
      dget (tendency_name (ts_name cfg) X) (e_diag e) = Some d /\
      forall c w v b, in_grid d c -> in_grid r c -> amount x c = Some b -> amount t c = Some v -> amount d c = Some w -> w = v.
  Proof.
    intros U cfg prog dt o a u log s Ha Ho Hh Hw Hd Ht Hdt e X t He HX Et.
    apply in_split in He as (pre & post & E).
    destruct (main_ab_diagnostics cfg prog dt o a u log s Ha Hh Hw Hd pre e post E) as (u1 & u2 & pdiag & Hp & Hdiff).
    rewrite Ht in Hdiff. destruct Hdiff as [Hdiff _]. destruct (Hdiff X HX) as (_ & p & base & old & x & d & _ & _ & Eo & Ex & Ed & HD).
    destruct (main_ab_physical cfg prog dt o 1 a u log s Ha Ho Hh Hw pre e post E X) as (x0 & ts & r & Ex0 & Er & Hts & _ & Hv).
    { intros st1 st2 y y'. cbn [Nat.min latest firstn map In]. intros [<-|[]] [<-|[]] G1 G2. congruence. }
    { cbn [Nat.min latest firstn In]. intros e' [<-|[]]. eapply dget_In_keys; eauto. }
    rewrite Eo in Ex0. injection Ex0 as <-. rewrite Ex in Er. injection Er as <-.
    exists old, x, d. repeat match goal with |- _ /\ _ => split end; auto.
    intros c w v b Gd Gr Ab At Aw. cbn [Nat.min latest firstn] in Hts. inversion Hts as [|e' t' l l' Ht' Hl]; subst. inversion Hl; subst.
    rewrite Et in Ht'. injection Ht' as <-.
    specialize (Hv c b [v] Gr Ab ltac:(constructor; auto)).
    pose proof (difference_amount Hsane Hps dt base old x d c w b _ HD Gd Hdt Aw Ab Hv) as Heq.
    cbn [Nat.min ab_weights dot] in Heq.
    assert (Hs : Q2Qc (dt # 1000000) <> 0%Qc).
    { intros Hz. apply (f_equal this) in Hz. cbn [this Q2Qc] in Hz.
      assert (Hq : (dt # 1000000) == 0) by (rewrite <- (Qred_correct (dt # 1000000)), Hz; reflexivity).
      unfold Qeq in Hq. cbn [Qnum Qden] in Hq. lia. }
    assert (Hm : (w * Q2Qc (dt # 1000000) = v * Q2Qc (dt # 1000000))%Qc) by (rewrite Heq; ring).
    apply (f_equal (fun q => (q / Q2Qc (dt # 1000000))%Qc)) in Hm. unfold Qcdiv in Hm.
    rewrite <- !Qcmult_assoc, Qcmult_inv_r, !Qcmult_1_r in Hm; auto.
  Qed.
End Exact.
