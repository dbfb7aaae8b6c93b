(** Runs of which every part keeps a relation between DataArrays (C101): the loops of [RegionMain], for any relation that the steppers keep. *)
From Coq Require Import String List Bool Arith ZArith QArith Lia.
From Verif Require Import Prelude PreludeFacts ArithM NdArray Units DataArrayM SpecDa DaFacts Tracers Components Composite Steppers Basic MainLoop LeapLoop SpecRegion RegionFacts.
Import ListNotations.
Open Scope string_scope.
Open Scope nat_scope.
Open Scope list_scope.

Section Main.
  Context {T : Type} {A : Arith T} {R : Registry}.
  Context (P : string -> da T -> da T -> Prop) (P0 : string -> da T -> da T -> Prop) (P_any : forall k a b, P k a b -> P0 k a b).
  Context (P_attrs : forall k a b, P k a b -> attrs a = attrs b).
  Context (P_units : forall k a b u, P k a b -> oks (P k) (to_units a u) (to_units b u)).
  Context (P_map : forall k g at' a b, by_scalar g -> at' = [] \/ at' = attrs a -> P k a b -> P k (da_map g at' a) (da_map g at' b)).
  Context (P_bin : forall k op a b a' b', op = aadd \/ op = asub -> P k a b -> P k a' b' -> oks (P k) (da_binop op (attrs a) a a') (da_binop op (attrs a) b b')).
  Notation PS := (dicts (pv P)).
  Notation PS0 := (dicts (pv0 P0)).
  Notation PD0 := (dicts P0).
  Notation LS := (loc_step P P0).

  Section Steps.
    Context {U V : Type} (same : U -> V -> Prop) (p : icaller (T:=T) U) (q : icaller (T:=T) V) (Hl : loc P P0 same p q).

    (** Any calls, with any states, of a new object. *)
    Lemma returned_param : forall {S S' X} (rel : S -> S' -> Prop) (Q : X -> X -> Prop) (call : S -> state T -> Z -> S * res X) (call' : S' -> state T -> Z -> S' * res X),
      (forall s s' st st' dt s1 s1' r r', rel s s' -> PS st st' -> call s st dt = (s1, Ok r) -> call' s' st' dt = (s1', Ok r') -> rel s1 s1' /\ Q r r') ->
      forall log log' s s', rel s s' -> returned call s log -> returned call' s' log' ->
      Forall2 (fun x y => PS (fst (fst x)) (fst (fst y)) /\ snd (fst x) = snd (fst y)) log log' ->
      Forall2 (fun x y => Q (snd x) (snd y)) log log'.
    Proof.
      intros S S' X rel Q call call' H log log' s s' Hs Hx Hy HF. revert s s' Hs Hx Hy.
      induction HF as [|[[st dt] r] [[st' dt'] r'] log log' (K1 & K2) HF IH]; intros s s' Hs Hx Hy; [constructor|]. cbn in *. subst dt'.
      destruct Hx as (s1 & E1 & Hx). destruct Hy as (s1' & E1' & Hy). destruct (H _ _ _ _ _ _ _ _ _ Hs K1 E1 E1') as (K3 & K4). constructor; [exact K4|eauto].
    Qed.

    Lemma ab_fresh : forall o a0 u v, new_ab (T:=T) o = Ok a0 -> same u v -> abs P same (a0, u) (a0, v).
    Proof.
      intros o a0 u v H Hu. unfold new_ab in H. destruct (check_order o); [|discriminate H]. injection H as <-. split; [reflexivity|]. split; [reflexivity|]. split; [constructor|exact Hu].
    Qed.

    Lemma run_ab : forall cfg, named_rates P P0 cfg -> forall o a0 u v log log', new_ab (T:=T) o = Ok a0 -> same u v ->
      returned (adams_bashforth cfg p) (a0, u) log -> returned (adams_bashforth cfg q) (a0, v) log' ->
      Forall2 (fun x y => PS (fst (fst x)) (fst (fst y)) /\ snd (fst x) = snd (fst y)) log log' ->
      Forall2 (fun x y => PD0 (fst (snd x)) (fst (snd y)) /\ PS (snd (snd x)) (snd (snd y))) log log'.
    Proof.
      intros cfg Hw o a0 u v log log' Ho Hu Hx Hy HF. exact (returned_param (abs P same) (stepping P P0) _ _ (par_adams_bashforth P P0 P_attrs P_units P_map P_bin same p q Hl cfg Hw) log log' _ _ (ab_fresh o a0 u v Ho Hu) Hx Hy HF).
    Qed.

    Lemma run_rk : forall cfg, named_rates P P0 cfg -> forall z k0 u v log log', new_rk (T:=T) z = Ok k0 -> same u v ->
      returned (ssp_rk cfg p) (k0, u) log -> returned (ssp_rk cfg q) (k0, v) log' ->
      Forall2 (fun x y => PS (fst (fst x)) (fst (fst y)) /\ snd (fst x) = snd (fst y)) log log' ->
      Forall2 (fun x y => PD0 (fst (snd x)) (fst (snd y)) /\ PS (snd (snd x)) (snd (snd y))) log log'.
    Proof.
      intros cfg Hw z k0 u v log log' Hz Hu Hx Hy HF. refine (returned_param (rks P same) (stepping P P0) _ _ (par_ssp_rk P P0 P_attrs P_units P_map P_bin same p q Hl cfg Hw) log log' _ _ _ Hx Hy HF).
      split; [reflexivity|]. cbn. assert (E : rk_euler k0 = mkab 1 None []). { unfold new_rk in Hz. destruct (Z.eqb z 2); [injection Hz as <-; reflexivity|]. destruct (Z.eqb z 3); [injection Hz as <-; reflexivity|discriminate Hz]. }
      rewrite E. split; [reflexivity|]. split; [reflexivity|]. split; [constructor|exact Hu].
    Qed.

    Lemma run_leap : forall cfg, named_rates P P0 cfg -> forall nu alpha u v log log', same u v ->
      returned (with_filtered cfg p) (new_leap nu alpha, u) log -> returned (with_filtered cfg q) (new_leap nu alpha, v) log' ->
      Forall2 (fun x y => PS (fst (fst x)) (fst (fst y)) /\ snd (fst x) = snd (fst y)) log log' ->
      Forall2 (fun x y => PS (fst (snd x)) (fst (snd y)) /\
        PD0 (fst (snd (snd x))) (fst (snd (snd y))) /\ PS (snd (snd (snd x))) (snd (snd (snd y)))) log log'.
    Proof.
      intros cfg Hw nu alpha u v log log' Hu Hx Hy HF.
      refine (returned_param (leaps P same) (fun r r' => PS (fst r) (fst r') /\ stepping P P0 (snd r) (snd r')) _ _ _ log log' _ _ _ Hx Hy HF).
      2: { split; [reflexivity|]. split; [reflexivity|]. split; [reflexivity|]. split; [exact I|exact Hu]. }
      intros s s' st st' dt s1 s1' r r' Hs Hst X Y. unfold with_filtered in *.
      destruct (leapfrog cfg p s st dt) as [[s2 z] [w|]] eqn:E; [|discriminate X]. destruct (leapfrog cfg q s' st' dt) as [[s2' z'] [w'|]] eqn:E'; [|discriminate Y].
      injection X as <- <-. injection Y as <- <-. exact (par_leapfrog P P0 P_attrs P_units P_map P_bin same p q Hl cfg Hw _ _ _ _ _ _ _ _ _ _ _ Hs Hst E E').
    Qed.

    (** The main loop with one of the steppers, and any monitors. *)
    Lemma run_ab_loop : forall {M N} (mon : M -> state T -> M * res unit) (mon' : N -> state T -> N * res unit) cfg, named_rates P P0 cfg -> forall o a0 u v, new_ab (T:=T) o = Ok a0 -> same u v ->
      forall n stop dt m m' st st' w w' log log' e e', PS st st' ->
      main_loop n [beside (adams_bashforth cfg p)] (fun w st => let (m1, r) := mon (fst w) st in ((m1, snd w), r)) stop dt (m, (a0, u)) st = ((w, log), Some (Ok e)) ->
      main_loop n [beside (adams_bashforth cfg q)] (fun w st => let (m1, r) := mon' (fst w) st in ((m1, snd w), r)) stop dt (m', (a0, v)) st' = ((w', log'), Some (Ok e')) ->
      Forall2 (PS0) log log' /\ PS e e'.
    Proof.
      intros M N mon mon' cfg Hw o a0 u v Ho Hu n stop dt m m' st st' w w' log log' e e' Hs Hx Hy.
      refine (proj2 (par_main_loop P P0 P_any (fun (x : M * (ab T * U)) (y : N * (ab T * V)) => abs P same (snd x) (snd y)) _ _ _ _ _ _ n stop dt _ _ _ _ _ _ _ _ _ _ _ Hs Hx Hy)).
      - constructor; [|constructor]. intros [m1 x] [m2 y] s s' dt' [m3 x'] [m4 y'] d k d' k' Hxy Hss X Y. unfold beside in X, Y. cbn [fst snd] in *.
        destruct (adams_bashforth cfg p x s dt') as [x1 r1] eqn:E1. destruct (adams_bashforth cfg q y s' dt') as [y1 r2] eqn:E2. injection X as <- <- ->. injection Y as <- <- ->.
        exact (par_adams_bashforth P P0 P_attrs P_units P_map P_bin same p q Hl cfg Hw _ _ _ _ _ _ _ _ _ Hxy Hss E1 E2).
      - intros [m1 x] [m2 y] s s' [m3 x'] [m4 y'] Hxy Hss X Y. cbn [fst snd] in *. destruct (mon m1 s). destruct (mon' m2 s'). injection X as <- <- _. injection Y as <- <- _. exact Hxy.
      - exact (ab_fresh o a0 u v Ho Hu).
    Qed.

    Lemma run_rk_loop : forall {M N} (mon : M -> state T -> M * res unit) (mon' : N -> state T -> N * res unit) cfg, named_rates P P0 cfg -> forall z k0 u v, new_rk (T:=T) z = Ok k0 -> same u v ->
      forall n stop dt m m' st st' w w' log log' e e', PS st st' ->
      main_loop n [beside (ssp_rk cfg p)] (fun w st => let (m1, r) := mon (fst w) st in ((m1, snd w), r)) stop dt (m, (k0, u)) st = ((w, log), Some (Ok e)) ->
      main_loop n [beside (ssp_rk cfg q)] (fun w st => let (m1, r) := mon' (fst w) st in ((m1, snd w), r)) stop dt (m', (k0, v)) st' = ((w', log'), Some (Ok e')) ->
      Forall2 (PS0) log log' /\ PS e e'.
    Proof.
      intros M N mon mon' cfg Hw z k0 u v Hz Hu n stop dt m m' st st' w w' log log' e e' Hs Hx Hy.
      refine (proj2 (par_main_loop P P0 P_any (fun (x : M * (rk T * U)) (y : N * (rk T * V)) => rks P same (snd x) (snd y)) _ _ _ _ _ _ n stop dt _ _ _ _ _ _ _ _ _ _ _ Hs Hx Hy)).
      - constructor; [|constructor]. intros [m1 x] [m2 y] s s' dt' [m3 x'] [m4 y'] d k d' k' Hxy Hss X Y. unfold beside in X, Y. cbn [fst snd] in *.
        destruct (ssp_rk cfg p x s dt') as [x1 r1] eqn:E1. destruct (ssp_rk cfg q y s' dt') as [y1 r2] eqn:E2. injection X as <- <- ->. injection Y as <- <- ->.
        exact (par_ssp_rk P P0 P_attrs P_units P_map P_bin same p q Hl cfg Hw _ _ _ _ _ _ _ _ _ Hxy Hss E1 E2).
      - intros [m1 x] [m2 y] s s' [m3 x'] [m4 y'] Hxy Hss X Y. cbn [fst snd] in *. destruct (mon m1 s). destruct (mon' m2 s'). injection X as <- <- _. injection Y as <- <- _. exact Hxy.
      - split; [reflexivity|]. cbn. assert (E : rk_euler k0 = mkab 1 None []). { unfold new_rk in Hz. destruct (Z.eqb z 2); [injection Hz as <-; reflexivity|]. destruct (Z.eqb z 3); [injection Hz as <-; reflexivity|discriminate Hz]. }
        rewrite E. split; [reflexivity|]. split; [reflexivity|]. split; [constructor|exact Hu].
    Qed.
  End Steps.

  (** The main loop with any processes and monitors. *)
  Lemma run_loop : forall {W W'} (same : W -> W' -> Prop) ps ps' (store : W -> state T -> W * res unit) (store' : W' -> state T -> W' * res unit),
    Forall2 (LS same) ps ps' ->
    (forall u v st st' u' v', same u v -> PS0 st st' -> store u st = (u', Ok tt) -> store' v st' = (v', Ok tt) -> same u' v') ->
    forall n stop dt w w' st st' w1 w1' log log' e e', same w w' -> PS st st' ->
    main_loop n ps store stop dt w st = ((w1, log), Some (Ok e)) -> main_loop n ps' store' stop dt w' st' = ((w1', log'), Some (Ok e')) ->
    Forall2 (PS0) log log' /\ PS e e'.
  Proof.
    intros W W' same ps ps' store store' H1 H2 n stop dt w w' st st' w1 w1' log log' e e' Hw Hs Hx Hy.
    exact (proj2 (par_main_loop P P0 P_any same _ _ _ _ H1 H2 n stop dt _ _ _ _ _ _ _ _ _ _ Hw Hs Hx Hy)).
  Qed.

  (** The main loop with Leapfrog: the filtered states are stored. *)
  Lemma run_leap_loop : forall {U V W W'} (same : U -> V -> Prop) (rest : W -> W' -> Prop) (p : icaller (T:=T) U) (q : icaller (T:=T) V) qs qs'
      (store : W -> state T -> W * res unit) (store' : W' -> state T -> W' * res unit) cfg nu alpha, named_rates P P0 cfg ->
    loc P P0 same p q -> Forall2 (LS rest) qs qs' ->
    (forall u v st st' u' v', rest u v -> PS0 st st' -> store u st = (u', Ok tt) -> store' v st' = (v', Ok tt) -> rest u' v') ->
    forall n stop dt u u' w w' st st' s1 s1' w1 w1' log log' e e', same u u' -> rest w w' -> PS st st' ->
    leap_main_loop n cfg p qs store stop dt (new_leap nu alpha, u) w st = ((s1, w1, log), Some (Ok e)) ->
    leap_main_loop n cfg q qs' store' stop dt (new_leap nu alpha, u') w' st' = ((s1', w1', log'), Some (Ok e')) ->
    Forall2 (PS0) log log' /\ PS e e'.
  Proof.
    intros U V W W' same rest p q qs qs' store store' cfg nu alpha Hw Hl Hq Hst n stop dt u u' w w' st st' s1 s1' w1 w1' log log' e e' Hu Hww Hs Hx Hy.
    assert (H0 : leaps P same (new_leap nu alpha, u) (new_leap nu alpha, u')) by (split; [reflexivity|]; split; [reflexivity|]; split; [reflexivity|]; split; [exact I|exact Hu]).
    revert H0 Hx Hy. generalize (new_leap nu alpha, u), (new_leap nu alpha, u'). intros s0 s0' H0 Hx Hy. clear Hu.
    revert w w' st st' log log' s0 s0' Hww Hs H0 Hx Hy. induction n as [|n IH]; intros w w' st st' log log' s0 s0' Hww Hs H0 Hx Hy; [discriminate Hx|].
    cbn [leap_main_loop] in Hx, Hy. assert (K := par_time P0 _ _ (ps0 P P0 P_any _ _ Hs)). destruct (state_time st) as [t|]; [|discriminate Hx]. destruct (state_time st') as [t'|]; [|discriminate Hy].
    specialize (K _ _ eq_refl eq_refl). subst t'. destruct (t <? stop)%Z.
    2: { injection Hx as <- <- <- <-. injection Hy as <- <- <- <-. split; [constructor|exact Hs]. }
    destruct (leapfrog cfg p s0 st dt) as [[s2 f2] [[d m]|]] eqn:E; [|discriminate Hx]. destruct (leapfrog cfg q s0' st' dt) as [[s2' f2'] [[d' m']|]] eqn:E'; [|discriminate Hy].
    destruct (par_leapfrog P P0 P_attrs P_units P_map P_bin same p q Hl cfg Hw _ _ _ _ _ _ _ _ _ _ _ H0 Hs E E') as (L1 & L2 & L3 & L4). cbn [fst snd] in L3, L4.
    destruct (run_processes qs w m dt) as [w2 [[ds nx]|]] eqn:Ef; [|discriminate Hx]. destruct (run_processes qs' w' m' dt) as [w2' [[ds' nx']|]] eqn:Eg; [|discriminate Hy].
    destruct (par_processes P P0 rest _ _ Hq _ _ _ _ _ _ _ _ _ _ _ Hww L4 Ef Eg) as (K1 & K2 & K3). cbv zeta in Hx, Hy.
    assert (K4 := par_update_all P0 _ _ (Forall2_cons _ _ L3 K2) _ _ (ps0 P P0 P_any _ _ L2)). set (x := update_all (d :: ds) f2) in *. set (x' := update_all (d' :: ds') f2') in *.
    destruct (store w2 x) as [w3 [[]|]] eqn:Es; [|discriminate Hx]. destruct (store' w2' x') as [w3' [[]|]] eqn:Es'; [|discriminate Hy].
    assert (K5 := Hst _ _ _ _ _ _ K1 K4 Es Es'). assert (K6 := par_time P0 _ _ K4). destruct (state_time x) as [t1|]; [|discriminate Hx]. destruct (state_time x') as [t1'|]; [|discriminate Hy].
    specialize (K6 _ _ eq_refl eq_refl). subst t1'.
    destruct (leap_main_loop n cfg p qs store stop dt s2 w3 (dset "time" (VTime (t1 + dt)) nx)) as [[[s3 v3] l] rr] eqn:El. destruct (leap_main_loop n cfg q qs' store' stop dt s2' w3' (dset "time" (VTime (t1 + dt)) nx')) as [[[s3' v3'] l'] rr'] eqn:El'.
    injection Hx as <- <- <- ->. injection Hy as <- <- <- ->.
    destruct (IH _ _ _ _ _ _ _ _ K5 (dicts_set (pv P) _ _ "time" (VTime (t1 + dt)) (VTime (t1 + dt)) K3 eq_refl) L1 El El') as (K8 & K9).
    split; [constructor; assumption|exact K9].
  Qed.
End Main.
