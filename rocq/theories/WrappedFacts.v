(** Lemmas about wrapped components inside time steppers (C93). *)
From Coq Require Import String List Bool Arith ZArith Lia.
From Verif Require Import Prelude PreludeFacts ArithM NdArray Units DataArrayM GetNp Components Composite Steppers Basic
  SpecBasic UpdateFreq Wrapped SpecWrapped.
Import ListNotations.
Open Scope string_scope.
Open Scope nat_scope.
Open Scope list_scope.

Section Facts.
  Context {T : Type} {A : Arith T} {R : Registry}.

  Definition called {U} (dt : Z) (c : icaller (T:=T) U + caller (T:=T) U) : caller (T:=T) U :=
    match c with inl f => fun u st => f u st dt | inr f => f end.

  Lemma composite_called : forall {U} (cs : list (icaller (T:=T) U + caller (T:=T) U)) dt u st,
    implicit_composite_call cs dt u st = composite_loop (map (called dt) cs) u st [] [].
  Proof. reflexivity. Qed.

  Lemma loop_app : forall {U} (a b : list (caller (T:=T) U)) u st t d, composite_loop (a ++ b) u st t d =
    match composite_loop a u st t d with
    | (u', Err e) => (u', Err e)
    | (u', Ok (t', d')) => composite_loop b u' st t' d'
    end.
  Proof.
    intros U a b. induction a as [|c a IH]; intros u st t d; [reflexivity|]. cbn [app composite_loop].
    destruct (c u st) as [u' r]. destruct (let* td := r in _) as [[t' d']|e]; auto.
  Qed.

  Lemma loop_beside : forall {U W} dt (cs : list (icaller (T:=T) U + caller (T:=T) U)) (w : W) u st t d,
    composite_loop (map (called dt) (map beside cs)) (w, u) st t d =
    let (u', r) := composite_loop (map (called dt) cs) u st t d in ((w, u'), r).
  Proof.
    intros U W dt cs w. induction cs as [|c cs IH]; intros u st t d; [reflexivity|]. cbn [map composite_loop].
    assert (E : called dt (beside c) (w, u) st = let (u', r) := called dt c u st in ((w, u'), r)) by (destruct c; reflexivity).
    rewrite E. destruct (called dt c u st) as [u' r]. destruct (let* td := r in _) as [[t' d']|e]; auto.
  Qed.

  Lemma loop_unrecorded : forall {U L} dt (cs : list (icaller (T:=T) U + caller (T:=T) U)) (l : L) u st t d,
    composite_loop (map (called dt) (map unrecorded cs)) (u, l) st t d =
    let (u', r) := composite_loop (map (called dt) cs) u st t d in ((u', l), r).
  Proof.
    intros U L dt cs l. induction cs as [|c cs IH]; intros u st t d; [reflexivity|]. cbn [map composite_loop].
    assert (E : called dt (unrecorded c) (u, l) st = let (u', r) := called dt c u st in ((u', l), r)) by (destruct c; reflexivity).
    rewrite E. destruct (called dt c u st) as [u' r]. destruct (let* td := r in _) as [[t' d']|e]; auto.
  Qed.

  Definition step_of (implicit : bool) (dt : Z) : option Z := if implicit then Some dt else None.

  Lemma wrapped_split : forall {U} (component : U -> state T -> option Z -> U * res (tends T)) interval implicit pre post w u st dt,
    wrapped_among component interval implicit pre post (w, u) st dt =
    match composite_loop (map (called dt) pre) u st [] [] with
    | (u1, Err e) => ((w, u1), Err e)
    | (u1, Ok (t, d)) =>
        let '((w2, u2), r) := wrapper_call component interval (step_of implicit dt) (w, u1) st in
        match (let* td := r in let* t' := update_dict_by_adding_another t (fst td) in Ok (t', dupdate d (snd td))) with
        | Err e => ((w2, u2), Err e)
        | Ok (t', d') => let (u3, r3) := composite_loop (map (called dt) post) u2 st t' d' in ((w2, u3), r3)
        end
    end.
  Proof.
    intros U component interval implicit pre post w u st dt. unfold wrapped_among. rewrite composite_called, map_app, loop_app.
    rewrite loop_beside. destruct (composite_loop (map (called dt) pre) u st [] []) as [u1 [[t d]|e]]; auto.
    destruct implicit; cbn [map composite_loop called step_of].
    - destruct (wrapper_call component interval (Some dt) (w, u1) st) as [[w2 u2] r].
      destruct (let* td := r in _) as [[t' d']|e]; auto. apply loop_beside.
    - destruct (wrapper_call component interval None (w, u1) st) as [[w2 u2] r].
      destruct (let* td := r in _) as [[t' d']|e]; auto. apply loop_beside.
  Qed.

  Lemma plain_split : forall {U} (component : U -> state T -> option Z -> U * res (tends T)) implicit pre post u st dt,
    plain_among component implicit pre post u st dt =
    match composite_loop (map (called dt) pre) u st [] [] with
    | (u1, Err e) => (u1, Err e)
    | (u1, Ok (t, d)) =>
        let (u2, r) := component u1 st (step_of implicit dt) in
        match (let* td := r in let* t' := update_dict_by_adding_another t (fst td) in Ok (t', dupdate d (snd td))) with
        | Err e => (u2, Err e)
        | Ok (t', d') => composite_loop (map (called dt) post) u2 st t' d'
        end
    end.
  Proof.
    intros U component implicit pre post u st dt. unfold plain_among. rewrite composite_called, map_app, loop_app.
    destruct (composite_loop (map (called dt) pre) u st [] []) as [u1 [[t d]|e]]; auto.
    cbn [map composite_loop]. destruct implicit; reflexivity.
  Qed.

  (** ** When new output is due at each call *)

  Lemma wrapper_due : forall {U} (component : U -> state T -> option Z -> U * res (tends T)) interval ts w u st t,
    dget "time" st = Some (VTime t) -> (forall t0, uf_last w = Some t0 -> (t0 + interval <= t)%Z) ->
    (forall dt, ts = Some dt -> snd (component u st ts) <> Err EType) ->
    wrapper_call component interval ts (w, u) st =
    let (u', r) := component u st ts in
    ((match r with Ok o => mkufw (Some o) (Some t) | Err _ => w end, u'), r).
  Proof.
    intros U component interval ts w u st t Ht Hd Hty. unfold wrapper_call, uf_call.
    assert (Es : state_time st = Ok t) by (unfold state_time, dgetE; rewrite Ht; reflexivity).
    assert (E : update_due interval w st = Ok true).
    { unfold update_due. destruct (uf_last w) as [t0|] eqn:El; auto. rewrite Es. cbn [bind]. do 2 f_equal.
      apply Z.leb_le. auto. }
    rewrite E. assert (Ec : call_component component u st ts = component u st ts).
    { unfold call_component. destruct ts as [dt|]; auto. specialize (Hty dt eq_refl).
      destruct (component u st (Some dt)) as [u' [o|e]]; auto. destruct e; auto. exfalso. apply Hty. reflexivity. }
    rewrite Ec. destruct (component u st ts) as [u' [o|e]]; auto. rewrite Es. reflexivity.
  Qed.

  Lemma wrapped_due : forall {U} (component : U -> state T -> option Z -> U * res (tends T)) interval implicit pre post w u st dt t,
    dget "time" st = Some (VTime t) -> (forall t0, uf_last w = Some t0 -> (t0 + interval <= t)%Z) ->
    (implicit = true -> forall u st dt, snd (component u st (Some dt)) <> Err EType) ->
    exists w' u' r, wrapped_among component interval implicit pre post (w, u) st dt = ((w', u'), r) /\
      plain_among component implicit pre post u st dt = (u', r) /\ (uf_last w' = uf_last w \/ uf_last w' = Some t).
  Proof.
    intros U component interval implicit pre post w u st dt t Ht Hd Hty. rewrite wrapped_split, plain_split.
    destruct (composite_loop (map (called dt) pre) u st [] []) as [u1 [[tt d]|e]]; [|do 3 eexists; split; [reflexivity|split; auto]].
    rewrite (wrapper_due component interval (step_of implicit dt) w u1 st t Ht Hd).
    2:{ intros dt0 E. destruct implicit; [|discriminate E]. injection E as <-. apply Hty. reflexivity. }
    destruct (component u1 st (step_of implicit dt)) as [u2 [[rt rd]|e]]; cbn [bind fst snd].
    2:{ do 3 eexists; split; [reflexivity|split; auto]. }
    destruct (update_dict_by_adding_another tt rt) as [t'|e]; cbn [bind].
    2:{ do 3 eexists; split; [reflexivity|split; auto]. }
    destruct (composite_loop (map (called dt) post) u2 st t' (dupdate d rd)) as [u3 r3].
    do 3 eexists; split; [reflexivity|split; auto].
  Qed.

  Lemma ab_same : forall {U V} (p : icaller (T:=T) U) (q : icaller (T:=T) V) cfg a u v (st : state T) dt u' v' r,
    p u st dt = (u', r) -> q v st dt = (v', r) ->
    (exists a' o, adams_bashforth cfg p (a, u) st dt = ((a', u'), o) /\ adams_bashforth cfg q (a, v) st dt = ((a', v'), o)) \/
    (exists a' o, adams_bashforth cfg p (a, u) st dt = ((a', u), o) /\ adams_bashforth cfg q (a, v) st dt = ((a', v), o)).
  Proof.
    intros U V p q cfg a u v st dt u' v' r Hp Hq. unfold adams_bashforth, ab_call.
    destruct (ensure_timestep (ab_dt a) dt); [left|right; eauto]. rewrite Hp, Hq.
    destruct (let* td := r in _) as [[tend diag]|e]; [|eauto].
    destruct (perform_step (ab_order a) (ab_hist a ++ [tend]) st dt); eauto.
  Qed.

  Lemma leap_same : forall {U V} (p : icaller (T:=T) U) (q : icaller (T:=T) V) cfg l u v (st : state T) dt u' v' r,
    p u st dt = (u', r) -> q v st dt = (v', r) ->
    (exists l' o, with_state (leapfrog cfg p) (l, u) st dt = ((l', u'), o) /\ with_state (leapfrog cfg q) (l, v) st dt = ((l', v'), o)) \/
    (exists l' o, with_state (leapfrog cfg p) (l, u) st dt = ((l', u), o) /\ with_state (leapfrog cfg q) (l, v) st dt = ((l', v), o)).
  Proof.
    intros U V p q cfg l u v st dt u' v' r Hp Hq. unfold with_state, leapfrog, leap_call.
    destruct (ensure_timestep (lf_dt l) dt); [left|right; eauto]. rewrite Hp, Hq.
    destruct (let* td := r in _) as [[tend diag]|e]; [|eauto].
    destruct (match lf_old l with Some old => _ | None => _ end) as [st' [new|e]]; eauto.
  Qed.

  Lemma run_same : forall {S U O P} interval (call1 : S * (ufw P * U) -> state T -> Z -> (S * (ufw P * U)) * O)
      (call2 : S * U -> state T -> Z -> (S * U) * O),
    (forall a w u st dt t, dget "time" st = Some (VTime t) -> (forall t0, uf_last w = Some t0 -> (t0 + interval <= t)%Z) ->
       exists a' w' u' o, call1 (a, (w, u)) st dt = ((a', (w', u')), o) /\ call2 (a, u) st dt = ((a', u'), o) /\
         (uf_last w' = uf_last w \/ uf_last w' = Some t)) ->
    forall calls a w u, spaced interval calls ->
    (forall t0, uf_last w = Some t0 -> Forall (fun c => forall t, at_time c t -> (t0 + interval <= t)%Z) calls) ->
    replies call1 calls (a, (w, u)) = replies call2 calls (a, u) /\
    exists a' w' u', left_by call1 calls (a, (w, u)) = (a', (w', u')) /\ left_by call2 calls (a, u) = (a', u').
  Proof.
    intros S U O P interval call1 call2 H calls. induction calls as [|[st dt] calls IH]; intros a w u [Hs1 Hs2] Hw.
    { split; auto. exists a, w, u. auto. }
    inversion Hs1 as [|? ? [t Ht] Hs1']; subst. inversion Hs2 as [|? ? Hf Hs2']; subst. unfold at_time in Ht; cbn [fst] in Ht.
    destruct (H a w u st dt t Ht) as (a' & w' & u' & o & E1 & E2 & Hl).
    { intros t0 E0. specialize (Hw t0 E0). inversion Hw as [|? ? Hc _]; subst. apply Hc. exact Ht. }
    cbn [replies left_by fold_left fst snd]. rewrite E1, E2. cbn [fst]. destruct (IH a' w' u') as (I1 & I2).
    - split; auto.
    - intros t0 E0. destruct Hl as [Hl|Hl].
      + rewrite Hl in E0. specialize (Hw t0 E0). inversion Hw; auto.
      + assert (t = t0) by congruence. subst t0. eapply Forall_impl; [|exact Hf]. cbn. intros c Hc t2 Ht2. apply Hc; auto.
    - split; [f_equal; auto|auto].
  Qed.

  Lemma main_ab_transparent : forall {U} (component : U -> state T -> option Z -> U * res (tends T)) interval implicit pre post cfg calls a u,
    (implicit = true -> forall u st dt, snd (component u st (Some dt)) <> Err EType) -> spaced interval calls ->
    replies (adams_bashforth cfg (wrapped_among component interval implicit pre post)) calls (a, (new_ufw, u)) =
    replies (adams_bashforth cfg (plain_among component implicit pre post)) calls (a, u) /\
    exists a' w' u',
      left_by (adams_bashforth cfg (wrapped_among component interval implicit pre post)) calls (a, (new_ufw, u)) = (a', (w', u')) /\
      left_by (adams_bashforth cfg (plain_among component implicit pre post)) calls (a, u) = (a', u').
  Proof.
    intros U component interval implicit pre post cfg calls a u Hty Hs. eapply run_same; eauto.
    2:{ intros t0 E. discriminate E. }
    intros a0 w u0 st dt t Ht Hd.
    destruct (wrapped_due component interval implicit pre post w u0 st dt t Ht Hd Hty) as (w' & u' & r & E1 & E2 & Hl).
    destruct (ab_same _ _ cfg a0 _ _ st dt _ _ r E1 E2) as [(a' & o & F1 & F2)|(a' & o & F1 & F2)]; eauto 10.
  Qed.

  Lemma main_leap_transparent : forall {U} (component : U -> state T -> option Z -> U * res (tends T)) interval implicit pre post cfg calls l u,
    (implicit = true -> forall u st dt, snd (component u st (Some dt)) <> Err EType) -> spaced interval calls ->
    replies (with_state (leapfrog cfg (wrapped_among component interval implicit pre post))) calls (l, (new_ufw, u)) =
    replies (with_state (leapfrog cfg (plain_among component implicit pre post))) calls (l, u) /\
    exists l' w' u',
      left_by (with_state (leapfrog cfg (wrapped_among component interval implicit pre post))) calls (l, (new_ufw, u)) = (l', (w', u')) /\
      left_by (with_state (leapfrog cfg (plain_among component implicit pre post))) calls (l, u) = (l', u').
  Proof.
    intros U component interval implicit pre post cfg calls a u Hty Hs. eapply run_same; eauto.
    2:{ intros t0 E. discriminate E. }
    intros a0 w u0 st dt t Ht Hd.
    destruct (wrapped_due component interval implicit pre post w u0 st dt t Ht Hd Hty) as (w' & u' & r & E1 & E2 & Hl).
    destruct (leap_same _ _ cfg a0 _ _ st dt _ _ r E1 E2) as [(a' & o & F1 & F2)|(a' & o & F1 & F2)]; eauto 10.
  Qed.
End Facts.
