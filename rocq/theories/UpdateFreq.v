(** Lemmas about the UpdateFrequencyWrapper (C41). *)
From Coq Require Import String List Bool Arith ZArith Lia.
From Verif Require Import Prelude PreludeFacts ArithM DataArrayM Basic SpecBasic.
Import ListNotations.
Open Scope string_scope.
Open Scope nat_scope.
Open Scope list_scope.

Section Freq.
  Context {T O U : Type} (component : U -> state T -> option Z -> U * res O).

  Lemma last_update_snoc : forall (log : list (ucall O)) e, last_update (log ++ [e]) =
    match last_ok (uc_tried e) with Some o => Some (uc_time e, o) | None => last_update log end.
  Proof.
    induction log as [|e0 log IH]; intros e; cbn [app last_update].
    - destruct (last_ok (uc_tried e)); auto.
    - rewrite IH. destruct (last_ok (uc_tried e)); auto.
  Qed.

  (** What the wrapper remembers after any calls. *)
  Definition remembers (w : ufw O) (lu : option (Z * O)) : Prop :=
    match lu with
    | None => w = mkufw None None
    | Some (t, o) => w = mkufw (Some o) (Some t)
    end.

  (** The calls made when new output is due. *)
  Lemma call_recorded : forall u st ts u' tried r,
    call_component (recording component) (u, []) st ts = ((u', tried), r) ->
    match tried with
    | [(ts1, r1)] => ts1 = ts /\ r1 = r /\ (ts = None \/ r <> Err EType)
    | [(ts1, r1); (ts2, r2)] => ts <> None /\ ts1 = ts /\ r1 = Err EType /\ ts2 = None /\ r2 = r
    | _ => False
    end.
  Proof.
    intros u st [dt|] u' tried r H; unfold call_component, recording in H; cbn [fst snd] in H.
    - destruct (component u st (Some dt)) as [u1 r1]. cbn [app] in H.
      destruct r1 as [o|e].
      { injection H as <- <- <-. split; auto. split; auto. right. discriminate. }
      destruct e; try (injection H as <- <- <-; split; auto; split; auto; right; discriminate).
      cbn [fst snd] in H. destruct (component u1 st None) as [u2 r2]. injection H as <- <- <-. cbn [app].
      split; [discriminate|]. auto.
    - destruct (component u st None) as [u1 r1]. injection H as <- <- <-. cbn [app]. auto.
  Qed.

  Lemma remembers_step : forall interval w u st t ts w' u' tried out lu, remembers w lu -> dget "time" st = Some (VTime t) ->
    uf_call (recording component) interval (w, (u, [])) st ts = ((w', (u', tried)), out) ->
    remembers w' (match last_ok tried with Some o => Some (t, o) | None => lu end) /\
    match lu with
    | Some (t0, o0) => if (t <? t0 + interval)%Z then tried = [] /\ out = Ok (Some o0) /\ u' = u else tried <> []
    | None => tried <> []
    end /\
    (tried <> [] -> call_component (recording component) (u, []) st ts =
       ((u', tried), match out with Ok (Some o) => Ok o | Ok None => Err EKey | Err e => Err e end) /\ out <> Ok None).
  Proof.
    intros interval w u st t ts w' u' tried out lu Hr Ht H. unfold uf_call in H.
    assert (Hst : state_time st = Ok t) by (unfold state_time, dgetE; rewrite Ht; reflexivity).
    assert (Hdue : update_due interval w st = Ok (match lu with Some (t0, _) => (t0 + interval <=? t)%Z | None => true end)).
    { unfold update_due. destruct lu as [[t0 o0]|]; cbn [remembers] in Hr; subst w; cbn [uf_last]; auto. rewrite Hst. reflexivity. }
    rewrite Hdue in H. destruct (match lu with Some (t0, _) => (t0 + interval <=? t)%Z | None => true end) eqn:Hd.
    - destruct (call_component (recording component) (u, []) st ts) as [[u1 tried1] r] eqn:Hc.
      assert (Hne : tried1 <> []) by (pose proof (call_recorded _ _ _ _ _ _ Hc) as K; destruct tried1; [destruct K|discriminate]).
      assert (Hlast : last_ok tried1 = match r with Ok o => Some o | Err _ => None end).
      { pose proof (call_recorded _ _ _ _ _ _ Hc) as K. unfold last_ok.
        destruct tried1 as [|[a1 b1] [|[a2 b2] [|]]]; try (exfalso; exact K); cbn [map last snd].
        - destruct K as (_ & -> & _); auto.  - destruct K as (_ & _ & _ & _ & ->); auto. }
      destruct r as [o|e].
      + rewrite Hst in H. injection H as <- <- <- <-. rewrite Hlast. split; [reflexivity|]. split.
        * destruct lu as [[t0 o0]|]; auto. rewrite Z.leb_le in Hd. destruct (Z.ltb_spec t (t0 + interval)); [lia|auto].
        * intros _. split; [auto|discriminate].
      + injection H as <- <- <- <-. rewrite Hlast. split; auto. split.
        * destruct lu as [[t0 o0]|]; auto. rewrite Z.leb_le in Hd. destruct (Z.ltb_spec t (t0 + interval)); [lia|auto].
        * intros _. split; [auto|discriminate].
    - destruct lu as [[t0 o0]|]; [|discriminate Hd]. cbn [remembers] in Hr. injection H as <- <- <- <-. cbn. split; auto. subst w.
      cbn [uf_cache]. rewrite Z.leb_gt in Hd. destruct (Z.ltb_spec t (t0 + interval)); [|lia]. split; auto.
      intros Hn. exfalso. apply Hn. auto.
  Qed.

  Lemma history_remembers : forall interval u s0 log s, uhistory (uf_call (recording component) interval) s0 log s ->
    s0 = (new_ufw, u) -> remembers (fst s) (last_update log).
  Proof.
    intros interval u s0 log s H. induction H as [s|s0 log w u1 st t ts w' u' tried out H IH Ht Hc]; intros ->.
    - reflexivity.
    - specialize (IH eq_refl). rewrite last_update_snoc. cbn [uc_tried uc_time fst] in *.
      apply (remembers_step _ _ _ _ _ _ _ _ _ _ _ IH Ht Hc).
  Qed.

  (** The whole contract, over any history of calls. *)
  Lemma main_update_frequency : forall interval u log s, uhistory (uf_call (recording component) interval) (new_ufw, u) log s ->
    forall pre e post, log = pre ++ e :: post ->
    match last_update pre with
    | Some (t0, o0) => ((uc_time e < t0 + interval)%Z -> uc_tried e = [] /\ uc_out e = Ok (Some o0)) /\
                       ((t0 + interval <= uc_time e)%Z -> uc_tried e <> [])
    | None => uc_tried e <> []
    end /\
    match uc_tried e with
    | [] => True
    | [(ts, r)] => ts = uc_step e /\ uc_out e = (let* o := r in Ok (Some o)) /\ (uc_step e = None \/ r <> Err EType)
    | [(ts, r); (ts', r')] => uc_step e <> None /\ ts = uc_step e /\ r = Err EType /\ ts' = None /\ uc_out e = (let* o := r' in Ok (Some o))
    | _ => False
    end.
  Proof.
    intros interval u log s H. remember (new_ufw, u) as s0 eqn:E0.
    induction H as [s|s0 log w u1 st t ts w' u' tried out H IH Ht Hc]; intros pre e post E.
    - destruct pre; discriminate E.
    - destruct post as [|e' post] using rev_ind.
      2:{ clear IHpost. rewrite app_comm_cons, app_assoc in E. apply app_inj_tail in E as [-> _]. eapply IH; eauto. }
      apply app_inj_tail in E as [-> <-]. pose proof (history_remembers _ _ _ _ _ H E0) as Hrem. cbn [fst] in Hrem.
      destruct (remembers_step _ _ _ _ _ _ _ _ _ _ _ Hrem Ht Hc) as (_ & Hl & Hcall). cbn [uc_time uc_tried uc_out uc_step].
      split.
      + destruct (last_update pre) as [[t0 o0]|]; auto. destruct (Z.ltb_spec t (t0 + interval)).
        * split; [tauto|lia].
        * split; [lia|auto].
      + destruct tried as [|p tried]; auto. destruct Hcall as [Hcall Hno]; [discriminate|].
        apply call_recorded in Hcall. destruct p as [ts1 r1]. destruct tried as [|[ts2 r2] [|]]; auto.
        * destruct Hcall as (-> & -> & K). split; auto. split; [destruct out as [[o|]|]; auto; congruence|auto].
        * destruct Hcall as (K & -> & -> & -> & ->). repeat split; auto. destruct out as [[o|]|]; auto; congruence.
  Qed.

  (** Recording changes nothing else. *)
  Lemma main_recording_same : forall interval w u l st ts w' u' out,
    uf_call component interval (w, u) st ts = ((w', u'), out) <->
    exists l', uf_call (recording component) interval (w, (u, l)) st ts = ((w', (u', l')), out).
  Proof.
    intros interval w u l st ts w' u' out. unfold uf_call. destruct (update_due interval w st) as [[|]|e].
    2,3: split; [intros H; injection H as <- <- <-; exists l; auto|intros (l' & H); injection H as <- <- _ <-; auto].
    assert (Hc : exists l1, call_component (recording component) (u, l) st ts =
              ((fst (call_component component u st ts), l1), snd (call_component component u st ts))).
    { unfold call_component, recording. cbn [fst snd]. destruct ts as [dt|].
      - destruct (component u st (Some dt)) as [u1 [o|e]]; cbn [fst snd]; [eauto|].
        destruct e; eauto. destruct (component u1 st None) as [u2 r2]. cbn [fst snd]. eauto.
      - destruct (component u st None) as [u1 r1]. cbn [fst snd]. eauto. }
    destruct Hc as (l1 & ->). destruct (call_component component u st ts) as [u1 [o|e]]; cbn [fst snd].
    - destruct (state_time st).
      all: split; [intros H; injection H as <- <- <-; exists l1; auto|intros (l' & H); injection H as <- <- _ <-; auto].
    - split; [intros H; injection H as <- <- <-; exists l1; auto|intros (l' & H); injection H as <- <- _ <-; auto].
  Qed.

  Lemma uhistory_prefix : forall interval (s0 : ufw O * U) log s, uhistory (uf_call (recording component) interval) s0 log s ->
    forall pre post, log = pre ++ post -> exists s', uhistory (uf_call (recording component) interval) s0 pre s'.
  Proof.
    intros interval s0 log s H. induction H as [s|s0 log w u1 st t ts w' u' tried out H IH Ht Hc]; intros pre post E.
    - destruct pre; [|discriminate E]. exists s. constructor.
    - destruct post as [|e post] using rev_ind.
      + rewrite app_nil_r in E. subst pre. eexists. econstructor; eauto.
      + clear IHpost. rewrite app_assoc in E. apply app_inj_tail in E as [E _]. eauto.
  Qed.

  Lemma mod_next : forall k m, 0 < m -> Datatypes.S k mod m = 0 /\ k mod m = m - 1 \/ Datatypes.S k mod m = Datatypes.S (k mod m) /\ Datatypes.S (k mod m) < m.
  Proof.
    intros k m Hm. pose proof (Nat.div_mod k m). pose proof (Nat.mod_upper_bound k m). 
    destruct (Nat.eq_dec (Datatypes.S (k mod m)) m) as [E|E].
    - left. split; [|lia]. symmetry. apply (Nat.mod_unique (Datatypes.S k) m (Datatypes.S (k / m)) 0); [lia|nia].
    - right. split; [|lia]. symmetry. apply (Nat.mod_unique (Datatypes.S k) m (k / m) (Datatypes.S (k mod m))); lia.
  Qed.

  (** Under a fixed timestep: the last update was [k mod m] calls ago. *)
  Lemma regular_last : forall interval dt t0 m u, (0 < dt)%Z -> 0 < m -> (interval <= Z.of_nat m * dt)%Z ->
    (m = 1 \/ (Z.of_nat (m - 1) * dt < interval)%Z) ->
    forall log s, uhistory (uf_call (recording component) interval) (new_ufw, u) log s ->
    (forall k e, nth_error log k = Some e -> uc_time e = (t0 + Z.of_nat k * dt)%Z /\ exists o, uc_out e = Ok o) ->
    (forall k e, nth_error log k = Some e -> uc_tried e <> [] <-> k mod m = 0) /\
    (forall k, length log = Datatypes.S k -> exists o e, last_update log = Some ((t0 + Z.of_nat (k - k mod m) * dt)%Z, o) /\
       nth_error log (k - k mod m) = Some e /\ uc_out e = Ok (Some o)) /\
    (forall k e, nth_error log k = Some e -> exists e0, nth_error log (k - k mod m) = Some e0 /\ uc_tried e0 <> [] /\ uc_out e0 = uc_out e).
  Proof.
    intros interval dt t0 m u Hdt Hm Hi Hi' log. induction log as [|e log IH] using rev_ind; intros s H Ht.
    { split; [|split]; intros k; [intros e E|intros E|intros e E]; try (destruct k; discriminate E); discriminate E. }
    destruct (uhistory_prefix _ _ _ _ H log [e] eq_refl) as (s' & H').
    assert (Hpre : forall k x, nth_error log k = Some x -> nth_error (log ++ [e]) k = Some x).
    { intros k x E. rewrite nth_error_app1; auto. apply nth_error_Some. congruence. }
    destruct (IH s' H') as (I1 & I2 & I3); [intros k x E; apply Ht; auto|].
    assert (En : nth_error (log ++ [e]) (length log) = Some e) by (rewrite nth_error_app2, Nat.sub_diag; auto).
    destruct (Ht _ _ En) as (Et & o & Eo).
    destruct (main_update_frequency _ _ _ _ H log e [] eq_refl) as (M1 & M2).
    assert (Hok : uc_tried e <> [] -> exists o', last_ok (uc_tried e) = Some o' /\ uc_out e = Ok (Some o')).
    { intros Hne. destruct (uc_tried e) as [|[ts1 r1] [|[ts2 r2] [|]]]; [congruence| | |destruct M2].
      - destruct M2 as (_ & M2 & _). rewrite Eo in M2. destruct r1 as [o'|]; [|discriminate M2]. cbn [bind] in M2. exists o'. split; [reflexivity|congruence].
      - destruct M2 as (_ & _ & _ & _ & M2). rewrite Eo in M2. destruct r2 as [o'|]; [|discriminate M2]. cbn [bind] in M2. exists o'. split; [reflexivity|congruence]. }
    assert (Hcase : (uc_tried e <> [] <-> length log mod m = 0) /\
      exists o' e', last_update (log ++ [e]) = Some ((t0 + Z.of_nat (length log - length log mod m) * dt)%Z, o') /\
        nth_error (log ++ [e]) (length log - length log mod m) = Some e' /\ uc_tried e' <> [] /\ uc_out e' = Ok (Some o') /\ uc_out e = Ok (Some o')).
    { rewrite last_update_snoc. destruct (length log) as [|n] eqn:El.
      - destruct log; [|discriminate El]. cbn [last_update] in M1. rewrite Nat.mod_0_l by lia. split; [tauto|].
        destruct (Hok M1) as (o' & Hl & Ho). exists o', e. rewrite Hl, Et. cbn [app nth_error Nat.sub]. auto.
      - destruct (I2 n eq_refl) as (o0 & e0 & Hu & He0 & Ho0). rewrite Hu in M1. destruct M1 as [Mn Md]. rewrite Et in Mn, Md.
        pose proof (Nat.mod_le n m ltac:(lia)) as Hle.
        assert (Ez : Z.of_nat (n - n mod m) = (Z.of_nat n - Z.of_nat (n mod m))%Z) by lia. rewrite Ez in *.
        destruct (mod_next n m Hm) as [[E0 E1]|[E0 E1]].
        + rewrite E0 in *. assert (Hne : uc_tried e <> []).
          { apply Md. rewrite E1. replace (Z.of_nat (Datatypes.S n)) with (Z.of_nat n + 1)%Z by lia. rewrite Nat2Z.inj_sub by lia. nia. }
          split; [tauto|]. destruct (Hok Hne) as (o' & Hl & Ho). exists o', e. rewrite Hl, Et, Nat.sub_0_r, En. auto.
        + assert (Hn : uc_tried e = [] /\ uc_out e = Ok (Some o0)).
          { apply Mn. destruct Hi' as [->|Hi']; [lia|]. replace (Z.of_nat (Datatypes.S n)) with (Z.of_nat n + 1)%Z by lia. 
            rewrite Nat2Z.inj_sub in Hi' by lia. nia. }
          destruct Hn as [Hn Ho]. rewrite E0. split; [rewrite Hn; split; [congruence|lia]|].
          replace (Datatypes.S n - Datatypes.S (n mod m)) with (n - n mod m) by lia. exists o0, e0. rewrite Hn. cbn [last_ok map last].
          rewrite Ez, Hu. split; [reflexivity|]. split; [apply Hpre; auto|]. split; [|auto].
          apply (I1 _ _ He0). pose proof (Nat.div_mod n m ltac:(lia)). replace (n - n mod m) with ((n / m) * m) by nia. apply Nat.mod_mul. lia. }
    destruct Hcase as (C1 & o' & e' & C2 & C3 & C4 & C5 & C6).
    assert (Hsplit : forall k x, nth_error (log ++ [e]) k = Some x -> k = length log /\ x = e \/ nth_error log k = Some x).
    { intros k x E. destruct (Nat.lt_ge_cases k (length log)) as [L|L]; [rewrite nth_error_app1 in E; auto|].
      rewrite nth_error_app2 in E by lia. destruct (k - length log) as [|j] eqn:Ek; [|destruct j; discriminate E].
      left. split; [lia|]. cbn in E. congruence. }
    split; [|split].
    - intros k x E. destruct (Hsplit k x E) as [[-> ->]|E']; auto.
    - intros k E. rewrite app_length in E. cbn in E. assert (k = length log) as -> by lia. exists o', e'. auto.
    - intros k x E. destruct (Hsplit k x E) as [[-> ->]|E'].
      + exists e'. rewrite C5, C6. auto.
      + destruct (I3 k x E') as (x0 & X1 & X2). exists x0. auto.
  Qed.

  (** The contract under a fixed timestep. *)
  Lemma main_regular : forall interval dt t0 m u, (0 < dt)%Z -> 0 < m -> (interval <= Z.of_nat m * dt)%Z ->
    (m = 1 \/ (Z.of_nat (m - 1) * dt < interval)%Z) ->
    forall log s, uhistory (uf_call (recording component) interval) (new_ufw, u) log s ->
    (forall k e, nth_error log k = Some e -> uc_time e = (t0 + Z.of_nat k * dt)%Z /\ exists o, uc_out e = Ok o) ->
    forall k e, nth_error log k = Some e ->
      (uc_tried e <> [] <-> k mod m = 0) /\
      exists e0, nth_error log (k - k mod m) = Some e0 /\ uc_tried e0 <> [] /\ uc_out e0 = uc_out e.
  Proof.
    intros interval dt t0 m u H1 H2 H3 H4 log s H Ht k e E. destruct (regular_last _ _ _ _ _ H1 H2 H3 H4 _ _ H Ht) as (K1 & _ & K3). auto.
  Qed.
End Freq.
