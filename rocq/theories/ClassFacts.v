(** Lemmas about ClassState.v (C17). *)
From Coq Require Import String List Bool Arith ZArith.
From Verif Require Import Prelude PreludeFacts ArithM NdArray Units DataArrayM Wildcard GetNp Restore Tracers Components
  ComponentFacts ClassState.
Import ListNotations.
Open Scope string_scope.
Open Scope nat_scope.
Open Scope list_scope.

(** The entry inserted for one output. *)
Definition entry_of (inp : pdict) (np : string * props) : res props :=
  let* ds := match p_dims (snd np) with
             | Some ds => Ok (ds, p_tuple (snd np))
             | None => let* q := dgetE (fst np) inp in
                       match p_dims q with Some ds => Ok (ds, p_tuple q) | None => Err EKey end
             end in
  let* u := match p_units (snd np) with Some u => Ok u | None => Err EKey end in
  Ok (mkprops (Some (fst ds)) (snd ds) (Some u) None false).

Lemma insert_step_entry : forall comp inp diag added np,
  insert_tendency_step comp inp (diag, added) np =
  let* e := entry_of inp np in
  Ok (dset (tendency_name comp (fst np)) e diag, added ++ [tendency_name comp (fst np)]).
Proof.
  intros comp inp diag added np. unfold insert_tendency_step, entry_of.
  match goal with |- bind ?x _ = _ => destruct x as [ds|e] end; cbn [bind]; auto.
  destruct (p_units (snd np)); cbn [bind]; auto.
Qed.

Lemma insert_shared_present : forall comp inp tend diag d l, NoDup (keys tend) ->
  insert_shared comp inp tend diag = (d, Ok l) ->
  (forall k, (forall X, In X (keys tend) -> k <> tendency_name comp X) -> dget k d = dget k diag) /\
  forall np, In np tend -> exists e, entry_of inp np = Ok e /\ dget (tendency_name comp (fst np)) d = Some e.
Proof.
  intros comp inp. induction tend as [|np tend IH]; intros diag d l Hnd H.
  - simpl in H. injection H as <- <-. split; auto. intros ? [].
  - cbn [insert_shared] in H. rewrite insert_step_entry in H.
    destruct (entry_of inp np) as [e|e] eqn:Ee; cbn [bind] in H; [|congruence].
    destruct (insert_shared comp inp tend (dset (tendency_name comp (fst np)) e diag)) as [d1 r] eqn:Er.
    injection H as <- Hr. apply bind_ok in Hr as (l1 & -> & _).
    simpl in Hnd. inversion Hnd as [|? ? Hni Hnd']; subst.
    destruct (IH _ _ _ Hnd' Er) as [H1 H2]. split.
    + intros k Hk. rewrite H1 by (intros; apply Hk; right; auto). apply dget_dset_neq. apply Hk; left; auto.
    + intros np' [<-|Hin]; [|auto]. exists e. split; auto.
      rewrite H1; [apply dget_dset_eq|]. intros X HX E. apply tendency_name_inj in E. subst; auto.
Qed.

Lemma insert_shared_again : forall comp inp tend diag,
  (forall np, In np tend -> exists e, entry_of inp np = Ok e /\ dget (tendency_name comp (fst np)) diag = Some e) ->
  exists l, insert_shared comp inp tend diag = (diag, Ok l).
Proof.
  intros comp inp. induction tend as [|np tend IH]; intros diag H; [exists []; reflexivity|].
  cbn [insert_shared]. rewrite insert_step_entry.
  destruct (H np (or_introl eq_refl)) as (e & -> & Hg). cbn [bind].
  rewrite dset_same by auto. assert (Hr : exists l, insert_shared comp inp tend diag = (diag, Ok l)) by (apply IH; intros; apply H; right; auto).
  destruct Hr as (l & ->). eexists; reflexivity.
Qed.

Section World.
  Context {R : Registry}.

  (** An instantiation that leaves the dictionaries of [i] alone: without
      tendencies_in_diagnostics, or of another class, or a twin of [i]. *)
  Definition harmless_to_tendency (i : inst) (o : creation) : Prop :=
    match o with
    | NewTendency cls name tid => tid = false \/ cls <> i_class i \/ (i_tid i = true /\ name = i_name i)
    | NewStepper _ _ _ => True
    end.

  Definition harmless_to_stepper (i : inst) (o : creation) : Prop :=
    match o with
    | NewTendency _ _ _ => True
    | NewStepper cls name tid => tid = false \/ cls <> i_class i
    end.

  Definition same_tracers (g g' : treg) : Prop := tr_units g = tr_units g' /\ tr_names g = tr_names g'.

  Lemma make_packer_tracers : forall g o outs g' r, make_packer g o outs = (g', r) -> same_tracers g g'.
  Proof.
    intros g o outs g' r H. unfold make_packer, new_packer in H.
    destruct o as [[[ds|] prep]|]; try (injection H as <- <-; split; reflexivity).
    destruct (get_quantity_dims ds) as [q|e]; [|injection H as <- <-; split; reflexivity].
    destruct (foldM _ prep tt) as [x|e]; [|injection H as <- <-; split; reflexivity].
    destruct (foldM _ (tr_units g) tt) as [y|e]; injection H as <- <-; split; reflexivity.
  Qed.

  (** What an instance relies on. *)
  Definition settled (i : inst) (w : world) : Prop :=
    i_tid i = true -> forall k, dget (i_class i) (w_t w) = Some k ->
      NoDup (keys (k_tend k)) /\
      forall np, In np (k_tend k) -> exists e, entry_of (k_inp k) np = Ok e /\
        dget (tendency_name (i_name i) (fst np)) (k_diag k) = Some e.

  Lemma create_keeps_tendency : forall w i o w' r, settled i w -> harmless_to_tendency i o ->
    create w o = (w', r) ->
    dget (i_class i) (w_t w') = dget (i_class i) (w_t w) /\ same_tracers (w_reg w) (w_reg w').
  Proof.
    intros w i [cls name tid|cls name tid] w' r Hs Hh H; simpl in H.
    - unfold new_tendency in H. destruct (dget cls (w_t w)) as [k|] eqn:Ek; [|injection H as <- <-; repeat split; auto].
      match type of H with match ?x with _ => _ end = _ => destruct x as [x0|e] end;
        [|injection H as <- <-; repeat split; auto].
      destruct (if tid then insert_shared name (k_inp k) (k_tend k) (k_diag k) else (k_diag k, Ok []))
        as [diag' r'] eqn:Ei.
      assert (Hd : dget (i_class i) (dset cls (mktclass (k_impl k) (k_inp k) (k_tend k) diag' (k_tro k) (k_tunit k)) (w_t w))
                   = dget (i_class i) (w_t w)).
      { destruct (String.eqb (i_class i) cls) eqn:E.
        2:{ apply String.eqb_neq in E. apply dget_dset_neq; auto. }
        apply String.eqb_eq in E. rewrite E, dget_dset_eq, Ek. f_equal.
        assert (diag' = k_diag k) as ->; [|destruct k; reflexivity].
        destruct Hh as [-> |[Hn|(Ht & ->)]]; [injection Ei as <- _; auto|congruence|].
        destruct tid; [|injection Ei as <- _; auto].
        rewrite <- E in Ek. destruct (Hs Ht k Ek) as [_ Hp].
        destruct (insert_shared_again (i_name i) (k_inp k) (k_tend k) (k_diag k) Hp) as (l & El).
        rewrite El in Ei. injection Ei as <- _. auto. }
      destruct r' as [added|e].
      + destruct (make_packer (w_reg w) (k_tro k) (keys (k_tend k))) as [g' rp] eqn:Ep.
        injection H as <- <-. simpl. split; auto. eapply make_packer_tracers; eauto.
      + injection H as <- <-. simpl. split; auto. split; auto.
    - unfold new_stepper in H. destruct (dget cls (w_s w)) as [k|]; [|injection H as <- <-; repeat split; auto].
      match type of H with match ?x with _ => _ end = _ => destruct x as [x0|e] end;
        [|injection H as <- <-; repeat split; auto].
      destruct (if tid then stepper_insert_shared name (m_out k) (m_inp k) (m_diag k) else (m_inp k, m_diag k, Ok []))
        as [[inp' diag'] r'].
      destruct r' as [added|e].
      + destruct (make_packer (w_reg w) (m_tro k) (keys (m_out k))) as [g' rp] eqn:Ep.
        injection H as <- <-. simpl. split; auto. eapply make_packer_tracers; eauto.
      + injection H as <- <-. simpl. split; auto. split; auto.
  Qed.

  Lemma create_keeps_stepper : forall w i o w' r, harmless_to_stepper i o ->
    create w o = (w', r) ->
    dget (i_class i) (w_s w') = dget (i_class i) (w_s w) /\ same_tracers (w_reg w) (w_reg w').
  Proof.
    intros w i [cls name tid|cls name tid] w' r Hh H; simpl in H.
    - unfold new_tendency in H. destruct (dget cls (w_t w)) as [k|] eqn:Ek; [|injection H as <- <-; repeat split; auto].
      match type of H with match ?x with _ => _ end = _ => destruct x as [x0|e] end;
        [|injection H as <- <-; repeat split; auto].
      destruct (if tid then insert_shared name (k_inp k) (k_tend k) (k_diag k) else (k_diag k, Ok []))
        as [diag' r'] eqn:Ei.
      destruct r' as [added|e].
      + destruct (make_packer (w_reg w) (k_tro k) (keys (k_tend k))) as [g' rp] eqn:Ep.
        injection H as <- <-. simpl. split; auto. eapply make_packer_tracers; eauto.
      + injection H as <- <-. simpl. split; auto. split; auto.
    - unfold new_stepper in H. destruct (dget cls (w_s w)) as [k|] eqn:Ek; [|injection H as <- <-; repeat split; auto].
      match type of H with match ?x with _ => _ end = _ => destruct x as [x0|e] end;
        [|injection H as <- <-; repeat split; auto].
      destruct (if tid then stepper_insert_shared name (m_out k) (m_inp k) (m_diag k) else (m_inp k, m_diag k, Ok []))
        as [[inp' diag'] r'] eqn:Ei.
      assert (Hd : dget (i_class i) (dset cls (mksclass inp' diag' (m_out k) (m_tro k) (m_tu k)) (w_s w))
                   = dget (i_class i) (w_s w)).
      { destruct (String.eqb (i_class i) cls) eqn:E.
        2:{ apply String.eqb_neq in E. apply dget_dset_neq; auto. }
        apply String.eqb_eq in E. rewrite E, dget_dset_eq, Ek. f_equal.
        destruct Hh as [-> |Hn]; [|congruence]. injection Ei as <- <- _. destruct k; reflexivity. }
      destruct r' as [added|e].
      + destruct (make_packer (w_reg w) (m_tro k) (keys (m_out k))) as [g' rp] eqn:Ep.
        injection H as <- <-. simpl. split; auto. eapply make_packer_tracers; eauto.
      + injection H as <- <-. simpl. split; auto. split; auto.
  Qed.

  Lemma same_tracers_trans : forall a b c, same_tracers a b -> same_tracers b c -> same_tracers a c.
  Proof. intros a b c [H1 H2] [H3 H4]. split; congruence. Qed.

  Lemma create_all_keeps_tendency : forall i l w, settled i w -> Forall (harmless_to_tendency i) l ->
    dget (i_class i) (w_t (create_all w l)) = dget (i_class i) (w_t w) /\
    same_tracers (w_reg w) (w_reg (create_all w l)).
  Proof.
    intros i. unfold create_all. induction l as [|o l IH]; intros w Hs Hl; simpl; [repeat split; auto|].
    inversion Hl as [|? ? Ho Hl']; subst. destruct (create w o) as [w' r] eqn:E. simpl.
    destruct (create_keeps_tendency w i o w' r Hs Ho E) as [E1 E2].
    destruct (IH w') as [E3 E4]; auto.
    { unfold settled in *. rewrite E1. auto. }
    split; [congruence|]. eapply same_tracers_trans; eauto.
  Qed.

  Lemma create_all_keeps_stepper : forall i l w, Forall (harmless_to_stepper i) l ->
    dget (i_class i) (w_s (create_all w l)) = dget (i_class i) (w_s w) /\
    same_tracers (w_reg w) (w_reg (create_all w l)).
  Proof.
    intros i. unfold create_all. induction l as [|o l IH]; intros w Hl; simpl; [repeat split; auto|].
    inversion Hl as [|? ? Ho Hl']; subst. destruct (create w o) as [w' r] eqn:E. simpl.
    destruct (create_keeps_stepper w i o w' r Ho E) as [E1 E2].
    destruct (IH w') as [E3 E4]; auto.
    split; [congruence|]. eapply same_tracers_trans; eauto.
  Qed.

  Lemma new_tendency_settled : forall w cls name tid w' i,
    (forall c k, dget c (w_t w) = Some k -> NoDup (keys (k_tend k))) ->
    new_tendency w cls name tid = (w', Ok i) ->
    i_class i = cls /\ i_name i = name /\ i_tid i = tid /\ settled i w'.
  Proof.
    intros w cls name tid w' i Hnd H. unfold new_tendency in H.
    destruct (dget cls (w_t w)) as [k|] eqn:Ek; [|discriminate].
    match type of H with match ?x with _ => _ end = _ => destruct x as [x0|e] end; [|discriminate].
    destruct (if tid then insert_shared name (k_inp k) (k_tend k) (k_diag k) else (k_diag k, Ok []))
      as [diag' r'] eqn:Ei.
    destruct r' as [added|e]; [|discriminate].
    destruct (make_packer (w_reg w) (k_tro k) (keys (k_tend k))) as [g' rp].
    injection H as <- H. apply bind_ok in H as (pk & -> & H). injection H as <-. simpl. repeat split; auto.
    - simpl in *. rewrite dget_dset_eq in H0. injection H0 as <-. simpl. eapply Hnd; eauto.
    - simpl in *. rewrite dget_dset_eq in H0. injection H0 as <-. simpl. subst tid.
      eapply insert_shared_present; eauto.
  Qed.

  Section Calls.
    Context {T : Type} {A : Arith T}.

    Lemma tendency_call_tracers : forall {U} g g' c
        (ac : U -> dict (rval T) -> U * res (dict (nd T) * dict (nd T))) u st, same_tracers g g' ->
      tendency_call g c ac u st = tendency_call g' c ac u st.
    Proof. intros U [a b p] [a' b' p'] c ac u st [H1 H2]. simpl in H1, H2. subst. reflexivity. Qed.

    Lemma stepper_call_tracers : forall {U} g g' c
        (ac : U -> dict (rval T) -> Z -> U * res (dict (nd T) * dict (nd T))) u st dt, same_tracers g g' ->
      stepper_call g c ac u st dt = stepper_call g' c ac u st dt.
    Proof. intros U [a b p] [a' b' p'] c ac u st dt [H1 H2]. simpl in H1, H2. subst. reflexivity. Qed.

    Lemma tendency_unaffected : forall {U} w0 cls name tid w i l
        (ac : U -> dict (rval T) -> U * res (dict (nd T) * dict (nd T))) u st,
      (forall c k, dget c (w_t w0) = Some k -> NoDup (keys (k_tend k))) ->
      new_tendency w0 cls name tid = (w, Ok i) -> Forall (harmless_to_tendency i) l ->
      call_tendency (create_all w l) i ac u st = call_tendency w i ac u st.
    Proof.
      intros U w0 cls name tid w i l ac u st Hnd Hn Hl.
      destruct (new_tendency_settled _ _ _ _ _ _ Hnd Hn) as (_ & _ & _ & Hs).
      destruct (create_all_keeps_tendency i l w Hs Hl) as [E1 E2].
      unfold call_tendency, tendency_of. rewrite E1. destruct (dget (i_class i) (w_t w)) as [k|]; auto.
      symmetry. apply tendency_call_tracers; auto.
    Qed.

    Lemma stepper_unaffected : forall {U} w i l
        (ac : U -> dict (rval T) -> Z -> U * res (dict (nd T) * dict (nd T))) u st dt,
      Forall (harmless_to_stepper i) l ->
      call_stepper (create_all w l) i ac u st dt = call_stepper w i ac u st dt.
    Proof.
      intros U w i l ac u st dt Hl.
      destruct (create_all_keeps_stepper i l w Hl) as [E1 E2].
      unfold call_stepper, stepper_of. rewrite E1. destruct (dget (i_class i) (w_s w)) as [k|]; auto.
      symmetry. apply stepper_call_tracers; auto.
    Qed.
  End Calls.
End World.
