(** Resuming a run from a stored state (C78). *)
From Coq Require Import String List Bool Arith ZArith QArith Lia.
From Verif Require Import Prelude PreludeFacts ArithM NdArray NdFacts Units DataArrayM GetNp Components Composite Steppers Basic MainLoop
  SpecUnits UnitsFacts SpecDa DaFacts SpecComposite SpecSteppers SteppersFacts ABFacts RKFacts SpecMainLoop SpecResume.
Import ListNotations.
Open Scope string_scope.
Open Scope nat_scope.
Open Scope list_scope.

Section Resume.
  Context {T : Type} {A : Arith T} {R : Registry}.

  Lemma same_refl : forall st : state T, NoDup (keys st) -> same_state st st.
  Proof. intros st H. split; auto. Qed.

  Lemma same_sym : forall st st' : state T, same_state st st' -> same_state st' st.
  Proof. intros st st' (H1 & H2 & H3). split; auto. Qed.

  Lemma same_trans : forall a b c : state T, same_state a b -> same_state b c -> same_state a c.
  Proof. intros a b c (H1 & H2 & H3) (K1 & K2 & K3). split; auto. split; auto. intros X. rewrite H3. auto. Qed.

  Lemma same_copy : forall (st st' new new' : state T), same_state st st' -> same_state new new' ->
    same_state (copy_untouched st new) (copy_untouched st' new').
  Proof.
    intros st st' new new' (H1 & H2 & H3) (K1 & K2 & K3). split; [apply NoDup_copy_untouched; auto|]. split; [apply NoDup_copy_untouched; auto|].
    intros X. rewrite !copy_untouched_get, H3, K3. auto.
  Qed.

  Lemma same_time_first : forall st st' : state T, same_state st st' -> time_first st = time_first st'.
  Proof. intros st st' (_ & _ & H). unfold time_first. rewrite H. auto. Qed.

  Lemma same_dset : forall k v (st st' : state T), same_state st st' -> same_state (dset k v st) (dset k v st').
  Proof.
    intros k v st st' (H1 & H2 & H3). split; [apply NoDup_dset; auto|]. split; [apply NoDup_dset; auto|]. intros X.
    destruct (string_dec X k) as [->|Hne]; [rewrite !dget_dset_eq; auto|rewrite !dget_dset_neq by auto; auto].
  Qed.

  (** ** Arithmetic on states *)

  Lemma fold_result : forall (g : string -> da T -> res (da T)) l acc, NoDup (keys l) ->
    (exists out, foldM (tstep_fold g) l acc = Ok out) <->
    forall X v, In (X, v) l -> X <> "time" -> exists a b, v = VDA a /\ g X a = Ok b.
  Proof.
    intros g l. induction l as [|[k v] l IH]; intros acc Hn; cbn [foldM].
    - split; [intros _ ? ? []|eauto].
    - inversion Hn as [|? ? Hk Hn']; subst. unfold tstep_fold at 1. cbn [fst snd]. destruct (String.eqb k "time") eqn:E; cbn [bind].
      + rewrite IH by auto. split; intros H X v' Hi Hne.
        * destruct Hi as [Hi|Hi]; auto. injection Hi as <- <-. apply String.eqb_eq in E. congruence.
        * apply H; auto. right; auto.
      + apply String.eqb_neq in E. destruct v as [a|t]; cbn [bind].
        * destruct (g k a) as [b|e] eqn:Eg; cbn [bind].
          -- rewrite IH by auto. split; intros H X v' Hi Hne.
             ++ destruct Hi as [Hi|Hi]; auto. injection Hi as <- <-. eauto.
             ++ apply H; auto. right; auto.
          -- split; [intros (out & H); discriminate|]. intros H. destruct (H k (VDA a)) as (a' & b & E1 & E2); auto; [left; auto|].
             injection E1 as <-. congruence.
        * split; [intros (out & H); discriminate|]. intros H. destruct (H k (VTime t)) as (a' & b & E1 & E2); auto; [left; auto|]. discriminate.
  Qed.

  Definition same_res (r r' : res (state T)) : Prop :=
    match r, r' with
    | Ok s, Ok s' => same_state s s'
    | Err _, Err _ => True
    | _, _ => False
    end.

  Lemma same_fold : forall g (l l' : state T), same_state l l' ->
    same_res (foldM (tstep_fold g) l (time_first l)) (foldM (tstep_fold g) l' (time_first l')).
  Proof.
    intros g l l' Hs. rewrite <- (same_time_first _ _ Hs). pose proof Hs as (H1 & H2 & H3).
    assert (Hin : forall X v, In (X, v) l <-> In (X, v) l').
    { intros X v. split; intros Hi; apply dget_In; apply dget_NoDup_In in Hi; auto; congruence. }
    destruct (foldM (tstep_fold g) l (time_first l)) as [o|e] eqn:E; destruct (foldM (tstep_fold g) l' (time_first l)) as [o'|e'] eqn:E'; cbn [same_res]; auto.
    - destruct (tstep_fold_ok _ _ _ _ E H1) as (A1 & A2 & A3). destruct (tstep_fold_ok _ _ _ _ E' H2) as (B1 & B2 & B3).
      destruct (time_first_get l) as (F1 & F2 & F3). split; auto. split; auto. intros X.
      destruct (string_dec X "time") as [->|Hne]; [congruence|]. specialize (A2 X Hne). specialize (B2 X Hne). rewrite H3 in A2.
      destruct (dget X l') as [[a|t]|]; [|destruct A2|congruence]. destruct A2 as (b & K1 & ->). destruct B2 as (b' & K2 & ->). congruence.
    - pose proof (proj1 (fold_result g l (time_first l) H1) (ex_intro _ _ E)) as G.
      destruct (proj2 (fold_result g l' (time_first l) H2)) as (x & Hx); [|congruence]. intros X v Hi. apply G. apply Hin; auto.
    - pose proof (proj1 (fold_result g l' (time_first l) H2) (ex_intro _ _ E')) as G.
      destruct (proj2 (fold_result g l (time_first l) H1)) as (x & Hx); [|congruence]. intros X v Hi. apply G. apply Hin; auto.
  Qed.

  Lemma same_multiply : forall x (st st' : state T), same_state st st' -> same_res (multiply x st) (multiply x st').
  Proof. intros x st st' H. exact (same_fold (fun _ a => Ok (da_map (fun y => amul x y) (attrs a) a)) _ _ H). Qed.

  Lemma add_states_fold : forall st1 st2 : state T,
    add_states st1 st2 = foldM (tstep_fold (fun k a => let* b := state_da k st2 in da_add a b)) st1 (time_first st1).
  Proof.
    intros st1 st2. unfold add_states. generalize (time_first st1). induction st1 as [|[k v] l IH]; intros acc; cbn [foldM]; auto.
    assert (Es : tstep_fold (fun k a => let* b := state_da k st2 in da_add a b) acc (k, v) = add_states_step st2 acc (k, v)).
    { unfold tstep_fold, add_states_step. cbn [fst snd]. destruct (String.eqb k "time"); auto. destruct v as [a|]; auto.
      destruct (state_da k st2); cbn [bind]; auto. }
    rewrite Es. destruct (add_states_step st2 acc (k, v)); cbn [bind]; auto.
  Qed.

  Lemma same_state_da : forall k (st st' : state T), same_state st st' -> state_da k st = state_da k st'.
  Proof. intros k st st' (_ & _ & H). unfold state_da, dgetE. rewrite H. auto. Qed.

  Lemma tstep_fold_ext : forall g g' (l : state T) acc, (forall k a, g k a = g' k a) -> foldM (tstep_fold g) l acc = foldM (tstep_fold g') l acc.
  Proof.
    intros g g' l. induction l as [|[k v] l IH]; intros acc H; cbn [foldM]; auto. unfold tstep_fold at 1 3. cbn [fst snd]. rewrite (IH _ H) || idtac.
    destruct (String.eqb k "time"); cbn [bind]; auto. destruct v as [a|t]; auto. rewrite H. destruct (g' k a); cbn [bind]; auto.
  Qed.

  Lemma same_add : forall st1 st1' st2 st2' : state T, same_state st1 st1' -> same_state st2 st2' -> same_res (add_states st1 st2) (add_states st1' st2').
  Proof.
    intros st1 st1' st2 st2' H1 H2. rewrite !add_states_fold.
    rewrite (tstep_fold_ext (fun k a => let* b := state_da k st2' in da_add a b) (fun k a => let* b := state_da k st2 in da_add a b)).
    - apply same_fold; auto.
    - intros k a. rewrite (same_state_da k _ _ H2). auto.
  Qed.

  (** ** Forward Euler *)

  Lemma mapM_ext_in : forall {B C} (f g : B -> res C) l, (forall x, In x l -> f x = g x) -> mapM f l = mapM g l.
  Proof.
    intros B C f g l. induction l as [|x l IH]; intros H; cbn [mapM]; auto. rewrite (H x (or_introl eq_refl)). rewrite IH; auto. intros; apply H; right; auto.
  Qed.

  Lemma same_convert : forall (st st' : state T) tend, same_state st st' -> convert_tendencies st tend = convert_tendencies st' tend.
  Proof.
    intros st st' tend (_ & _ & H). unfold convert_tendencies. apply mapM_ext_in. intros [k t] _. unfold convert_one, dgetE. rewrite H. auto.
  Qed.

  Lemma same_euler : forall (st st' : state T) tend dt, same_state st st' -> step_forward_euler st tend dt = step_forward_euler st' tend dt.
  Proof.
    intros st st' tend dt H. unfold step_forward_euler, for_keys. apply mapM_ext_in. intros k _. unfold euler_one. rewrite (same_state_da k _ _ H). auto.
  Qed.

  Lemma convert_keys : forall (st : state T) tend tend', convert_tendencies st tend = Ok tend' -> keys tend' = keys tend.
  Proof.
    intros st tend. unfold convert_tendencies. induction tend as [|[k t] l IH]; intros tend' H; cbn [mapM] in H; [injection H as <-; auto|].
    apply bind_ok in H as ([k' t'] & Hk & H). apply bind_ok in H as (l' & Hl & H). injection H as <-. cbn [keys map fst]. f_equal; [|apply IH; auto].
    unfold convert_one in Hk. destruct (dget "units" (attrs t)); [|congruence]. apply bind_ok in Hk as (v & _ & Hk). destruct v as [x|]; [|discriminate].
    destruct (dget "units" (attrs x)); [|discriminate]. apply bind_ok in Hk as (y & _ & Hk). congruence.
  Qed.

  (** One call of an object of order one. *)
  Lemma same_ab_call : forall {U} (prog : icaller (T:=T) U) dt a a' u st st', reads_by_name prog -> euler_object dt a -> euler_object dt a' -> same_state st st' ->
    let '((a1, u1), r) := ab_call prog (a, u) st dt in let '((a1', u1'), r') := ab_call prog (a', u) st' dt in
    euler_object dt a1 /\ euler_object dt a1' /\ u1 = u1' /\ same_result r r'.
  Proof.
    intros U prog dt a a' u st st' [Hp Hk] [Ho Hd] [Ho' Hd'] Hs. unfold ab_call.
    assert (E : ensure_timestep (ab_dt a) dt = Ok tt) by (apply ensure_timestep_ok; auto).
    assert (E' : ensure_timestep (ab_dt a') dt = Ok tt) by (apply ensure_timestep_ok; auto).
    rewrite E, E'. rewrite <- (Hp u st st' dt Hs). destruct (prog u st dt) as [u1 r] eqn:Ep. destruct r as [[t d]|e]; cbn [bind fst snd].
    - rewrite <- (same_convert _ _ t Hs). destruct (convert_tendencies st t) as [tend|e] eqn:Et; cbn [bind].
      + rewrite Ho, Ho', !perform_step_1. rewrite <- (same_euler _ _ tend dt Hs). destruct (step_forward_euler st tend dt) as [new|e] eqn:En.
        * split; [split; cbn; auto|]. split; [split; cbn; auto|]. split; auto. cbn [same_result]. split; auto. apply same_copy; auto. apply same_refl.
          apply for_keys_ok in En as (-> & _). rewrite (convert_keys _ _ _ Et). eapply Hk; eauto.
        * split; [split; cbn; auto|]. split; [split; cbn; auto|]. split; auto. exact I.
      + split; [split; cbn; auto|]. split; [split; cbn; auto|]. split; auto. exact I.
    - split; [split; cbn; auto|]. split; [split; cbn; auto|]. split; auto. exact I.
  Qed.

  Lemma same_insert : forall cfg dt (st st' new new' : state T) diag, same_state st st' -> same_state new new' ->
    insert_differences cfg dt st new diag = insert_differences cfg dt st' new' diag.
  Proof.
    intros cfg dt st st' new new' diag (_ & _ & H) (_ & _ & K). unfold insert_differences. revert diag. induction (ts_out cfg) as [|np l IH]; intros diag; cbn [foldM]; auto.
    assert (E : insert_one cfg dt st new diag np = insert_one cfg dt st' new' diag np) by (unfold insert_one, dgetE; rewrite H, K; auto).
    rewrite E. destruct (insert_one cfg dt st' new' diag np); cbn [bind]; auto.
  Qed.

  Lemma same_finish : forall cfg dt (st st' : state T) r r', same_state st st' -> same_result r r' ->
    same_result (finish_step cfg dt st r) (finish_step cfg dt st' r').
  Proof.
    intros cfg dt st st' r r' Hs Hr. unfold finish_step. destruct r as [[d s]|e]; destruct r' as [[d' s']|e']; cbn [same_result bind fst snd] in *; try contradiction; auto.
    destruct Hr as [<- Hr]. pose proof (same_copy _ _ _ _ Hs Hr) as Hc. destruct (ts_tid cfg); cbn [bind].
    - rewrite <- (same_insert cfg dt _ _ _ _ d Hs Hc). destruct (insert_differences cfg dt st (copy_untouched st s) d); cbn [bind same_result]; auto.
    - cbn [same_result]. auto.
  Qed.

  (** AdamsBashforth of order one keeps nothing that matters. *)
  Theorem euler_interchangeable : forall {U} cfg (prog : icaller (T:=T) U) dt, reads_by_name prog ->
    interchangeable (euler_pair dt) dt (adams_bashforth cfg prog).
  Proof.
    intros U cfg prog dt Hp [a u] [a' u'] st st' (Hu & Ha & Ha') Hs. cbn [fst snd] in *. subst u'.
    pose proof (same_ab_call prog dt a a' u st st' Hp Ha Ha' Hs) as H. unfold adams_bashforth.
    destruct (ab_call prog (a, u) st dt) as [[a1 u1] r]. destruct (ab_call prog (a', u) st' dt) as [[a1' u1'] r'].
    destruct H as (H1 & H2 & -> & H3). cbn [fst snd]. split; [split; auto|]. apply same_finish; auto.
  Qed.

  Lemma same_inner : forall {U} (prog : icaller (T:=T) U) dt a a' u st st', reads_by_name prog -> euler_object dt a -> euler_object dt a' -> same_state st st' ->
    let '((a1, u1), r) := inner_euler prog (a, u) st dt in let '((a1', u1'), r') := inner_euler prog (a', u) st' dt in
    euler_object dt a1 /\ euler_object dt a1' /\ u1 = u1' /\ same_result r r'.
  Proof.
    intros U prog dt a a' u st st' Hp Ha Ha' Hs. pose proof (same_ab_call prog dt a a' u st st' Hp Ha Ha' Hs) as H. unfold inner_euler.
    destruct (ab_call prog (a, u) st dt) as [[a1 u1] r]. destruct (ab_call prog (a', u) st' dt) as [[a1' u1'] r'].
    destruct H as (H1 & H2 & H3 & H4). split; auto. split; auto. split; auto.
    destruct r as [[d s]|e]; destruct r' as [[d' s']|e']; cbn [same_result bind fst snd] in *; try contradiction; auto.
    destruct H4 as [<- H4]. split; auto. apply same_copy; auto.
  Qed.

  Lemma same_bind : forall (r r' : res (state T)) (f f' : state T -> res (state T)), same_res r r' -> (forall s s', same_state s s' -> same_res (f s) (f' s')) ->
    same_res (bind r f) (bind r' f').
  Proof. intros [s|e] [s'|e'] f f' H K; cbn [same_res bind] in *; auto; destruct H. Qed.

  Lemma same_mix : forall x y (st st' s s' : state T), same_state st st' -> same_state s s' ->
    same_res (let* a := multiply x st in let* b := multiply y s in add_states a b) (let* a := multiply x st' in let* b := multiply y s' in add_states a b).
  Proof.
    intros x y st st' s s' H K. apply same_bind; [apply same_multiply; auto|]. intros a a' Ha. apply same_bind; [apply same_multiply; auto|]. intros b b' Hb. apply same_add; auto.
  Qed.

  Lemma same_rk2 : forall {U} (prog : icaller (T:=T) U) dt a a' u st st', reads_by_name prog -> euler_object dt a -> euler_object dt a' -> same_state st st' ->
    let '((a1, u1), r) := rk2 prog (a, u) st dt in let '((a1', u1'), r') := rk2 prog (a', u) st' dt in
    euler_object dt a1 /\ euler_object dt a1' /\ u1 = u1' /\ same_result r r'.
  Proof.
    intros U prog dt a a' u st st' Hp Ha Ha' Hs. unfold rk2. pose proof (same_inner prog dt a a' u st st' Hp Ha Ha' Hs) as H.
    destruct (inner_euler prog (a, u) st dt) as [[a1 u1] r]. destruct (inner_euler prog (a', u) st' dt) as [[a1' u1'] r'].
    destruct H as (H1 & H2 & <- & H4). destruct r as [[d s]|e]; destruct r' as [[d' s']|e']; cbn [same_result] in *; try contradiction; [|auto].
    destruct H4 as [<- H4]. pose proof (same_inner prog dt a1 a1' u1 s s' Hp H1 H2 H4) as H5.
    destruct (inner_euler prog (a1, u1) s dt) as [[a2 u2] r]. destruct (inner_euler prog (a1', u1) s' dt) as [[a2' u2'] r'].
    destruct H5 as (K1 & K2 & K3 & K4). split; auto. split; auto. split; auto.
    destruct r as [[d2 s2]|e]; destruct r' as [[d2' s2']|e']; cbn [same_result bind snd] in *; try contradiction; auto. destruct K4 as [_ K4].
    pose proof (same_add _ _ _ _ Hs K4) as H6. destruct (add_states st s2) as [x|]; destruct (add_states st' s2') as [x'|]; cbn [same_res bind] in *; try contradiction; auto.
    pose proof (same_multiply (aofQ (1 # 2)) _ _ H6) as H7. destruct (multiply _ x); destruct (multiply _ x'); cbn [same_res bind same_result] in *; auto.
  Qed.

  Lemma same_rk3 : forall {U} (prog : icaller (T:=T) U) dt a a' u st st', reads_by_name prog -> euler_object dt a -> euler_object dt a' -> same_state st st' ->
    let '((a1, u1), r) := rk3 prog (a, u) st dt in let '((a1', u1'), r') := rk3 prog (a', u) st' dt in
    euler_object dt a1 /\ euler_object dt a1' /\ u1 = u1' /\ same_result r r'.
  Proof.
    intros U prog dt a a' u st st' Hp Ha Ha' Hs. unfold rk3. pose proof (same_inner prog dt a a' u st st' Hp Ha Ha' Hs) as H.
    destruct (inner_euler prog (a, u) st dt) as [[a1 u1] r]. destruct (inner_euler prog (a', u) st' dt) as [[a1' u1'] r'].
    destruct H as (H1 & H2 & <- & H4). destruct r as [[d s]|e]; destruct r' as [[d' s']|e']; cbn [same_result] in *; try contradiction; [|auto].
    destruct H4 as [<- H4]. pose proof (same_inner prog dt a1 a1' u1 s s' Hp H1 H2 H4) as H5.
    destruct (inner_euler prog (a1, u1) s dt) as [[a2 u2] r]. destruct (inner_euler prog (a1', u1) s' dt) as [[a2' u2'] r'].
    destruct H5 as (K1 & K2 & <- & K4).
    destruct r as [[d2 s2]|e]; destruct r' as [[d2' s2']|e']; cbn [same_result bind snd] in *; try contradiction; [|auto]. destruct K4 as [_ K4].
    pose proof (same_mix (aofQ (3 # 4)) (aofQ (1 # 4)) _ _ _ _ Hs K4) as H6.
    destruct (let* a := multiply (aofQ (3 # 4)) st in let* b := multiply (aofQ (1 # 4)) s2 in add_states a b) as [x|];
      destruct (let* a := multiply (aofQ (3 # 4)) st' in let* b := multiply (aofQ (1 # 4)) s2' in add_states a b) as [x'|]; cbn [same_res same_result] in *; try contradiction; [|auto].
    pose proof (same_inner prog dt a2 a2' u2 x x' Hp K1 K2 H6) as H7.
    destruct (inner_euler prog (a2, u2) x dt) as [[a3 u3] r]. destruct (inner_euler prog (a2', u2) x' dt) as [[a3' u3'] r'].
    destruct H7 as (L1 & L2 & L3 & L4). split; auto. split; auto. split; auto.
    destruct r as [[d3 s3]|e]; destruct r' as [[d3' s3']|e']; cbn [same_result bind snd] in *; try contradiction; auto. destruct L4 as [_ L4].
    pose proof (same_mix (aofQ (1 # 3)) (aofQ (2 # 3)) _ _ _ _ Hs L4) as H8. revert H8.
    destruct (multiply (aofQ (1 # 3)) st) as [p|]; destruct (multiply (aofQ (1 # 3)) st') as [p'|]; destruct (multiply (aofQ (2 # 3)) s3) as [q|];
      destruct (multiply (aofQ (2 # 3)) s3') as [q'|]; cbn [bind same_res same_result]; auto;
      repeat match goal with |- context [add_states ?x ?y] => destruct (add_states x y) end; cbn [bind same_res same_result]; auto.
  Qed.

  Theorem rk_interchangeable : forall {U} cfg (prog : icaller (T:=T) U) dt, reads_by_name prog ->
    interchangeable (rk_pair dt) dt (ssp_rk cfg prog).
  Proof.
    intros U cfg prog dt Hp [k u] [k' u'] st st' (Hu & Hst & Ha & Ha') Hs. cbn [fst snd] in *. subst u'. unfold ssp_rk. rewrite <- Hst.
    destruct (Nat.eqb (rk_stages k) 2).
    - pose proof (same_rk2 prog dt _ _ u st st' Hp Ha Ha' Hs) as H.
      destruct (rk2 prog (rk_euler k, u) st dt) as [[a1 u1] r]. destruct (rk2 prog (rk_euler k', u) st' dt) as [[a1' u1'] r'].
      destruct H as (H1 & H2 & H3 & H4). cbn [fst snd]. split; [split; auto|]. apply same_finish; auto.
    - pose proof (same_rk3 prog dt _ _ u st st' Hp Ha Ha' Hs) as H.
      destruct (rk3 prog (rk_euler k, u) st dt) as [[a1 u1] r]. destruct (rk3 prog (rk_euler k', u) st' dt) as [[a1' u1'] r'].
      destruct H as (H1 & H2 & H3 & H4). cbn [fst snd]. split; [split; auto|]. apply same_finish; auto.
  Qed.
End Resume.
