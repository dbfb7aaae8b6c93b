(** Restart files (C55, C56). *)
From Coq Require Import String List Bool Arith ZArith Permutation Lia.
From Verif Require Import Prelude PreludeFacts ArithM NdArray NdFacts DataArrayM GetNpFacts StrFun NetCDF SpecNetCDF NetCDFKeeps NetCDFFacts NetCDFMain NetCDFSucceeds.
Import ListNotations.
Open Scope string_scope.
Open Scope nat_scope.
Open Scope list_scope.

Lemma append_neq : forall f s, s <> "" -> (f ++ s)%string <> f.
Proof.
  intros f s H E. apply (f_equal String.length) in E. assert (L : forall a b, String.length (a ++ b)%string = String.length a + String.length b).
  { induction a as [|c a IH]; intros b; cbn; auto. } rewrite L in E. destruct s; [contradiction H; auto|]. cbn in E. lia.
Qed.

Lemma append_cancel : forall f a b, (f ++ a)%string = (f ++ b)%string -> a = b.
Proof. induction f as [|c f IH]; cbn; intros a b H; auto. injection H as H. auto. Qed.

Lemma new_neq : forall f, new_name f <> f.
Proof. intros f. apply append_neq. discriminate. Qed.
Lemma old_neq : forall f, old_name f <> f.
Proof. intros f. apply append_neq. discriminate. Qed.
Lemma new_old : forall f, new_name f <> old_name f.
Proof. intros f H. apply append_cancel in H. discriminate H. Qed.

Lemma not_false : forall x y : string, x <> y -> String.eqb x y = false.
Proof. intros. apply String.eqb_neq. auto. Qed.

Lemma coord_below : forall (L : string -> nat) ds idx d, in_range idx (map L ds) -> In d ds -> coord ds idx d < L d.
Proof.
  intros L. induction ds as [|x ds IH]; intros idx d H Hd; [destruct Hd|]. inversion H as [|i ? idx' ? Hi H']; subst. cbn [coord].
  destruct (String.eqb d x) eqn:E. apply String.eqb_eq in E. subst. auto. apply IH; auto. destruct Hd as [->|]; auto. rewrite String.eqb_refl in E. discriminate.
Qed.

Section Restart.
  Context {T : Type} {A : Arith T} {N : NcLib T}.
  Implicit Types fs : files T.

  Lemma dmem_dget : forall g fs, dmem g fs = match dget g fs with Some _ => true | None => false end.
  Proof. reflexivity. Qed.

  (** What the new file holds depends on the state only. *)
  Lemma write_new_cases : forall f delta st fs r fs1, write_new f delta st fs = (r, fs1) ->
    match r with
    | Ok _ => dget (new_name f) fs = None /\ exists d, saved f delta st d /\ fs1 = dset (new_name f) d fs
    | Err _ => fs1 = fs \/ (dget (new_name f) fs = None /\ exists d, fs1 = dset (new_name f) d fs)
    end.
  Proof.
    intros f delta st fs r fs1 H. unfold write_new in H. rewrite dmem_dget in H. destruct (dget (new_name f) fs) as [d0|] eqn:E0. { injection H as <- <-. auto. }
    unfold saved, write_new. rewrite dmem_dget. cbn [dget]. unfold store in *. destruct (prepare _ _ st) as [[t cs]|e]; [|injection H as <- <-; auto].
    cbn [m_on_store restart_monitor] in *. unfold write in *. cbn [m_file restart_monitor] in *. cbn [dget]. rewrite E0 in H.
    destruct (write_act _ _ _) as [[u|e] d']; injection H as <- <-; [split; auto|right; split; auto]; exists d'; auto.
  Qed.

  Lemma saved_fun : forall f delta st d d', saved f delta st d -> saved f delta st d' -> d = d'.
  Proof. intros f delta st d d' H H'. unfold saved in *. rewrite H in H'. injection H' as <-. auto. Qed.

  Ltac names := rewrite ?dget_dset, ?dget_ddel, ?(not_false _ _ (new_neq _)), ?(not_false _ _ (old_neq _)), ?(not_false _ _ (new_old _)),
    ?(not_false _ _ (not_eq_sym (new_neq _))), ?(not_false _ _ (not_eq_sym (old_neq _))), ?(not_false _ _ (not_eq_sym (new_old _))), ?String.eqb_refl.

  Lemma rename_get : forall a b fs g, a <> b -> dget a fs <> None -> dget g (rename a b fs) = if String.eqb g b then dget a fs else if String.eqb g a then None else dget g fs.
  Proof.
    intros a b fs g Hab Ha. unfold rename. destruct (dget a fs) as [d|]; [|contradiction Ha; auto]. rewrite dget_dset, dget_ddel. auto.
  Qed.

  Lemma backup_get : forall f fs g, dget g (backup f fs) =
    match dget f fs with Some d => if String.eqb g (old_name f) then Some d else if String.eqb g f then None else dget g fs | None => dget g fs end.
  Proof.
    intros f fs g. unfold backup. rewrite dmem_dget. destruct (dget f fs) as [d|] eqn:E; auto.
    rewrite rename_get. rewrite E; auto. apply not_eq_sym, old_neq. rewrite E. discriminate.
  Qed.

  Lemma install_get : forall f fs g, dget (new_name f) fs <> None -> dget g (install f fs) = if String.eqb g f then dget (new_name f) fs else if String.eqb g (new_name f) then None else dget g fs.
  Proof. intros f fs g H. unfold install. apply rename_get; auto. apply new_neq. Qed.

  Lemma clean_get : forall f fs g, dget g (clean f fs) = if String.eqb g (old_name f) then None else dget g fs.
  Proof.
    intros f fs g. unfold clean. rewrite dmem_dget. destruct (dget (old_name f) fs) as [d|] eqn:E. apply dget_ddel.
    destruct (String.eqb g (old_name f)) eqn:Eg; auto. apply String.eqb_eq in Eg. subst. auto.
  Qed.

  (** The steps after a complete new file. *)
  Lemma steps_get : forall f fs d g, let fs1 := dset (new_name f) d fs in
    dget g (install f (backup f fs1)) =
      if String.eqb g f then Some d else if String.eqb g (new_name f) then None else
      if String.eqb g (old_name f) then (match dget f fs with Some x => Some x | None => dget g fs end) else dget g fs.
  Proof.
    intros f fs d g fs1. assert (Hn : dget (new_name f) (backup f fs1) = Some d).
    { rewrite backup_get. unfold fs1. names. destruct (dget f fs); auto. }
    rewrite install_get by (rewrite Hn; discriminate). rewrite Hn. destruct (String.eqb g f) eqn:E1; auto. destruct (String.eqb g (new_name f)) eqn:E2; auto.
    rewrite backup_get. unfold fs1. rewrite !dget_dset, E2. rewrite (not_false _ _ (not_eq_sym (new_neq f))). destruct (dget f fs) as [x|]; [rewrite E1; auto|]. destruct (String.eqb g (old_name f)); auto.
  Qed.

  (** C55: a store that returns. *)
  Lemma main_restart_stored : forall f delta st fs fs', restart_store f delta st fs = (Ok tt, fs') ->
    dget (new_name f) fs = None /\ (exists d, saved f delta st d /\ dget f fs' = Some d) /\ dget (old_name f) fs' = None /\ dget (new_name f) fs' = None /\
    forall g, g <> f -> g <> old_name f -> dget g fs' = dget g fs.
  Proof.
    intros f delta st fs fs' H. unfold restart_store in H. destruct (write_new f delta st fs) as [[u|e] fs1] eqn:E; [|discriminate H]. injection H as <-.
    apply write_new_cases in E as (Hn & d & Sd & ->). split; auto. split. { exists d. split; auto. rewrite clean_get, steps_get. names. auto. }
    split. { rewrite clean_get. names. auto. } split. { rewrite clean_get, steps_get. names. auto. }
    intros g H1 H2. rewrite clean_get, steps_get. rewrite !not_false by auto. destruct (String.eqb g (new_name f)) eqn:Eg; auto. apply String.eqb_eq in Eg. subst. auto.
  Qed.

  (** A store that raises. *)
  Lemma main_restart_failed : forall f delta st fs e fs', restart_store f delta st fs = (Err e, fs') -> forall g, g <> new_name f -> dget g fs' = dget g fs.
  Proof.
    intros f delta st fs e fs' H g Hg. unfold restart_store in H. destruct (write_new f delta st fs) as [[u|e'] fs1] eqn:E; [discriminate H|]. injection H as _ <-.
    apply write_new_cases in E as [->|(_ & d & ->)]; auto. rewrite dget_dset_neq; auto.
  Qed.

  Lemma current_crash : forall f delta st fs fs', crash_points f delta st fs fs' -> current f fs' = current f fs \/ exists d, saved f delta st d /\ current f fs' = Some d.
  Proof.
    intros f delta st fs fs' [->|[(Hn & junk & ->)|(fs1 & E & H)]]; auto.
    - left. unfold current. names. auto.
    - apply write_new_cases in E as (Hn & d & Sd & ->). destruct H as [->|[->|[->| ->]]].
      + left. unfold current. names. auto.
      + left. unfold current. rewrite !backup_get. names. destruct (dget f fs) as [x|] eqn:E; auto.
      + right. exists d. split; auto. unfold current. rewrite steps_get. names. auto.
      + right. exists d. split; auto. unfold current. rewrite clean_get, steps_get. names. auto.
  Qed.

  Lemma current_store : forall f delta st fs r fs', restart_store f delta st fs = (r, fs') ->
    match r with Ok _ => exists d, saved f delta st d /\ current f fs' = Some d | Err _ => current f fs' = current f fs end.
  Proof.
    intros f delta st fs r fs' H. destruct r as [[]|e].
    - destruct (main_restart_stored f delta st fs fs' H) as (_ & (d & Sd & Hd) & _). exists d. split; auto. unfold current. rewrite Hd. auto.
    - unfold current. rewrite !(main_restart_failed f delta st fs e fs' H); auto. apply not_eq_sym, new_old. apply not_eq_sym, new_neq.
  Qed.

  (** C55: whatever crashes there were, the last completed restart or a later one is there. *)
  Lemma main_restart_history : forall f delta fs0 h fs, restart_history f delta fs0 h fs -> forall h1 st h2, h = h1 ++ (st, true) :: h2 ->
    exists st' d, (st' = st \/ exists b, In (st', b) h2) /\ saved f delta st' d /\ current f fs = Some d.
  Proof.
    intros f delta fs0 h fs H. induction H as [|h fs st0 r fs' H IH E|h fs st0 fs' H IH E|h fs H IH]; intros h1 st h2 Eh.
    - destruct h1; discriminate Eh.
    - apply current_store in E. destruct (exists_last (l := (st, true) :: h2)) as (h3 & x & E3); [discriminate|]. rewrite E3, app_assoc in Eh. apply app_inj_tail in Eh as (Eh & <-).
      destruct r as [u|e].
      + destruct E as (d & Sd & Cd). exists st0, d. split; auto. destruct h3 as [|y h3]; cbn [app] in E3; injection E3 as E3a E3b. left; congruence. right. exists true. rewrite E3b. apply in_app_iff. right. cbn; auto.
      + destruct h3 as [|y h3]; cbn [app] in E3; injection E3 as E3a E3b. discriminate. subst y. destruct (IH _ _ _ Eh) as (st' & d & Hs & Sd & Cd). exists st', d. split; [|rewrite E; auto].
        destruct Hs as [Hs|(b & Hs)]; auto. right. exists b. rewrite E3b. apply in_app_iff. auto.
    - apply current_crash in E. destruct (exists_last (l := (st, true) :: h2)) as (h3 & x & E3); [discriminate|]. rewrite E3, app_assoc in Eh. apply app_inj_tail in Eh as (Eh & <-).
      destruct h3 as [|y h3]; cbn [app] in E3; injection E3 as E3a E3b. discriminate. subst y. destruct E as [E|(d & Sd & Cd)].
      + destruct (IH _ _ _ Eh) as (st' & d & Hs & Sd & Cd). exists st', d. split; [|rewrite E; auto]. destruct Hs as [Hs|(b & Hs)]; auto. right. exists b. rewrite E3b. apply in_app_iff. auto.
      + exists st0, d. split; auto. right. exists false. rewrite E3b. apply in_app_iff. right. cbn; auto.
    - destruct (IH _ _ _ Eh) as (st' & d & Hs & Sd & Cd). exists st', d. split; auto. split; auto. unfold current in *. names. auto.
  Qed.

  (** Nothing else is touched. *)
  Lemma main_restart_others : forall f delta fs0 h fs, restart_history f delta fs0 h fs -> forall g, g <> f -> g <> old_name f -> g <> new_name f -> dget g fs = dget g fs0.
  Proof.
    intros f delta fs0 h fs H g Hf Ho Hn. induction H as [|h fs st0 r fs' H IH E|h fs st0 fs' H IH E|h fs H IH]; auto.
    - rewrite <- IH. destruct r as [[]|e]. apply main_restart_stored in E as (_ & _ & _ & _ & O). auto. apply (main_restart_failed _ _ _ _ _ _ E). auto.
    - rewrite <- IH. destruct E as [->|[(_ & junk & ->)|(fs1 & E & Hc)]]; auto. rewrite dget_dset_neq; auto. apply write_new_cases in E as (_ & d & _ & ->).
      destruct Hc as [->|[->|[->| ->]]]; rewrite ?clean_get, ?steps_get, ?backup_get, ?dget_dset, ?(not_false _ _ Hf), ?(not_false _ _ Ho), ?(not_false _ _ Hn); auto.
      destruct (dget f _); auto; names; destruct (dget f fs); auto.
    - rewrite <- IH, dget_ddel, not_false; auto.
  Qed.

  (** ** Loading *)

  Lemma prepare_plain : forall f delta (st : state T) t cs, prepare (fun l => l) (restart_monitor f delta) st = Ok (t, cs) -> cs = ddel "time" st /\ dget "time" st = Some (VTime t).
  Proof.
    intros f delta st t cs H. unfold prepare in H. cbn [m_names m_aliases restart_monitor bind foldM] in H. destruct (mem "" (keys st)); [discriminate H|]. cbn [bind] in H.
    apply bind_ok in H as (v & Hv & H). apply dgetE_ok in Hv. unfold dgetE in H. rewrite Hv in H. cbn [bind] in H. destruct v as [a|t']; [discriminate H|]. injection H as <- <-. auto.
  Qed.

  Lemma saved_write : forall f delta st d, saved f delta st d -> exists t cs, cs = ddel "time" st /\ dget "time" st = Some (VTime t) /\ write_act (restart_monitor (new_name f) delta) [(t, cs)] empty_ds = (Ok tt, d).
  Proof.
    intros f delta st d H. unfold saved, write_new in H. rewrite dmem_dget in H. cbn [dget] in H. unfold store in H. destruct (prepare _ _ st) as [[t cs]|e] eqn:Ep; [|discriminate H].
    cbn [m_on_store restart_monitor] in H. unfold write in H. cbn [m_file restart_monitor dget cache_add tget tset] in H.
    destruct (write_act _ _ _) as [[u|e] d'] eqn:E; [|discriminate H]. injection H as <-. apply prepare_plain in Ep as (-> & Ht). exists t, (ddel "time" st). destruct u. auto.
  Qed.

  (** What stays true during the loops over quantities. *)
  Lemma each_inv : forall {B} (P : nfile T -> Prop) (g : B -> act unit) l d r d', (forall x d r d', In x l -> P d -> g x d = (r, d') -> P d') -> P d -> each g l d = (r, d') -> P d'.
  Proof.
    intros B P g. induction l as [|x l IH]; intros d r d' Hg Hd H; cbn [each] in H. { injection H as _ <-. auto. }
    unfold thn in H. destruct (g x d) as [[[]|e] d1] eqn:E.
    - eapply IH; [|eapply Hg; [|exact Hd|exact E]|exact H]. intros y e r' e' Hy. apply Hg. cbn; auto. cbn; auto.
    - injection H as _ <-. eapply Hg; [|exact Hd|exact E]. cbn; auto.
  Qed.

  (** The dimensions of a file are 'time' and those of its quantities; its time is the
      reference. *)
  Definition first_file (D : list string) (tv : option tvar) (d : nfile T) : Prop := d_time d = tv /\ forall x, In x (keys (d_dims d)) -> In x D.

  Lemma ensure_dim_first : forall D tv x len d r d', In x D -> first_file D tv d -> ensure_dim x len d = (r, d') -> first_file D tv d'.
  Proof.
    intros D tv x len d r d' Hx (Ht & Hd) H. unfold ensure_dim in H.
    assert (d' = d \/ d' = mkds (dset x len (d_dims d)) (d_time d) (d_vars d)) as [->| ->].
    { destruct (dget x (d_dims d)) as [[n|]|]; destruct len; try destruct (Nat.eqb _ _); injection H as _ <-; auto. }
    - split; auto.
    - split; cbn [d_time d_dims]; auto. intros y Hy. apply In_keys_dset in Hy as [->|Hy]; auto.
  Qed.

  Lemma variable_first : forall D tv n start (cb : comb T) d r d', In "time" D -> incl (cb_dims cb) D -> first_file D tv d ->
    thn (ensure_variable n cb) (fun _ => put_rows n start cb) d = (r, d') -> first_file D tv d'.
  Proof.
    intros D tv n start cb d r d' Ht Hi Hd H.
    assert (Put : forall d1 r1 d2, first_file D tv d1 -> put_rows n start cb d1 = (r1, d2) -> first_file D tv d2).
    { intros d1 r1 d2 (H1 & H2) Hp. unfold put_rows in Hp. destruct (dget n (d_vars d1)); [destruct (mapM _ _)|]; injection Hp as _ <-; split; auto. }
    assert (Ens : forall r1 d1, ensure_variable n cb d = (r1, d1) -> first_file D tv d1).
    { intros r1 d1 He. unfold ensure_variable in He. destruct (dget n (d_vars d)). { injection He as _ <-. auto. }
      unfold create_variable, thn in He. destruct (ensure_dim "time" None d) as [[u|e] d2] eqn:E2; pose proof (ensure_dim_first D tv _ _ _ _ _ Ht Hd E2) as F2; [|injection He as _ <-; auto].
      destruct (each _ _ d2) as [[u'|e] d3] eqn:E3.
      - assert (F3 : first_file D tv d3). { eapply each_inv; [|exact F2|exact E3]. intros [x k] e r' e' Hx Fe Ex. eapply ensure_dim_first; [|exact Fe|exact Ex]. apply Hi. eapply in_combine_l; eauto. }
        injection He as _ <-. destruct F3. split; auto.
      - injection He as _ <-. eapply each_inv; [|exact F2|exact E3]. intros [x k] e' r' e'' Hx Fe Ex. eapply ensure_dim_first; [|exact Fe|exact Ex]. apply Hi. eapply in_combine_l; eauto. }
    unfold thn in H. destruct (ensure_variable n cb d) as [[u|e] d1] eqn:E1; [|injection H as _ <-; exact (Ens _ _ eq_refl)]. exact (Put _ _ _ (Ens _ _ eq_refl) H).
  Qed.

  Lemma write_first : forall m t cs (d : nfile T), NoDup (keys cs) -> write_act m [(t, cs)] empty_ds = (Ok tt, d) ->
    exists zs, d_time d = Some (mktvar (m_units m) (if m_delta m then None else Some t) zs) /\
      forall x, In x (keys (d_dims d)) -> x = "time" \/ exists n a, dget n cs = Some (VDA a) /\ In x (dims a).
  Proof.
    intros m t cs d Nd H. unfold write_act in H. unfold thn at 1 in H. destruct (check_keys _ _) as [[u|e] d0] eqn:E0; [|discriminate H].
    assert (d0 = empty_ds). { unfold check_keys in E0. cbn [empty_ds d_vars keys map] in E0. destruct (forallb _ _); [injection E0 as _ <-; auto|discriminate E0]. } subst d0.
    cbn [by_time insert_time] in H. cbn [thn ensure_time ensure_dim empty_ds d_dims dget d_time dset d_vars n_times length t_vals] in H. unfold append_times in H.
    cbn [d_time t_ref t_units t_vals d_dims d_vars app] in H. unfold thn at 1 in H. cbn [d_time t_ref t_units t_vals d_dims d_vars app] in H.
    match type of H with context [if m_delta m then mapM ?a ?b else ?c] => destruct (if m_delta m then mapM a b else c) as [zs|e] end; [|discriminate H]. unfold thn at 1, lift in H. destruct (combine_states (map snd [(t, cs)])) as [all|e] eqn:Ec; [|discriminate H]. cbn [map snd] in Ec.
    destruct (combine_spec cs [] all) as (Na & Ka & Va); [|exact Ec|]. { intros st [<-|[]]. split; auto. tauto. }
    pose (D := "time" :: flat_map (fun nv => match snd nv with VDA a => dims a | VTime _ => [] end) cs).
    exists zs. assert (F : first_file D (Some (mktvar (m_units m) (if m_delta m then None else Some t) zs)) d).
    { eapply each_inv; [| |exact H].
      - intros [n cb] e r e' Hin Fe He. cbn [fst snd] in He. eapply variable_first; [| |exact Fe|exact He]. cbn; auto. apply dget_NoDup_In in Hin; auto. destruct (Va n cb Hin) as (a0 & Ha0 & -> & _).
        intros x Hx. right. apply in_flat_map. exists (n, VDA a0). split; auto. apply dget_In. auto.
      - split; cbn [d_time d_dims]; auto. cbn. intros x [<-|[]]. auto. }
    destruct F as (F1 & F2). split; auto. intros x Hx. apply F2 in Hx as [<-|Hx]; auto. right. apply in_flat_map in Hx as ([n v] & Hin & Hx). cbn [snd] in Hx. destruct v as [a|]; [|destruct Hx].
    exists n, a. split; auto. apply dget_NoDup_In; auto.
  Qed.

  Lemma row_exact : forall L (a : da T) r, wf_da a -> shape (arr a) = map L (dims a) -> holds_row L (dims a) a (Some r) -> r = arr a.
  Proof.
    intros L a r (Hl & Nd & Wa) Hs (r' & E & Wr & Sr & _ & Hv). injection E as <-. apply nd_ext; auto. congruence.
    intros idx Hin. assert (Hlen : length idx = length (dims a)). { rewrite Sr in Hin. apply in_range_length in Hin. rewrite map_length in Hin. auto. }
    rewrite <- (map_coord_self (dims a) idx) by auto. rewrite Hv; [reflexivity|].
    intros dd Hd. apply coord_below; auto. congruence.
  Qed.

  Lemma load_vars : forall {X Y} (g : string * X -> res (string * Y)) (Q : string -> Y -> Prop) l, (forall n v, In (n, v) l -> exists a, g (n, v) = Ok (n, a) /\ Q n a) ->
    exists l', mapM g l = Ok l' /\ keys l' = keys l /\ forall n a, In (n, a) l' -> Q n a.
  Proof.
    intros X Y g Q. induction l as [|[n v] l IH]; intros H; cbn [mapM]. { exists []. split; auto. split; auto. intros n a []. }
    destruct (H n v (or_introl eq_refl)) as (a & E & Ha). rewrite E. cbn [bind]. destruct IH as (l' & E' & K & Hl). { intros n' v' Hin. apply H. cbn; auto. }
    rewrite E'. cbn [bind]. exists ((n, a) :: l'). split; auto. unfold keys in *. cbn [map fst]. rewrite K. split; auto. intros n' a' [Eq|Hin]; auto. injection Eq as <- <-. auto.
  Qed.

  Lemma filter_keep : forall {X} (f : X -> bool) l, (forall x, In x l -> f x = true) -> filter f l = l.
  Proof. intros X f l H. induction l as [|x l IH]; cbn [filter]; auto. rewrite H by (cbn; auto). rewrite IH; auto. intros y Hy. apply H. cbn; auto. Qed.

  (** C56: load() after store(). *)
  Lemma main_restart_round_trip : forall L f (st : state T) fs fs', plain_fit N -> grid_state L st -> (exists n, n <> "time" /\ In n (keys st)) ->
    (forall n a n' a', dget n st = Some (VDA a) -> dget n' st = Some (VDA a') -> ~ In n (dims a')) ->
    (forall n a, dget n st = Some (VDA a) -> xr_decode (attrs a) (arr a) = Ok (attrs a, arr a)) ->
    (forall t z, dget "time" st = Some (VTime t) -> date_code "seconds" t t = Ok z -> date_decode "seconds" t z = Ok t) ->
    restart_store f false st fs = (Ok tt, fs') ->
    exists st', load f fs' = Ok st' /\ NoDup (keys st') /\ forall n, dget n st' = dget n st.
  Proof.
    intros L f st fs fs' P (Nd & Gs) (n0 & Hn0 & Hin0) Hnm Hx Hd H. apply main_restart_stored in H as (_ & (d & Sd & Hf) & _).
    apply saved_write in Sd as (t & cs & -> & Ht & W). set (m := restart_monitor (new_name f) false) in *. set (cs := ddel "time" st) in *.
    assert (Ndc : NoDup (keys cs)) by (apply NoDup_ddel; auto).
    assert (Hcs : forall n, dget n cs = if String.eqb n "time" then None else dget n st) by (intros n; apply dget_ddel).
    assert (Hg : on_grid L cs).
    { split. - intros E. apply In_keys_dget in Hin0 as (v & Hv). specialize (Hcs n0). rewrite E, (not_false _ _ Hn0), Hv in Hcs. discriminate Hcs.
      - split; auto. intros n a Ha. rewrite Hcs in Ha. destruct (String.eqb n "time"); [discriminate|]. eauto. }
    destruct (write_first m t cs d Ndc W) as (zs & Tv & Dm). cbn [m_delta m restart_monitor m_units] in Tv.
    assert (E0 : holds m L [] (empty_ds (T := T))) by (split; auto).
    assert (G0 : grid_dims L (empty_ds (T := T))) by (split; cbn; intros; discriminate).
    destruct (write_holds m L [] [(t, cs)] empty_ds d P E0 G0) as (_ & Hh & _); auto. { constructor; [intros []|constructor]. } { intros ts [<-|[]]. auto. }
    clear E0 G0 W. cbn [by_time insert_time app holds] in Hh. destruct Hh as ((tv & Etv & Fz) & Nv & Kv & Vv). rewrite Tv in Etv. injection Etv as <-. cbn [map fst t_vals] in Fz.
    inversion Fz as [|? z ? zs' Hz Fz']; subst. inversion Fz'; subst. clear Fz Fz'. unfold time_code in Hz. cbn [m_delta m restart_monitor t_ref t_units] in Hz.
    assert (Kc : forall n, In n (keys cs) <-> In n (keys (d_vars d))) by (intros n; apply (Kv (t, cs)); cbn; auto).
    unfold load. rewrite Hf.
    match goal with |- context [mapM ?g (d_vars d)] => destruct (load_vars g (fun n a => dget n st = Some (VDA a) /\ n <> "time") (d_vars d)) as (l' & E & K & Hl) end.
    { intros n v Hin. apply dget_NoDup_In in Hin; auto. cbn [fst snd]. destruct (Vv n v Hin) as ((a0 & Ha0 & Ed & Ea) & Fr). cbn [fst snd] in Ha0.
      rewrite Hcs in Ha0. destruct (String.eqb n "time") eqn:En; [discriminate Ha0|]. apply String.eqb_neq in En.
      inversion Fr as [|? row ? rows (a & Ha & Hr) Fr' Eq1 Eq2]; subst. inversion Fr'; subst. cbn [snd] in Ha. rewrite Hcs, (not_false _ _ En), Ha0 in Ha. injection Ha as <-.
      destruct (Gs n a0 Ha0) as (Wa & Sa & _). rewrite Ed in Hr. pose proof Hr as (r & -> & _). apply row_exact in Hr; auto. subst r. rewrite Ed, Ea.
      assert (M : mem n ("time" :: dims a0) = false). { apply mem_false. intros [Eq|Hi]; auto. apply (Hnm n a0 n a0); auto. }
      rewrite M. cbn [raise_if bind]. rewrite (Hx n a0 Ha0). cbn [bind fst snd]. exists a0. split; auto. destruct a0; auto. }
    rewrite E. cbn [bind]. rewrite filter_keep.
    - rewrite Tv. cbn [t_ref t_vals t_units]. rewrite (Hd t z Ht Hz). cbn [bind]. eexists. split; [reflexivity|]. split.
      { apply NoDup_dset. unfold keys. rewrite map_map. cbn [fst]. change (NoDup (keys l')). rewrite K. auto. }
      intros n. rewrite dget_dset. destruct (String.eqb n "time") eqn:En.
      { apply String.eqb_eq in En. subst. auto. }
      assert (Nl : NoDup (keys l')) by (rewrite K; auto).
      assert (Em : dget n (map (fun nv : string * da T => (fst nv, VDA (snd nv))) l') = match dget n l' with Some a => Some (VDA a) | None => None end).
      { clear. induction l' as [|[k a] l' IH]; cbn [map dget fst snd]; auto. destruct (String.eqb n k); auto. }
      rewrite Em. destruct (dget n l') as [a|] eqn:El. { apply dget_In in El. apply Hl in El. symmetry. apply El. }
      destruct (dget n st) as [v|] eqn:Ev; auto. exfalso. assert (Hin : In n (keys cs)). { eapply dget_In_keys. rewrite Hcs, En. exact Ev. }
      apply Kc in Hin. rewrite <- K in Hin. apply In_keys_dget in Hin as (a & Ha). rewrite El in Ha. discriminate Ha.
    - intros [n a] Hin. apply Hl in Hin as (Hn & Hnt). cbn [fst]. apply negb_true_iff. apply dmem_false. intros Hi. apply Dm in Hi as [->|(n' & a' & Ha' & Hi)]; auto.
      rewrite Hcs in Ha'. destruct (String.eqb n' "time"); [discriminate|]. apply (Hnm n a n' a'); auto.
  Qed.

  (** A state that can be stored is, unless there is a left-over <file>.new. *)
  Lemma main_restart_succeeds : forall L f delta (st : state T) t fs, plain_fit N -> clock (restart_monitor f delta) -> grid_state L st -> (exists n, n <> "time" /\ In n (keys st)) -> ~ In "" (keys st) ->
    dget "time" st = Some (VTime t) -> (forall n v, dget n st = Some v -> n <> "time" -> exists a, v = VDA a /\ dims a <> [] /\ NoDup (keys (attrs a))) ->
    (dget (new_name f) fs = None -> exists fs', restart_store f delta st fs = (Ok tt, fs')) /\
    (dget (new_name f) fs <> None -> restart_store f delta st fs = (Err EIO, fs)).
  Proof.
    intros L f delta st t fs P Ck (Nd & Gs) (n0 & Hn0 & Hin0) Hne Ht Hq. split; intros Hnew; unfold restart_store, write_new; rewrite dmem_dget.
    2: { destruct (dget (new_name f) fs); auto. contradiction Hnew; auto. }
    rewrite Hnew. unfold store. set (m := restart_monitor (new_name f) delta). set (cs := ddel "time" st).
    assert (Ep : prepare (fun l => l) m st = Ok (t, cs)).
    { unfold prepare. cbn [m m_names m_aliases restart_monitor bind foldM]. apply mem_false in Hne. rewrite Hne. cbn [bind]. unfold dgetE. rewrite Ht. auto. }
    rewrite Ep. cbn [m m_on_store restart_monitor cache_add tget tset]. unfold write. cbn [m_file m restart_monitor]. rewrite Hnew.
    assert (Hcs : forall n, dget n cs = if String.eqb n "time" then None else dget n st) by (intros n; apply dget_ddel).
    pose (S := mkschema (keys cs) (fun n => match dget n st with Some (VDA a) => dims a | _ => [] end) (fun n => match dget n st with Some (VDA a) => attrs a | _ => [] end)).
    assert (G : on_grid L cs /\ fits S cs).
    { split.
      - split. { intros E. apply In_keys_dget in Hin0 as (v & Hv). specialize (Hcs n0). rewrite E, (not_false _ _ Hn0), Hv in Hcs. discriminate Hcs. }
        split. apply NoDup_ddel; auto. intros n a Ha. rewrite Hcs in Ha. destruct (String.eqb n "time"); [discriminate|]. eauto.
      - split. { cbn [S sc_names]. tauto. } intros n v Hv. rewrite Hcs in Hv. destruct (String.eqb n "time") eqn:En; [discriminate|]. apply String.eqb_neq in En.
        destruct (Hq n v Hv En) as (a & -> & H1 & H2). exists a. cbn [S sc_dims sc_attrs]. rewrite Hv. auto. }
    destruct (write_act_ok m L S [] [(t, cs)] (empty_ds (T := T)) P) as (d & E & _).
    - exact Ck.
    - split; auto.
    - split; cbn; intros; discriminate.
    - intros tv H. discriminate H.
    - intros ts [].
    - intros ts [<-|[]]. exact G.
    - discriminate.
    - change (restart_monitor (new_name f) delta) with m. rewrite E. eauto.
  Qed.
End Restart.
