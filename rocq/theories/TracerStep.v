(** Tracers returned by array_call: units, presence, number, and how they are stepped (C79). *)
From Coq Require Import String List Bool Arith ZArith QArith Lia.
From Verif Require Import Prelude PreludeFacts ArithM NdArray NdFacts Units DataArrayM Wildcard GetNp Restore SpecArrays UnitsFacts InitNp
  Tracers SpecTracers TracersFacts TracersMain Components SpecComponents SpecCalls CallFacts ComponentsMain TracersCalls
  SpecUnits SpecDa DaFacts Composite SpecComposite Steppers SpecSteppers SteppersFacts SteppersMain.
Import ListNotations.
Open Scope string_scope.
Open Scope nat_scope.
Open Scope list_scope.

Section TracerStep.
  Context {T : Type} {A : Arith T} {R : Registry}.

  (** Whatever its numbers, each tracer returned has its units times the time unit. *)
  Theorem main_tracer_units : forall {U} g c p qd (ac : U -> dict (rval T) -> U * res (dict (nd T) * dict (nd T))) u u' (st : state T) tout dout,
    consistent g -> t_packer c = Some p -> has_dims p qd -> one_star qd -> wf_state st ->
    (forall m, In m (tracer_order g p) -> ~ In m (keys (t_tend c))) -> NoDup (keys (t_tend c)) -> stars_ok (t_tend c) (t_inp c) ->
    tendency_call g c ac u st = (u', Ok (tout, dout)) ->
    forall m, In m (tracer_order g p) -> exists un q, tracer_units g p m = Some un /\ dget m tout = Some q /\ attrs q = [("units", times_unit un (t_tunit c))].
  Proof.
    intros U g c p qd ac u u' st tout dout Hg Hpk Hd Hos Hwf Hno Nt Hst H m Hm. unfold tendency_call in H.
    destruct (let* _ := raise_if _ _ in _) as [raw|e] eqn:Eraw; [|congruence]. destruct (ac u raw) as [u1 r] eqn:Hac. injection H as <- H.
    apply bind_ok in H as ([rt rd] & -> & H). unfold tendency_finish in H. rewrite Hpk in H. cbn [unpack_tracers fst snd] in H.
    apply bind_ok in H as ((tr & rt') & Hun & H). apply bind_ok in Hun as (a & Ha & Hun). apply bind_ok in Hun as (out & Ho & Hun). injection Hun as <- <-.
    apply bind_ok in H as ([] & _ & H). apply bind_ok in H as ([] & _ & H).
    apply bind_ok in H as (t0 & Ht0 & H). apply bind_ok in H as (dg & Hdg & H). injection H as <- <-.
    pose proof (restore_NoDup _ _ _ _ _ _ _ Ht0) as Nt0. destruct (restore_declared _ _ _ _ _ _ Hwf Nt Hst Ht0) as (Hk0 & _).
    destruct (unpack_keys g p qd a st _ _ Hg Hd Hos Hwf Ho) as (Hko & Nko).
    unfold unpack in Ho. destruct (main_tracer_quantities g p qd Hg Hd) as ((N & Hk & Hq) & E). rewrite E in Ho.
    set (tp := get_tracer_input_properties g (pk_prepend p) (pk_dims p)) in *. apply bind_ok in Ho as (raw2 & _ & Ho).
    assert (Ek : keys (map (fun np => (fst np, multiply_units (t_tunit c) (snd np))) tp) = keys tp) by (unfold keys; rewrite map_map; auto).
    assert (Nm : NoDup (keys (map (fun np => (fst np, multiply_units (t_tunit c) (snd np))) tp))) by (rewrite Ek; auto).
    destruct (restore_declared _ _ _ _ _ _ Hwf Nm (multiplied_star g p qd (t_tunit c) Hg Hd Hos) Ho) as (_ & Hc).
    apply Hko in Hm as Hm'. apply In_keys_dget in Hm' as (q & Hmq). destruct (Hc m q Hmq) as (pr & ds & un & Hpr & _ & Hu & Hat & _).
    assert (Ed : dget m (map (fun np => (fst np, multiply_units (t_tunit c) (snd np))) tp) = option_map (multiply_units (t_tunit c)) (dget m tp)).
    { clear. induction tp as [|[x y] l IH]; auto. cbn [map fst snd dget]. destruct (String.eqb m x); auto. }
    rewrite Ed, Hq in Hpr. destruct (tracer_units g p m) as [un0|] eqn:Eu; [|discriminate Hpr]. cbn [option_map] in Hpr. injection Hpr as <-.
    exists un0, q. split; auto. split.
    - rewrite dget_dupdate by auto. assert (K : dget m t0 = None). { apply dget_none. intros Hi. apply (Hno m Hm), Hk0; auto. } rewrite K. auto.
    - rewrite Hat. rewrite multiply_qprops in Hu. cbn in Hu. injection Hu as <-. reflexivity.
  Qed.

  (** The tracers have to be returned. *)
  Theorem main_tracers_required :
    (forall {U} g c p (ac : U -> dict (rval T) -> U * res (dict (nd T) * dict (nd T))) u (st : state T) u' r, t_packer c = Some p ->
       (forall u raw u' rt rd, ac u raw = (u', Ok (rt, rd)) -> ~ In "tracers" (keys rt)) -> tendency_call g c ac u st = (u', r) -> exists e, r = Err e) /\
    (forall {U} g c p (ac : U -> dict (rval T) -> Z -> U * res (dict (nd T) * dict (nd T))) u (st : state T) dt u' r, s_packer c = Some p ->
       (forall u raw dt u' rd rn, ac u raw dt = (u', Ok (rd, rn)) -> ~ In "tracers" (keys rn)) -> stepper_call g c ac u st dt = (u', r) -> exists e, r = Err e).
  Proof.
    split.
    - intros U g c p ac u st u' r Hp Hac H. unfold tendency_call in H. destruct (let* _ := raise_if _ _ in _) as [raw|e]; [|injection H as _ <-; eauto].
      destruct (ac u raw) as [u1 [[rt rd]|e]] eqn:E; injection H as _ <-; cbn [bind]; eauto. unfold tendency_finish. rewrite Hp. cbn [unpack_tracers fst].
      unfold dgetE. rewrite (proj2 (dget_none "tracers" rt)) by (eapply Hac; eauto). cbn [bind]. eauto.
    - intros U g c p ac u st dt u' r Hp Hac H. unfold stepper_call in H. destruct (let* _ := raise_if _ _ in _) as [raw|e]; [|injection H as _ <-; eauto].
      destruct (ac u raw dt) as [u1 [[rd rn]|e]] eqn:E; injection H as _ <-; cbn [bind]; eauto. unfold stepper_finish. rewrite Hp. cbn [unpack_tracers fst].
      unfold dgetE. rewrite (proj2 (dget_none "tracers" rn)) by (eapply Hac; eauto). cbn [bind]. eauto.
  Qed.

  Lemma unpack_fold_short : forall (a : nd T) k n names s acc, nth_error (shape a) k = Some n -> n < s + length names -> names <> [] ->
    foldM (unpack_step a k) (combine (seq s (length names)) names) acc = Err EIndex.
  Proof.
    intros a k n names. induction names as [|m names IH]; intros s acc Hn Hlt Hne; [contradiction Hne; auto|].
    cbn [length seq combine foldM]. unfold unpack_step at 1. cbn [fst snd]. unfold get_slice. rewrite Hn. destruct (Nat.ltb s n) eqn:E; [|reflexivity].
    cbn [bind]. apply Nat.ltb_lt in E. apply IH; auto; cbn [length] in Hlt; [lia|]. intros ->. cbn [length] in Hlt. lia.
  Qed.

  (** None may be missing. *)
  Theorem main_no_tracer_missing : forall g p (a : nd T) (st : state T) mult n, nth_error (shape a) (tracer_index p) = Some n ->
    n < length (tracer_order g p) -> unpack g p a st mult = Err EIndex.
  Proof.
    intros g p a st mult n Hn Hlt. unfold unpack. rewrite tracer_names_order. unfold enumerate.
    change (foldM _ (combine _ _) []) with (foldM (unpack_step a (tracer_index p)) (combine (seq 0 (length (tracer_order g p))) (tracer_order g p)) []).
    rewrite (unpack_fold_short a _ n); auto. intros E. rewrite E in Hlt. cbn [length] in Hlt. lia.
  Qed.

  (** A composite of one component returns what the component returns. *)
  Lemma add_all_new : forall (d acc : dict (da T)), NoDup (keys (acc ++ d)) -> foldM add_entry d acc = Ok (acc ++ d).
  Proof.
    induction d as [|[k v] d IH]; intros acc N; [rewrite app_nil_r; reflexivity|].
    cbn [foldM]. unfold add_entry at 1. assert (K : dget k acc = None).
    { apply dget_none. unfold keys in *. rewrite map_app in N. cbn [map fst] in N. apply NoDup_remove_2 in N. intros Hi. apply N, in_or_app. auto. }
    rewrite K. cbn [bind]. assert (E : dset k v acc = acc ++ [(k, v)]).
    { clear - K. induction acc as [|[x y] l IH]; auto. cbn [dget] in K. cbn [dset app]. destruct (String.eqb k x); [discriminate K|]. rewrite IH; auto. }
    rewrite E, IH; rewrite <- app_assoc; auto.
  Qed.

  Lemma composite_of_one : forall {U} (f : caller (T:=T) U) dt u st u' (t d : dict (da T)), NoDup (keys t) -> f u st = (u', Ok (t, d)) ->
    exists d', implicit_composite_call [inr f] dt u st = (u', Ok (t, d')).
  Proof.
    intros U f dt u st u' t d N H. exists (dupdate [] d). unfold implicit_composite_call, tendency_composite_call. cbn [map composite_loop]. rewrite H. cbn [bind fst snd].
    unfold update_dict_by_adding_another. rewrite (add_all_new t [] N). reflexivity.
  Qed.

  (** The first step of an Adams-Bashforth stepper wrapping a component with tracers. *)
  Theorem main_tracers_stepped : forall {U} cfg g c p qd (ac : U -> dict (rval T) -> U * res (dict (nd T) * dict (nd T))) u u1 u2 (st : state T) tout dout o n ab0 ab1 dt diag new,
    consistent g -> t_packer c = Some p -> has_dims p qd -> one_star qd -> NoDup (map fst (pk_prepend p)) -> wf_state st ->
    NoDup (keys (t_tend c)) -> stars_ok (t_tend c) (t_inp c) -> (forall m, In m (tracer_order g p) -> ~ In m (keys (t_tend c))) ->
    t_tunit c = "s^-1" -> proper_state st -> tendency_call g c ac u st = (u1, Ok (tout, dout)) -> proper tout -> new_ab o = Ok ab0 -> is_order o n ->
    adams_bashforth cfg (fun u s dt => implicit_composite_call [inr (tendency_call g c ac)] dt u s) (ab0, u) st dt = ((ab1, u2), Ok (diag, new)) ->
    let tp := get_tracer_input_properties g (pk_prepend p) (pk_dims p) in
    let W := wildcard_dims st tp in
    exists raw arr rt rd a L, pack g p st = Ok arr /\ dget "tracers" raw = Some (RArr arr) /\
      ac u raw = (u1, Ok (rt, rd)) /\ dget "tracers" rt = Some a /\ common_lengths st tp L /\
      (shape a = shape arr -> forall i m, nth_error (tracer_order g p) i = Some m ->
         exists un x us r, tracer_units g p m = Some un /\ dget m st = Some (VDA x) /\ units_of x = Some us /\ dget m new = Some (VDA r) /\
           attrs r = attrs x /\ (exists extra, dims r = dims x ++ extra) /\
           forall cc, in_grid r cc -> in_grid x cc /\ grid_point W L cc qd /\
             exists y, converted (un ++ " s^-1") (us ++ " s^-1") (at_ a (map (tracer_pos i W L cc) (pk_dims p))) y /\
               da_at r cc = aadd (da_at x cc) (amul y (aofQ (dt # 1000000)))).
  Proof.
    intros U cfg g c p qd ac u u1 u2 st tout dout o n ab0 ab1 dt diag new Hg Hpk Hd Hos Np Hwf Nt Hst Hno Htu Hps Hc Hpt Ha Hon Hab tp W.
    set (prog := fun (u : U) s dt => implicit_composite_call [inr (tendency_call g c ac)] dt u s) in *.
    destruct (main_tendency_tracers g c p qd ac u u1 st tout dout Hg Hpk Hd Hos Np Hwf Nt Hst Hno Hc) as (raw & arr & rt & rd & a & L & H1 & H2 & H3 & H4 & H5 & _ & _ & H8 & _).
    exists raw, arr, rt, rd, a, L. repeat (split; auto). intros Hsh i m Hi. specialize (H8 Hsh i m Hi). destruct H8 as (un & q & Hu & Hq & Hat & Hdq & Hshq & Hv).
    destruct (composite_of_one (tendency_call g c ac) dt u st u1 tout dout (proj1 Hpt) Hc) as (d' & Hcomp).
    assert (Eu : u2 = u1).
    { unfold adams_bashforth, ab_call in Hab. destruct (ensure_timestep _ _); [|unfold finish_step in Hab; cbn [bind] in Hab; congruence].
      change (prog u st dt = (u1, Ok (tout, d'))) in Hcomp. rewrite Hcomp in Hab. apply (f_equal (fun z => snd (fst z))) in Hab. cbn [bind fst snd] in Hab. destruct (convert_tendencies st tout) as [t'|]; cbn [bind fst snd] in Hab; auto.
      destruct (perform_step _ _ _ _); auto. } subst u2.
    assert (Hh : history (adams_bashforth cfg prog) prog dt (ab0, u) ([] ++ [mkentry st tout diag new]) (ab1, u1)).
    { eapply history_snoc; [constructor|exact Hcomp|exact Hab]. }
    destruct (main_ab_formula cfg prog dt o n ab0 u _ _ Ha Hon Hh) with (pre := @nil (entry T)) (e := mkentry st tout diag new) (post := @nil (entry T)) (X := m)
      as (x & ts & r & Hx & Hr & Hts & Hext & Hf); auto.
    { intros e' [<-|[]]. auto. }
    { intros e' He. unfold latest in He. cbn [rev length] in He. destruct (Nat.min n 1) as [|k]; [destruct He|]. cbn [firstn] in He. rewrite firstn_nil in He. destruct He as [<-|[]].
      cbn [e_tend]. apply dget_In_keys with (v := q). auto. }
    assert (Hn : Nat.min n 1 = 1). { destruct (order_made _ _ _ Ha Hon) as [[K _] _]. lia. }
    cbn [length] in *. rewrite Hn in *. unfold latest in *. cbn [rev firstn e_st e_tend e_new] in *.
    destruct Hext as (_ & Hea & Hed & _).
    assert (Huq : units_of q = Some (un ++ " s^-1")%string). { unfold units_of. rewrite Hat, Htu. reflexivity. }
    inversion Hts as [|e0 t0 es0 ts0 Ht0 Hrest]; subst. cbn [e_tend] in Ht0.
    rewrite Hq in Ht0. injection Ht0 as <-.
    assert (Hus : exists us, units_of x = Some us).
    { unfold adams_bashforth, ab_call in Hab. destruct (ensure_timestep _ _); [|unfold finish_step in Hab; cbn [bind] in Hab; congruence].
      change (prog u st dt = (u1, Ok (tout, d'))) in Hcomp. rewrite Hcomp in Hab. cbn [bind fst snd] in Hab.
      destruct (convert_tendencies st tout) as [t'|] eqn:Ec; [|unfold finish_step in Hab; cbn [bind] in Hab; congruence].
      destruct (convert_ok _ _ _ Ec) as (_ & K). specialize (K m). rewrite Hq in K. destruct K as (t1 & K & _). apply conv_has_rate in K. unfold has_rate in K. rewrite Huq in K.
      destruct K as (x' & us & _ & _ & Hx' & K & _). rewrite Hx in Hx'. injection Hx' as <-. eauto. }
    destruct Hus as (us & Hus). exists un, x, us, r. split; auto. split; auto. split; auto. split; auto. split; auto. split; auto.
    intros cc Hcc. destruct (Hf cc Hcc) as (Hgx & ys & Hys & Hval). split; auto.
    inversion Hys as [|e1 y es1 ys1 Hy Hy1]; subst. inversion Hy1; subst. destruct Hy as (t & Ht & Hgt & Hrate). cbn [e_tend e_st] in *. rewrite Hq in Ht. injection Ht as <-.
    assert (Hgp : grid_point W L cc qd).
    { assert (Hlt : forall d, In d (dims q) -> cc d < L d).
      { intros d Hd'. apply Hgt. unfold dim_len. rewrite Hshq. clear - Hd'. induction (dims q) as [|x l IH]; [destruct Hd'|]. cbn [map combine dget].
        destruct (String.eqb d x) eqn:E; [apply String.eqb_eq in E as ->; auto|]. apply IH. destruct Hd' as [->|]; auto. rewrite String.eqb_refl in E. discriminate E. }
      intros d Hdq'. fold tp W in Hdq. rewrite Hdq in Hlt. unfold expand_dims in Hlt. destruct (String.eqb d "*") eqn:E.
      - intros w Hw. apply Hlt, in_flat_map. exists d. rewrite E. auto.
      - apply Hlt, in_flat_map. exists d. rewrite E. cbn [In]. auto. }
    split; auto. exists y. split; [|exact Hval]. unfold rate in Hrate. rewrite Huq in Hrate. destruct Hrate as (x' & us' & Hx' & Hus' & Hcv).
    rewrite Hx in Hx'. injection Hx' as <-. rewrite Hus in Hus'. injection Hus' as <-. rewrite (Hv cc Hgp) in Hcv. exact Hcv.
  Qed.
End TracerStep.
