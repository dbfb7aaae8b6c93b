(** C98: calls of components on part of the grid return when the calls on the whole grid do. *)
From Coq Require Import String List Bool Arith ZArith Lia.
From Verif Require Import Prelude PreludeFacts ArithM NdArray NdFacts Units DataArrayM SpecDa DaFacts
  Wildcard WildcardFacts GetNp GetNpFacts SpecArrays ExtractFacts Restore RestoreFacts RoundTripFacts RestoreExtract ArraysMain
  Tracers SpecComponents Components ComponentFacts CallFacts TidFacts SpecCalls ComponentsMain
  Composite Steppers MainLoop SpecRegion RegionFacts RegionMain SpecFollow FollowFacts SpecColumns ColumnsFacts ColumnsMain RegionCalls SpecServe.
Import ListNotations.
Open Scope string_scope.
Open Scope nat_scope.
Open Scope list_scope.

Lemma dmem_keys_in {V} k (d : dict V) : dmem k d = true <-> In k (keys d).
Proof.
  induction d as [ | [j x] d IH]; cbn; [split; [discriminate | intros []] | ].
  unfold dmem in *; cbn [dget]. destruct (String.eqb_spec k j) as [-> | N]; [split; auto | ].
  rewrite IH. split; [auto | intros [E | E]; [congruence | exact E]].
Qed.

Lemma dmem_same_keys {V W} k (d : dict V) (d' : dict W) : keys d = keys d' -> dmem k d = dmem k d'.
Proof.
  intros E. destruct (dmem k d) eqn:E1; symmetry.
  - apply dmem_keys_in. rewrite <- E. apply dmem_keys_in, E1.
  - destruct (dmem k d') eqn:E2; [ | reflexivity]. apply dmem_keys_in in E2. rewrite <- E in E2. apply dmem_keys_in in E2. congruence.
Qed.

Lemma check_outputs_keys {V W} outp inp ign (raw : dict V) (raw' : dict W) : keys raw = keys raw' ->
  check_outputs outp inp ign raw = check_outputs outp inp ign raw'.
Proof.
  intros E. unfold check_outputs, check_missing, check_extra. rewrite E. f_equal. f_equal.
  induction outp as [ | np outp IH]; cbn [existsb]; [reflexivity | ]. rewrite IH, (dmem_same_keys _ _ _ E). f_equal. f_equal. f_equal.
  induction (wanted_aliases inp np) as [ | al l IHl]; cbn [existsb]; [reflexivity | ]. rewrite IHl, (dmem_same_keys _ _ _ E). reflexivity.
Qed.

Lemma check_inputs_keys {V W} inp (st : dict V) (st' : dict W) : keys st = keys st' -> check_inputs inp st = check_inputs inp st'.
Proof.
  intros E. unfold check_inputs. generalize tt. induction inp as [ | np inp IH]; intros []; cbn [foldM]; [reflexivity | ].
  rewrite (dmem_same_keys _ _ _ E). destruct (dmem _ st'); cbn [bind]; [apply IH | reflexivity].
Qed.

Section Calls.
  Context {T : Type} {A : Arith T} {R : Registry} (g : cut) (big small : string -> nat).

  Lemma sized_grid (st st' : state T) nm p ds inp b d n : part_state g st st' -> sized_state g big small st st' ->
    listed st' inp nm p ds b -> has_dim b d n -> n = small d.
  Proof.
    intros Hp Hs (_ & _ & L) Hd. destruct (part_wf g _ _ Hp) as [_ W]. destruct (W nm b L) as [Wb _].
    apply (has_dim_len b d n Wb) in Hd.
    pose proof (pk_get _ nm st st' Hs) as K. rewrite L in K. destruct (dget nm st) as [[a | ] | ]; try contradiction.
    destruct K as (_ & _ & [_ K] & _). exact (K d n Hd).
  Qed.

  Lemma follow_raw tg inp outp (st st' : state T) raw : part_state g st st' -> sized_state g big small st st' ->
    proper_inputs inp -> plain_inputs inp -> column_physics g inp outp ->
    raw_state tg inp None st = Ok raw ->
    validated tg inp None st raw /\ exists raw', raw_state tg inp None st' = Ok raw' /\ validated tg inp None st' raw'.
  Proof.
    intros Hp Hs Hpi [Hnd _] Hcp E. destruct (part_wf g _ _ Hp) as [W1 W2].
    pose proof (raw_state_ok tg inp None st raw W1 Hpi E) as V. split; [exact V | ].
    assert (X : exists raw', raw_state tg inp None st' = Ok raw').
    2:{ destruct X as [raw' X]. exists raw'; split; [exact X | exact (raw_state_ok tg inp None st' raw' W2 Hpi X)]. }
    destruct V as (Hus & (L & HL & Hex) & (tm & Ht & _) & _).
    assert (Hget : forall name p, In (name, p) inp -> exists ds u a b q, p_dims p = Some ds /\ p_units p = Some u /\
      dget name st = Some (VDA a) /\ dget name st' = Some (VDA b) /\ part_named g name a b /\ to_units a u = Ok q).
    { intros name p Hi. destruct (Hex name p Hi) as (r & _ & ds & u & a & q & X1 & X2 & X3 & X4 & _).
      destruct (part_listed g st st' inp name p ds a Hp (conj Hi (conj X1 X3))) as (b & (_ & _ & Lb) & K).
      exists ds, u, a, b, q. repeat (split; [assumption | ]). assumption. }
    assert (Hc : complete st' inp).
    { intros name p Hi. destruct (Hget name p Hi) as (ds & u & a & b & q & X1 & X2 & X3 & X4 & _). repeat split; eauto. }
    assert (Hk : known_units st' inp).
    { intros name p Hi. destruct (Hget name p Hi) as (ds & u & a & b & q & X1 & X2 & X3 & X4 & (_ & K & _) & X5).
      destruct K as (_ & _ & _ & Ea & _). unfold to_units in X5.
      destruct (dget "units" (attrs a)) as [own | ] eqn:Eo; [ | discriminate X5].
      unfold parseE in X5. destruct (parse own) as [x | ] eqn:Ex; [ | discriminate X5]; cbn [bind] in X5.
      destruct (parse u) as [y | ] eqn:Ey; [ | discriminate X5]. split.
      - intros u' Eu. rewrite X2 in Eu; injection Eu as <-. eauto.
      - intros b' own' Eb Eo'. rewrite X4 in Eb; injection Eb as <-. rewrite <- Ea, Eo in Eo'; injection Eo' as <-. eauto. }
    assert (Hnr : no_repeated_dims st' inp).
    { intros name p ds Hi Hd. apply expand_NoDup.
      - apply dedup_NoDup.
      - exact (Hnd name p ds Hi Hd).
      - intros d Hw Hin. apply (part_wild_in g st st' inp d Hp) in Hw as [Hw _].
        destruct (part_unamb g inp outp Hcp st st' Hp d Hw) as [Hno _]. apply Hno. exists name, p, ds; auto. }
    destruct (extraction_iff st' inp W2 (proj1 Hpi) Hc Hk Hnr) as [_ Hok].
    destruct Hok as [r0 Hr0].
    - intros (n1 & p1 & ds1 & a1 & n2 & p2 & ds2 & a2 & d & l1 & l2 & K1 & K2 & K3 & K4 & N). apply N.
      rewrite (sized_grid st st' _ _ _ _ _ _ _ Hp Hs K1 K3). symmetry. exact (sized_grid st st' _ _ _ _ _ _ _ Hp Hs K2 K4).
    - intros (name & p & ds & b & d & K1 & K2 & K3 & K4). apply Hus. right; right; left.
      destruct (part_listed' g st st' inp name p ds b Hp K1) as (a & La & (_ & (_ & _ & _ & _ & K & _) & _)).
      exists name, p, ds, a, d. split; [exact La | split; [exact (proj1 (proj1 (K d) K2)) | split; assumption]].
    - intros (name & p & u & b & Hi & Hu & Hb & K). apply Hus. right; right; right.
      destruct (Hget name p Hi) as (ds & u' & a & b' & q & X1 & X2 & X3 & X4 & (_ & (_ & _ & _ & Ea & _) & _) & _).
      rewrite Hb in X4; injection X4 as <-. exists name, p, u, a. rewrite Ea. auto.
    - unfold raw_state in *. rewrite <- (check_inputs_keys inp st st' (pk_keys _ _ _ Hs)).
      destruct (check_inputs inp st) as [[] | ]; [ | discriminate E]. cbn [bind] in *. rewrite Hr0. cbn [bind].
      unfold dgetE. pose proof (pk_get _ "time" st st' Hs) as K. rewrite Ht in K.
      destruct (dget "time" st') as [t' | ]; [ | contradiction]. cbn [bind]. eauto.
  Qed.

  Lemma follow_restore tg inp outp ign (st st' : state T) raw' L' m rt rt' out : part_state g st st' ->
    plain_inputs inp -> NoDup (keys outp) -> stars_ok outp inp -> column_physics g inp outp ->
    validated tg inp None st' raw' -> common_lengths st' inp L' ->
    restore_data_arrays_with_properties rt outp st inp ign false = Ok out -> keys rt = keys rt' ->
    result_grid inp outp (axis_len (wildcard_dims st' inp) L') m rt' ->
    exists out', restore_data_arrays_with_properties rt' outp st' inp ign false = Ok out'.
  Proof.
    intros Hp [_ Hstar] Hn Hso Hcp V HL' Hr Hk [Hm1 Hm2]. destruct (part_wf g _ _ Hp) as [W1 W2].
    destruct V as (Hus & (L0 & HL0 & Hex) & _).
    destruct (main_restore st rt outp inp ign false out W1 Hn Hso Hr) as (_ & Hall).
    destruct (main_restore_ok st' rt' outp inp ign false L' W2 Hn) as (out' & E & _); [ | | | | | exists out'; exact E].
    - intros name p Hi. destruct (Hex name p Hi) as (r & _ & ds & u & a & q & X1 & X2 & X3 & _). repeat split; eauto.
    - intros X; apply Hus; right; left; exact X.
    - intros X; apply Hus; right; right; left; exact X.
    - exact (proj1 HL').
    - intros name p Ep Hig.
      assert (Hig0 : ~ ignored rt outp ign false name) by (intros [X | (X & _)]; [apply Hig; left; exact X | discriminate X]).
      destruct (Hall name p Ep Hig0) as (ds & u & ra & q & D1 & D2 & D3 & _).
      assert (Hra : exists ra', dget (out_key outp inp name) rt' = Some ra').
      { pose proof (dmem_same_keys (out_key outp inp name) rt rt' Hk) as X. unfold dmem in X. rewrite D3 in X.
        destruct (dget (out_key outp inp name) rt') as [x | ]; [eauto | discriminate X]. }
      destruct Hra as [ra' Era]. exists ds, u, ra'.
      split; [exact D1 | split; [exact (Hso name ds D1) | split; [exact D2 | split; [exact Era | split]]]].
      + rewrite (Hm2 name ds ra' D1 Era). apply map_ext_in. intros d Hd. apply Hm1.
        destruct (String.eqb_spec d "*") as [-> | N]; [exact Hstar | ]. exact (proj2 (proj2 (proj2 (proj2 Hcp) name ds D1)) d Hd N).
      + intros _. destruct Hstar as (nm & p' & ds' & S1 & S2 & S3). exists nm, p', ds'; auto.
  Qed.

  (** The grids of the two raw states have the same named dims. *)
  Lemma follow_lens (Hkept : whole_kept g) inp outp (st st' : state T) L L' d : part_state g st st' -> column_physics g inp outp ->
    common_lengths st inp L -> common_lengths st' inp L' -> input_dim inp d -> d <> "*" ->
    axis_len (wildcard_dims st inp) L d = axis_len (wildcard_dims st' inp) L' d.
  Proof.
    intros Hp Hcp HL HL' Hi Hd. unfold axis_len. destruct (String.eqb_spec d "*") as [E | _]; [contradiction | ].
    exact (proj1 (part_lengths g Hkept inp st st' L L' d Hp HL HL') (proj1 Hcp d Hi Hd)).
  Qed.

  Theorem follow_component {U} tg c (ac : U -> dict (rval T) -> Z -> U * res (dict (nd T) * dict (nd T))) :
    whole_kept g -> t_packer c = None -> proper_inputs (t_inp c) -> plain_inputs (t_inp c) ->
    NoDup (keys (t_tend c)) -> stars_ok (t_tend c) (t_inp c) -> NoDup (keys (t_diag c)) -> stars_ok (t_diag c) (t_inp c) ->
    column_physics g (t_inp c) (t_tend c) -> column_physics g (t_inp c) (t_diag c) ->
    (forall u dt, columnwise (t_inp c) (t_tend c) (fun raw out => exists v d, ac u raw dt = (v, Ok (out, d)))) ->
    (forall u dt, columnwise (t_inp c) (t_diag c) (fun raw out => exists v t, ac u raw dt = (v, Ok (t, out)))) ->
    (forall u raw raw' dt, fst (ac u raw dt) = fst (ac u raw' dt)) -> serves (t_inp c) ac ->
    forall u st st' dt u' x, part_state g st st' -> sized_state g big small st st' ->
    tendency_call tg c (fun u raw => ac u raw dt) u st = (u', Ok x) ->
    exists y, tendency_call tg c (fun u raw => ac u raw dt) u st' = (u', Ok y).
  Proof.
    intros Hk Hpk Hpi Hpl Hn Hst Hn' Hst' Hcp Hcp' Hc Hc' Hfst Hse u st st' dt u' x Hp Hs E. unfold tendency_call in *. rewrite Hpk in *.
    destruct (raise_if (negb (t_init c)) ERuntime) as [[] | ]; [ | discriminate E]. cbn [bind] in *.
    destruct (raw_state tg (t_inp c) None st) as [raw | e] eqn:Er; [ | discriminate E].
    destruct (follow_raw tg (t_inp c) (t_tend c) st st' raw Hp Hs Hpi Hpl Hcp Er) as (V & raw' & Er' & V'). rewrite Er'.
    destruct (part_wf g _ _ Hp) as [W1 W2].
    pose proof V as (_ & (L & HL & _) & _). pose proof V' as (_ & (L' & HL' & _) & _).
    pose proof (proj1 (validated_grid st (t_inp c) raw L W1 (validated_any tg empty_treg _ _ _ V) HL)) as G.
    pose proof (proj1 (validated_grid st' (t_inp c) raw' L' W2 (validated_any tg empty_treg _ _ _ V') HL')) as G'.
    pose proof (follow_lens Hk (t_inp c) (t_tend c) st st' L L') as Hl.
    assert (Hln : forall d, input_dim (t_inp c) d -> d <> "*" -> axis_len (wildcard_dims st (t_inp c)) L d = axis_len (wildcard_dims st' (t_inp c)) L' d) by (intros d X Y; apply Hl; assumption).
    pose proof (fun a b => Hse u dt raw raw' _ _ a b G G' Hln) as Ha. pose proof (Hfst u raw raw' dt) as Hf.
    destruct (ac u raw dt) as [u1 r] eqn:Ea. injection E as <- E. apply bind_ok in E as ([rt rd] & -> & E).
    destruct (Ha rt rd eq_refl) as (rt' & rd' & Ea' & K1 & K2).
    destruct (ac u raw' dt) as [v1 r'] eqn:Ea2. cbn [fst snd] in Hf, Ea'. subst v1 r'. cbn [bind].
    unfold tendency_finish in *. rewrite Hpk in *. cbn [unpack_tracers bind fst snd] in *.
    rewrite <- (check_outputs_keys (t_tend c) (t_inp c) [] rt rt' K1), <- (check_outputs_keys (t_diag c) (t_inp c) (t_added c) rd rd' K2).
    apply bind_ok in E as ([] & -> & E). apply bind_ok in E as ([] & -> & E). cbn [bind].
    apply bind_ok in E as (tend & Rt & E). apply bind_ok in E as (diag & Rd & E).
    destruct (Hc u dt _ _ raw raw' rt rt' (ex_intro _ u1 (ex_intro _ rd Ea)) (ex_intro _ u1 (ex_intro _ rd' Ea2)) G G' Hln) as (_ & m & _ & M & _).
    destruct (Hc' u dt _ _ raw raw' rd rd' (ex_intro _ u1 (ex_intro _ rt Ea)) (ex_intro _ u1 (ex_intro _ rt' Ea2)) G G' Hln) as (_ & m' & _ & M' & _).
    destruct (follow_restore tg (t_inp c) (t_tend c) [] st st' raw' L' m rt rt' tend Hp Hpl Hn Hst Hcp V' HL' Rt K1 M) as [tend' ->].
    destruct (follow_restore tg (t_inp c) (t_diag c) (t_added c) st st' raw' L' m' rd rd' diag Hp Hpl Hn' Hst' Hcp' V' HL' Rd K2 M') as [diag' ->].
    cbn [bind]. eauto.
  Qed.

  Theorem follow_stepper {U} tg c (ac : U -> dict (rval T) -> Z -> U * res (dict (nd T) * dict (nd T))) :
    whole_kept g -> s_packer c = None -> s_tid c = false -> proper_inputs (s_inp c) -> plain_inputs (s_inp c) ->
    NoDup (keys (s_out c)) -> stars_ok (s_out c) (s_inp c) -> NoDup (keys (s_diag c)) -> stars_ok (s_diag c) (s_inp c) ->
    column_physics g (s_inp c) (s_out c) -> column_physics g (s_inp c) (s_diag c) ->
    (forall u dt, columnwise (s_inp c) (s_out c) (fun raw out => exists v d, ac u raw dt = (v, Ok (d, out)))) ->
    (forall u dt, columnwise (s_inp c) (s_diag c) (fun raw out => exists v n, ac u raw dt = (v, Ok (out, n)))) ->
    (forall u raw raw' dt, fst (ac u raw dt) = fst (ac u raw' dt)) -> serves (s_inp c) ac ->
    forall u st st' dt u' x, part_state g st st' -> sized_state g big small st st' ->
    stepper_call tg c ac u st dt = (u', Ok x) ->
    exists y, stepper_call tg c ac u st' dt = (u', Ok y).
  Proof.
    intros Hk Hpk Htd Hpi Hpl Hn Hst Hn' Hst' Hcp Hcp' Hc Hc' Hfst Hse u st st' dt u' x Hp Hs E. unfold stepper_call in *. rewrite Hpk in *.
    destruct (raise_if (negb (s_init c)) ERuntime) as [[] | ]; [ | discriminate E]. cbn [bind] in *.
    destruct (raw_state tg (s_inp c) None st) as [raw | e] eqn:Er; [ | discriminate E].
    destruct (follow_raw tg (s_inp c) (s_out c) st st' raw Hp Hs Hpi Hpl Hcp Er) as (V & raw' & Er' & V'). rewrite Er'.
    destruct (part_wf g _ _ Hp) as [W1 W2].
    pose proof V as (_ & (L & HL & _) & _). pose proof V' as (_ & (L' & HL' & _) & _).
    pose proof (proj1 (validated_grid st (s_inp c) raw L W1 (validated_any tg empty_treg _ _ _ V) HL)) as G.
    pose proof (proj1 (validated_grid st' (s_inp c) raw' L' W2 (validated_any tg empty_treg _ _ _ V') HL')) as G'.
    pose proof (follow_lens Hk (s_inp c) (s_out c) st st' L L') as Hl.
    assert (Hln : forall d, input_dim (s_inp c) d -> d <> "*" -> axis_len (wildcard_dims st (s_inp c)) L d = axis_len (wildcard_dims st' (s_inp c)) L' d) by (intros d X Y; apply Hl; assumption).
    pose proof (fun a b => Hse u dt raw raw' _ _ a b G G' Hln) as Ha. pose proof (Hfst u raw raw' dt) as Hf.
    destruct (ac u raw dt) as [u1 r] eqn:Ea. injection E as <- E. apply bind_ok in E as ([rd rt] & -> & E).
    destruct (Ha rd rt eq_refl) as (rd' & rt' & Ea' & K2 & K1).
    destruct (ac u raw' dt) as [v1 r'] eqn:Ea2. cbn [fst snd] in Hf, Ea'. subst v1 r'. cbn [bind].
    unfold stepper_finish in *. rewrite Hpk, Htd in *. cbn [unpack_tracers bind fst snd] in *.
    rewrite <- (check_outputs_keys (s_out c) (s_inp c) [] rt rt' K1), <- (check_outputs_keys (s_diag c) (s_inp c) (s_ign c) rd rd' K2).
    apply bind_ok in E as ([] & -> & E). apply bind_ok in E as ([] & -> & E). cbn [bind] in *.
    apply bind_ok in E as (diag & Rd & E). apply bind_ok in E as (tend & Rt & E).
    destruct (Hc u dt _ _ raw raw' rt rt' (ex_intro _ u1 (ex_intro _ rd Ea)) (ex_intro _ u1 (ex_intro _ rd' Ea2)) G G' Hln) as (_ & m & _ & M & _).
    destruct (Hc' u dt _ _ raw raw' rd rd' (ex_intro _ u1 (ex_intro _ rt Ea)) (ex_intro _ u1 (ex_intro _ rt' Ea2)) G G' Hln) as (_ & m' & _ & M' & _).
    destruct (follow_restore tg (s_inp c) (s_out c) [] st st' raw' L' m rt rt' tend Hp Hpl Hn Hst Hcp V' HL' Rt K1 M) as [tend' Rt'].
    destruct (follow_restore tg (s_inp c) (s_diag c) [] st st' raw' L' m' rd rd' diag Hp Hpl Hn' Hst' Hcp' V' HL' Rd K2 M') as [diag' Rd'].
    rewrite Rd'. cbn [bind]. rewrite Rt'. cbn [bind]. eauto.
  Qed.
End Calls.
