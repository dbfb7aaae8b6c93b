(** Leapfrog in memory: C37. *)
From Coq Require Import String List Bool Arith ZArith QArith Qcanon Lia.
From Verif Require Import Prelude PreludeFacts ArithM NdArray NdFacts Units DataArrayM UnitsFacts SpecDa DaFacts
  Components Composite Steppers SpecSteppers SteppersFacts Heap SpecHeap LeapFacts HeapFacts HeapComposite HeapSteppers
  SpecComposite RKFacts.
Import ListNotations.
Open Scope string_scope.
Open Scope nat_scope.
Open Scope list_scope.

Section Leap.
  Context {T : Type} {A : Arith T} {R : Registry}.

  #[local] Opaque alloc.

  (** ** What can change in memory, whatever the components do *)

  Lemma h_leap_loop_changed : forall sec nu alpha old tend st ks (h : heap T) new h' r,
    h_leap_loop sec nu alpha old tend ks h st new = (h', r) -> changed_in (named_cells st ks) h h'.
  Proof.
    intros sec nu alpha old tend st ks. induction ks as [|k ks IH]; intros h new h' r H; cbn [h_leap_loop] in H.
    - injection H as <- _. apply changed_refl.
    - destruct (leap_one sec nu (load_state h old) (load_state h st) (load_dict h tend) k) as [[n w]|e]; cbn [bind fst snd] in H;
        [|injection H as <- _; apply changed_refl].
      destruct (h_state_da k st) as [x|e] eqn:Ex; cbn [bind] in H; [|injection H as <- _; apply changed_refl].
      destruct (da_iadd (load h x) (da_lscale alpha w)) as [x'|e]; cbn [bind] in H; [|injection H as <- _; apply changed_refl].
      assert (Hin : In (k, HDA x) st).
      { unfold h_state_da in Ex. apply bind_ok in Ex as (v & Hv & Ex). apply dgetE_ok in Hv. destruct v; [|discriminate].
        injection Ex as ->. apply dget_In; auto. }
      assert (C1 : changed_in (named_cells st (k :: ks)) h (write h x x')).
      { apply (changed_weaken _ _ _ _ (changed_write h x x')). intros c _ Hc. exists k, x. split; auto. left; auto. }
      destruct (if aeqb alpha (aofQ (1 # 1)) then Ok n else da_iadd n (da_lscale (asub alpha (aofQ (1 # 1))) w)) as [n'|e];
        [|injection H as <- _; exact C1].
      rewrite alloc_eq in H. apply IH in H.
      pose proof (grown_changed (named_cells st ks) _ _ (grown_alloc (write h x x') n')) as C2.
      pose proof (changed_trans _ _ (named_cells st ks) _ _ _ C2 H ltac:(intros c _ [K|K]; exact K)) as C3.
      apply (changed_trans _ _ (named_cells st (k :: ks)) _ _ _ C1 C3).
      intros c _ [K|(j & a & Hj & K)]; auto. exists j, a. split; auto. right; auto.
  Qed.

  Lemma main_leap_spares : forall {U} (K : cells) (prog : hicaller (T:=T) U), spares K prog ->
    forall cfg l u h st dt l' u' h' r, h_leapfrog cfg prog (l, u) h st dt = ((l', u', h'), r) ->
    changed_in (fun c => ~ K c \/ exists u1 h1 t d, prog u h st dt = ((u1, h1), Ok (t, d)) /\
                                   hlf_old l <> None /\ named_cells st (keys t) c) h h'.
  Proof.
    intros U K prog HK cfg l u h st dt l' u' h' r H. unfold h_leapfrog in H.
    destruct (h_leap_call prog (l, u) h st dt) as [[[l1 u1] h1] r1] eqn:E.
    pose proof (h_finish_grown cfg dt h1 st r1) as Gf. destruct (h_finish cfg dt h1 st r1) as [h2 r2].
    injection H as _ _ <- _. cbn [fst] in Gf.
    set (Z := fun c => _ \/ _).
    assert (C : changed_in Z h h1).
    { unfold h_leap_call in E. destruct (ensure_timestep (hlf_dt l) dt); [|injection E as _ _ <- _; apply changed_refl].
      destruct (prog u h st dt) as [[up hp] rp] eqn:Ep. pose proof (HK _ _ _ _ _ _ _ Ep) as C1.
      assert (C1' : changed_in Z h hp) by (apply (changed_weaken _ _ _ _ C1); intros c _ Hc; left; auto).
      destruct rp as [[t d]|e]; [|injection E as _ _ <- _; exact C1'].
      pose proof (h_convert_grown t hp st) as G2.
      destruct (h_convert hp st t) as [hc [tend|e]] eqn:Ec; cbn [fst] in G2.
      2: { injection E as _ _ <- _. apply (changed_trans _ _ Z _ _ _ C1' (grown_changed Z _ _ G2)). intros c _ [Hc|Hc]; auto. }
      assert (C2 : changed_in Z h hc).
      { apply (changed_trans _ _ Z _ _ _ C1' (grown_changed Z _ _ G2)). intros c _ [Hc|Hc]; auto. }
      assert (Ek : keys tend = keys t).
      { clear - Ec. revert hp hc tend Ec. induction t as [|[k t] ts IH]; intros hp hc tend Ec; cbn [h_convert] in Ec.
        - injection Ec as _ <-. auto.
        - destruct (h_convert_one hp st k t) as [h1 [t'|e]]; [|discriminate].
          destruct (h_convert h1 st ts) as [h2 [o|e]] eqn:E2; [|discriminate]. injection Ec as _ <-.
          simpl. f_equal. eapply IH; eauto. }
      assert (C3 : forall h3 rn, match hlf_old l with
                | None => alloc_result hc (step_forward_euler (load_state hc st) (load_dict hc tend) dt)
                | Some old => h_leap_loop (total_seconds dt) (hlf_nu l) (hlf_alpha l) old tend (keys tend) hc st []
                end = (h3, rn) -> changed_in Z h h3).
      { intros h3 rn H3. destruct (hlf_old l) as [old|] eqn:Eo.
        - apply h_leap_loop_changed in H3. apply (changed_trans _ _ Z _ _ _ C2 H3). intros c _ [Hc|Hc]; auto.
          right. exists up, hp, t, d. rewrite Ek in Hc. split; auto. split; auto. discriminate.
        - pose proof (alloc_result_grown (step_forward_euler (load_state hc st) (load_dict hc tend) dt) hc) as G3.
          rewrite H3 in G3. cbn [fst] in G3.
          apply (changed_trans _ _ Z _ _ _ C2 (grown_changed Z _ _ G3)). intros c _ [Hc|Hc]; auto. }
      destruct (match hlf_old l with None => _ | Some old => _ end) as [h3 rn] eqn:E3. specialize (C3 _ _ eq_refl).
      destruct rn; injection E as _ _ <- _; exact C3. }
    apply (changed_trans _ _ Z _ _ _ C (grown_changed Z _ _ Gf)). intros c _ [Hc|Hc]; auto.
  Qed.

  (** ** Values *)

  Lemma load_state_write : forall (h : heap T) st k x x' b', separate st -> state_in h st -> In (k, HDA x) st ->
    wf_da (load h x) -> wf_da b' -> da_iadd (load h x) b' = Ok x' ->
    load_state (write h x x') st = dset k (VDA x') (load_state h st).
  Proof.
    intros h st k x x' b' (Hn & Hc & Hd) Hi Hin Wx Wb H.
    assert (Hix : exists_in h x) by (intros c K; apply Hi; exists k, x; auto).
    destruct (load_iadd h x b' x' Wx Wb (Hc _ _ Hin) Hix H) as (El & _).
    assert (Hl : forall j a, In (j, HDA a) st -> j <> k -> load (write h x x') a = load h a).
    { intros j a Ha Hne. apply (load_same _ _ _ _ (changed_write h x x')).
      - intros c K. apply Hi. exists j, a; auto.
      - intros c K1 K2. exact (Hd _ _ _ _ Ha Hin Hne c K1 K2). }
    clear Hi Hc Hd. induction st as [|[j v] st IH]; [destruct Hin|]. inversion Hn as [|? ? Hk Hn']; subst.
    change (load_state (write h x x') ((j, v) :: st)) with ((j, load_val (write h x x') v) :: load_state (write h x x') st).
    change (load_state h ((j, v) :: st)) with ((j, load_val h v) :: load_state h st).
    cbn [dset]. destruct (String.eqb_spec k j) as [<-|Hne].
    - assert (Ev : v = HDA x).
      { destruct Hin as [E|Hin]; [congruence|]. exfalso. apply Hk. apply in_map_iff. exists (k, HDA x); auto. }
      subst v. cbn [load_val]. rewrite El. f_equal. apply load_state_eq. intros j a Ha. apply (Hl j). right; auto.
      intros ->. apply Hk. apply in_map_iff. exists (k, HDA a); auto.
    - f_equal.
      + destruct v as [a|t]; auto. cbn [load_val]. do 2 f_equal. apply (Hl j); [left; auto|auto].
      + apply IH; auto.
        * destruct Hin as [E|Hin]; [congruence|auto].
        * intros j' a Ha. apply Hl. right; auto.
  Qed.

  Lemma separate_dset_new : forall (h : heap T) st k v, separate st -> state_in h st ->
    separate (dset k (HDA (snd (alloc h v))) st).
  Proof.
    intros h st k v (Hn & Hc & Hd) Hi. split; [|split].
    - apply NoDup_dset; auto.
    - intros j a Ha. apply In_dset_inv in Ha as [(-> & E)|Ha]; eauto. injection E as ->. apply seq_NoDup.
    - intros j1 j2 a b Ha Hb Hne c K1 K2. apply In_dset_other in Ha; auto. apply In_dset_other in Hb; auto.
      destruct Ha as [(-> & Ea)|(N1 & Ha)], Hb as [(-> & Eb)|(N2 & Hb)].
      + contradiction.
      + injection Ea as ->. apply alloc_cells in K1. assert (K : state_cells st c) by (exists j2, b; auto). apply Hi in K. lia.
      + injection Eb as ->. apply alloc_cells in K2. assert (K : state_cells st c) by (exists j1, a; auto). apply Hi in K. lia.
      + exact (Hd _ _ _ _ Ha Hb Hne c K1 K2).
  Qed.

  Lemma h_leap_loop_spec : forall sec nu alpha old tend st vold vtend, separate st ->
    proper_state vold -> (forall k t, dget k vtend = Some t -> wf_da t) ->
    forall ks (h : heap T) new h' r, NoDup ks ->
    state_in h st -> state_in h old -> dict_in h tend -> state_in h new ->
    proper_state (load_state h st) ->
    (forall k, In k ks -> dget k (load_state h old) = dget k vold) ->
    (forall k, In k ks -> dget k (load_dict h tend) = dget k vtend) ->
    separate_from old st -> avoids (cells_of tend) (state_cells st) -> avoids (state_cells new) (state_cells st) -> separate new ->
    h_leap_loop sec nu alpha old tend ks h st new = (h', r) ->
    leap_loop sec nu alpha vold vtend ks (load_state h st) (load_state h new) = (load_state h' st, res_map (load_state h') r) /\
    match r with
    | Ok new' => state_in h' new' /\ separate new' /\ (forall c, state_cells new' c -> state_cells new c \/ length h <= c) /\
                 (forall k, In k (keys new') -> In k (keys new) \/ In k ks)
    | Err _ => True
    end.
  Proof.
    intros sec nu alpha old tend st vold vtend Hsep Hpo Hpt. induction ks as [|k ks IH];
      intros h new h' r Hnd Hi Hio Hit Hin Hps Hvo Hvt Hsf Hat Han Hsn H; cbn [h_leap_loop] in H; cbn [leap_loop].
    - injection H as <- <-. split; auto.
    - inversion Hnd as [|? ? Hk Hnd']; subst.
      assert (E1 : leap_one sec nu (load_state h old) (load_state h st) (load_dict h tend) k =
                   leap_one sec nu vold (load_state h st) vtend k).
      { unfold leap_one, state_da, dgetE. rewrite Hvo, Hvt by (left; auto). auto. }
      rewrite E1 in H.
      destruct (leap_one sec nu vold (load_state h st) vtend k) as [[n w]|e] eqn:El; cbn [bind fst snd] in *;
        [|injection H as <- <-; split; auto].
      assert (Esd : state_da k (load_state h st) = res_map (load h) (h_state_da k st)).
      { unfold state_da, h_state_da, dgetE. rewrite dget_load_state. destruct (dget k st) as [[a|z]|]; auto. }
      rewrite Esd. destruct (h_state_da k st) as [x|e] eqn:Ex; cbn [bind res_map] in *; [|injection H as <- <-; split; auto].
      assert (Hx : In (k, HDA x) st).
      { unfold h_state_da in Ex. apply bind_ok in Ex as (v & Hv & Ex). apply dgetE_ok in Hv. destruct v; [|discriminate].
        injection Ex as ->. apply dget_In; auto. }
      destruct (leap_one_ok sec nu vold (load_state h st) vtend k n w El Hpo Hps (Hpt k))
        as (o & x0 & t & Ho & Hx0 & Ht & Wo & Wx & Wt & En & Ww & _).
      assert (Ex0 : x0 = load h x).
      { rewrite dget_load_state in Hx0. rewrite (dget_NoDup_In _ _ _ (proj1 Hsep) Hx) in Hx0. cbn in Hx0. congruence. }
      subst x0.
      destruct (da_iadd (load h x) (da_lscale alpha w)) as [x'|e] eqn:Ei; cbn [bind] in *; [|injection H as <- <-; split; auto].
      assert (Wlw : wf_da (da_lscale alpha w)) by (apply wf_da_map; auto).
      pose proof (load_state_write h st k x x' _ Hsep Hi Hx Wx Wlw Ei) as Es.
      rewrite <- Es.
      assert (Enew : load_state (write h x x') new = load_state h new).
      { apply (load_changed_state _ _ _ _ (changed_write h x x')); auto. intros c K1 K2. apply (Han c K1). exists k, x; auto. }
      destruct (if aeqb alpha (aofQ (1 # 1)) then Ok n else da_iadd n (da_lscale (asub alpha (aofQ (1 # 1))) w)) as [n'|e] eqn:En';
        [|injection H as <- <-; split; auto].
      rewrite alloc_eq in H. pose proof (grown_alloc (write h x x') n') as G.
      set (h1 := fst (alloc (write h x x') n')) in *. set (a := snd (alloc (write h x x') n')) in *.
      assert (C0 : changed_in (fun c => In c (h_cells x)) h (write h x x')) by apply changed_write.
      assert (L0 : length (write h x x') = length h) by apply length_store.
      pose proof (grown_length _ _ G) as L1.
      assert (C1 : changed_in (fun c => In c (h_cells x)) h h1).
      { apply (changed_trans _ _ _ _ _ _ C0 (grown_changed (fun c => In c (h_cells x)) _ _ G)). intros c _ [K|K]; auto. }
      assert (Lh1 : length h <= length h1) by lia.
      assert (Hi1 : state_in h1 st) by (intros c K; apply Hi in K; lia).
      assert (Hst1 : load_state h1 st = load_state (write h x x') st).
      { apply load_state_grown; auto. intros c K. apply Hi in K. rewrite L0. auto. }
      assert (Hn1 : load_state h1 (dset k (HDA a) new) = dset k (VDA n') (load_state h new)).
      { rewrite load_state_dset. cbn [load_val]. unfold h1, a. rewrite load_alloc. f_equal. rewrite <- Enew.
        apply load_state_grown; auto. intros c K. apply Hin in K. rewrite L0. auto. }
      specialize (IH h1 (dset k (HDA a) new) h' r Hnd' Hi1).
      rewrite Hst1, Hn1 in IH. apply IH in H; clear IH.
      + destruct H as (V & Hr). split; auto. destruct r as [new'|e]; auto. destruct Hr as (R1 & R2 & R3 & R4). split; auto. split; auto. split.
        * intros c K. apply R3 in K as [(j & b & Hb & K)|K]; [|right; lia].
          apply In_dset_inv in Hb as [(-> & E)|Hb]; [|left; exists j, b; auto].
          injection E as ->. right. unfold a in K. apply alloc_cells in K. lia.
        * intros j Hj. apply R4 in Hj as [Hj|Hj]; [|right; right; auto].
          rewrite keys_dset in Hj. destruct (dmem k new); [left; auto|].
          apply in_app_iff in Hj as [Hj|[<-|[]]]; [left; auto|right; left; auto].
      + intros c K. apply Hio in K. lia.
      + intros c K. apply Hit in K. lia.
      + intros c (j & b & Hb & K). apply In_dset_inv in Hb as [(-> & E)|Hb].
        * injection E as ->. unfold a in K. apply alloc_cells in K. fold h1 in K. lia.
        * assert (K' : state_cells new c) by (exists j, b; auto). apply Hin in K'. lia.
      + rewrite Es. destruct Hps as (P1 & P2). split.
        * apply NoDup_dset; auto.
        * intros j b Hb. rewrite dget_dset in Hb. destruct (String.eqb_spec j k) as [->|Hne]; [|eauto].
          injection Hb as <-. apply da_iadd_ok in Ei as (Ee & _); auto. apply Ee.
      + intros j Hj. rewrite <- (Hvo j) by (right; auto). rewrite !dget_load_state.
        destruct (dget j old) as [[b|z]|] eqn:Ej; auto. cbn [option_map load_val]. do 2 f_equal.
        apply dget_In in Ej. apply (load_same _ _ _ _ C1).
        * intros c K. apply Hio. exists j, b; auto.
        * intros c K1 K2. exact (Hsf k j x b Hx Ej ltac:(intros ->; contradiction) c K2 K1).
      + intros j Hj. rewrite <- (Hvt j) by (right; auto). rewrite !dget_load_dict.
        destruct (dget j tend) as [b|] eqn:Ej; auto. cbn [option_map]. f_equal.
        apply dget_In in Ej. apply (load_same _ _ _ _ C1).
        * intros c K. apply Hit. exists j, b; auto.
        * intros c K1 K2. apply (Hat c). exists j, b; auto. exists k, x; auto.
      + auto.
      + auto.
      + intros c (j & b & Hb & K) K2. apply In_dset_inv in Hb as [(-> & E)|Hb].
        * injection E as ->. unfold a in K. apply alloc_cells in K. apply Hi in K2. lia.
        * apply (Han c); auto. exists j, b; auto.
      + apply separate_dset_new; auto. intros c K. apply Hin in K. rewrite L0. auto.
  Qed.

  (** ** The new state *)

  Lemma In_copy_untouched_strong : forall old new k (v : hval), In (k, v) (h_copy_untouched old new) ->
    In (k, v) new \/ In (k, v) old /\ ~ In k (keys new).
  Proof.
    unfold h_copy_untouched. induction old as [|[k' v'] old IH]; intros new k v H; auto.
    cbn [fold_left fst snd] in H. destruct (dmem k' new) eqn:Em.
    - apply IH in H as [H|[H N]]; auto. right. split; auto. right; auto.
    - assert (N' : ~ In k' (keys new)). { intros K. apply In_keys_dget in K as (w & K). unfold dmem in Em. rewrite K in Em. discriminate Em. }
      apply IH in H as [H|[H N]].
      + apply In_dset_inv in H as [(-> & ->)|H]; auto. right. split; auto. left; auto.
      + right. split; [right; auto|]. intros K. apply N. rewrite keys_dset, Em. apply in_or_app; auto.
  Qed.

  Lemma NoDup_h_copy : forall (old new : hstate), NoDup (keys new) -> NoDup (keys (h_copy_untouched old new)).
  Proof.
    unfold h_copy_untouched. induction old as [|[k v] old IH]; intros new H; auto. cbn [fold_left fst snd].
    apply IH. destruct (dmem k new); auto. apply NoDup_dset; auto.
  Qed.

  Lemma dmem_h_copy : forall (old new : hstate) k, dmem k (h_copy_untouched old new) = dmem k new || dmem k old.
  Proof.
    unfold h_copy_untouched. induction old as [|[k v] old IH]; intros new j; cbn [fold_left fst snd].
    - unfold dmem at 3. cbn [dget]. rewrite orb_false_r. auto.
    - rewrite IH. unfold dmem at 5. cbn [dget]. destruct (dmem k new) eqn:Em.
      + destruct (String.eqb_spec j k) as [->|Hne]; [rewrite Em; auto|]. reflexivity.
      + destruct (String.eqb_spec j k) as [->|Hne].
        * rewrite Em. unfold dmem at 1. rewrite dget_dset_eq. auto.
        * unfold dmem at 1. rewrite dget_dset_neq by auto. reflexivity.
  Qed.

  Lemma h_copy_idem : forall (old new : hstate), h_copy_untouched old (h_copy_untouched old new) = h_copy_untouched old new.
  Proof.
    intros old new. assert (H : forall k, In k (keys old) -> dmem k (h_copy_untouched old new) = true).
    { intros k Hk. rewrite dmem_h_copy. apply In_keys_dget in Hk as (v & Hv). unfold dmem at 2. rewrite Hv. apply orb_true_r. }
    revert H. generalize (h_copy_untouched old new). clear. unfold h_copy_untouched.
    induction old as [|[k v] old IH]; intros m H; cbn [fold_left fst snd]; auto.
    rewrite (H k) by (simpl; auto). apply IH. intros j Hj; apply H; simpl; auto.
  Qed.

  Lemma separate_copy : forall (st new : hstate), separate st -> separate new -> avoids (state_cells new) (state_cells st) ->
    separate (h_copy_untouched st new) /\ separate_from st (h_copy_untouched st new).
  Proof.
    intros st new (S1 & S2 & S3) (N1 & N2 & N3) Hav.
    assert (D : forall k j a b, In (k, HDA a) new -> In (j, HDA b) st -> disjoint a b).
    { intros k j a b Ha Hb c K1 K2. apply (Hav c); [exists k, a|exists j, b]; auto. }
    split; [split; [|split]|].
    - apply NoDup_h_copy; auto.
    - intros k a Ha. apply In_copy_untouched in Ha as [Ha|Ha]; eauto.
    - intros k j a b Ha Hb Hne. apply In_copy_untouched in Ha as [Ha|Ha]; apply In_copy_untouched in Hb as [Hb|Hb]; eauto.
      intros c K1 K2. exact (D _ _ _ _ Hb Ha c K2 K1).
    - intros k j a b Ha Hb Hne. apply In_copy_untouched in Ha as [Ha|Ha]; eauto.
  Qed.

  Lemma alloc_state_separate : forall (st : state T) h h' out, alloc_state h st = (h', out) -> NoDup (keys st) -> separate out.
  Proof.
    induction st as [|[k [v|t]] st IH]; intros h h' out H Hn; cbn [alloc_state] in H.
    - injection H as <- <-. split. constructor. split; [intros k a []|intros k j a b []].
    - rewrite alloc_eq in H. destruct (alloc_state (fst (alloc h v)) st) as [h2 o] eqn:E. injection H as <- <-.
      inversion Hn as [|? ? N1 N2]; subst. pose proof (IH _ _ _ E N2) as (S1 & S2 & S3).
      destruct (alloc_state_spec _ _ _ _ E) as (G & El & C).
      assert (Ek : keys o = keys st) by (rewrite <- El; symmetry; apply keys_load_state).
      assert (D : forall j b, In (j, HDA b) o -> disjoint (snd (alloc h v)) b).
      { intros j b Hb c K1 K2. apply alloc_cells in K1. assert (K : state_cells o c) by (exists j, b; auto). apply C in K. lia. }
      split; [|split].
      + cbn [keys map fst]. constructor; auto. change (~ In k (keys o)). rewrite Ek. auto.
      + intros j b [Hb|Hb]; eauto. injection Hb as <- <-. apply seq_NoDup.
      + intros j1 j2 a b [Ha|Ha] [Hb|Hb] Hne; eauto.
        * congruence.
        * injection Ha as <- <-. eauto.
        * injection Hb as <- <-. intros c K1 K2. exact (D _ _ Ha c K2 K1).
    - destruct (alloc_state h st) as [h2 o] eqn:E. injection H as <- <-.
      inversion Hn as [|? ? N1 N2]; subst. pose proof (IH _ _ _ E N2) as (S1 & S2 & S3).
      destruct (alloc_state_spec _ _ _ _ E) as (G & El & C).
      assert (Ek : keys o = keys st) by (rewrite <- El; symmetry; apply keys_load_state).
      split; [|split].
      + cbn [keys map fst]. constructor; auto. change (~ In k (keys o)). rewrite Ek. auto.
      + intros j b [Hb|Hb]; eauto. discriminate Hb.
      + intros j1 j2 a b [Ha|Ha] [Hb|Hb] Hne; eauto; try discriminate.
  Qed.

  (** ** One step *)

  Section Step.
    Context {UH UV : Type} (I : invariant (T:=T) UH UV) (Hst : stable I).
    Context (prog : hicaller (T:=T) UH) (vprog : icaller (T:=T) UV) (Hp : stays_apart I prog vprog).

    Lemma leap_call_behaves : forall h l u v st dt l' u' h' r, leap_ready I h l u v st ->
      h_leap_call prog (l, u) h st dt = ((l', u', h'), r) ->
      changed_in (state_cells st) h h' /\
      exists vl' v', leap_call vprog (load_leap h l, v) (load_state h st) dt = ((vl', v'), load_state h' st, load_stepped h' r) /\
      match r with
      | Ok (d, new) => vl' = load_leap h' l' /\ l' = mkhleap (hlf_nu l) (hlf_alpha l) (Some dt) (Some st) /\
          proper_state (load_state h' st) /\ proper_state (load_state h' new) /\
          I (state_cells st) h' u' v' /\ I (state_cells new) h' u' v' /\ dict_in h' d /\ avoids (cells_of d) (state_cells st) /\
          exists new0, new = h_copy_untouched st new0 /\ state_in h' new0 /\ separate new0 /\ (forall c, state_cells new0 c -> length h <= c)
      | Err _ => I (state_cells st) h' u' v'
      end.
    Proof.
      intros h l u v st dt l' u' h' r (HI & Hs & Hsep & Hps & Hold) H. unfold h_leap_call in H.
      unfold leap_call. change (lf_dt (load_leap h l)) with (hlf_dt l).
      destruct (ensure_timestep (hlf_dt l) dt) as [[]|e].
      2: { injection H as <- <- <- <-. split. apply changed_refl. do 2 eexists. split. reflexivity. exact HI. }
      destruct (prog u h st dt) as [[u1 h1] r1] eqn:Ep.
      destruct (Hp (state_cells st) h u v st dt u1 h1 r1 HI Hs Hs ltac:(intros []) Ep) as (G1 & (v1 & V1 & HI1) & O1).
      rewrite V1. change (lf_nu (load_leap h l)) with (hlf_nu l). change (lf_alpha (load_leap h l)) with (hlf_alpha l).
      assert (Es1 : load_state h1 st = load_state h st) by (apply load_state_grown; auto).
      destruct r1 as [[t diag]|e]; cbn [load_out bind fst snd].
      2: { injection H as <- <- <- <-. split. apply grown_changed; auto. do 2 eexists. split. rewrite Es1. reflexivity. exact HI1. }
      destruct O1 as (Ht & Hd & Hpt & Hnd & Hat & Had).
      destruct (h_convert h1 st t) as [h2 r2] eqn:Ec.
      assert (Hs1 : state_in h1 st) by (apply (state_in_grown h); auto).
      destruct (h_convert_spec t h1 st h2 r2 Ht Hs1 Ec) as (G2 & V2 & C2). rewrite Es1 in V2. rewrite V2.
      assert (Es2 : load_state h2 st = load_state h st) by (rewrite <- Es1; apply load_state_grown; auto).
      assert (HI2 : I (state_cells st) h2 u1 v1) by exact (stable_grown I Hst _ _ _ _ _ HI1 G2).
      pose proof (grown_trans _ _ _ G1 G2) as G12.
      destruct r2 as [tend|e]; cbn [res_map bind].
      2: { injection H as <- <- <- <-. split. apply grown_changed; auto. do 2 eexists. split. rewrite Es2. reflexivity. exact HI2. }
      destruct C2 as (Htend & Hkt & Hct).
      assert (Hs2 : state_in h2 st) by (apply (state_in_grown h1); auto).
      assert (Htx : avoids (cells_of tend) (state_cells st)).
      { intros c (k & x & Hk & Hc) K. destruct (Hct k x Hk c Hc) as [(b & Hb & K2)|K2].
        - apply (Hat c); auto. exists k, b; auto.
        - apply Hs1 in K. lia. }
      assert (Hpt1 : proper (load_dict h1 t)).
      { destruct Hpt as (P1 & P2). split. rewrite keys_load_dict; auto. intros X b Hb. rewrite dget_load_dict in Hb.
        destruct (dget X t) as [b'|] eqn:Eb; [|discriminate Hb]. injection Hb as <-. apply dget_In in Eb. eauto. }
      pose proof (grown_length _ _ G12) as L12. pose proof (grown_length _ _ G1) as L1.
      unfold load_leap at 1. cbn [lf_old]. destruct (hlf_old l) as [old|] eqn:Eo.
      - destruct Hold as (Ho1 & Ho2 & Ho3).
        destruct (h_leap_loop (total_seconds dt) (hlf_nu l) (hlf_alpha l) old tend (keys tend) h2 st []) as [h3 rn] eqn:El.
        assert (Eold : load_state h2 old = load_state h old) by (apply load_state_grown; auto).
        pose proof (h_leap_loop_changed _ _ _ _ _ _ _ _ _ _ _ El) as Cl.
        assert (Cst : changed_in (state_cells st) h2 h3).
        { apply (changed_weaken (named_cells st (keys tend))); auto. intros c _ (k & a & _ & Ha & Hc). exists k, a; auto. }
        pose proof (proj2 (convert_ok _ _ _ V2)) as Hcv.
        apply h_leap_loop_spec with (vold := load_state h old) (vtend := load_dict h2 tend) in El.
        all: auto.
        2: { intros k b Hb. specialize (Hcv k). destruct (dget k (load_dict h1 t)) as [t0|] eqn:E0; [|congruence].
             destruct Hcv as (t' & Hc' & Ht'). rewrite Hb in Ht'. injection Ht' as <-.
             apply conv_spec in Hc' as (W & _); auto. exact (proj2 Hpt1 _ _ E0). }
        2: { rewrite Hkt. apply Hpt. }
        2: { apply (state_in_grown h); auto. }
        2: { intros c (k & a & [] & _). }
        2: { rewrite Es2; auto. }
        2: { intros k _. rewrite Eold; auto. }
        2: { intros c (k & a & [] & _). }
        2: { split. constructor. split; [intros k a []|intros k j a b []]. }
        destruct El as (Vl & Hr). rewrite Es2 in Vl. cbn [load_state map] in Vl. rewrite <- (keys_load_dict h2 tend) in Vl.
        change (map (fun kv : string * hval => (fst kv, load_val h3 (snd kv))) st) with (load_state h3 st) in Vl. rewrite Vl.
        assert (C03 : changed_in (state_cells st) h h3).
        { apply (changed_trans _ _ _ _ _ _ (grown_changed (state_cells st) _ _ G12) Cst). intros c _ [K|K]; auto. }
        assert (L23 : length h2 <= length h3) by apply Cst.
        destruct rn as [new0|e]; cbn [res_map].
        2: { injection H as <- <- <- <-. split; auto. do 2 eexists. split. reflexivity.
             apply (Hst (state_cells st) _ h2 _ _ _ HI2 Cst); auto. }
        injection H as <- <- <- <-. split; auto. destruct Hr as (Hn1 & Hn2 & Hn3 & Hn4).
        assert (Hn3' : forall c, state_cells new0 c -> length h2 <= c).
        { intros c K. apply Hn3 in K as [(k & a & [] & _)|K]; auto. }
        destruct (leap_step_ok _ _ _ _ _ _ _ _ _ V2 Vl Ho3 Hps Hpt1) as (_ & P1 & P2).
        exists (load_leap h3 (mkhleap (hlf_nu l) (hlf_alpha l) (Some dt) (Some st))), v1.
        split. { cbn [load_stepped]. do 2 f_equal. f_equal; [|symmetry; apply load_copy_untouched].
                 symmetry. rewrite <- (load_dict_grown h1 h2) by auto. apply (load_changed_dict _ _ _ _ Cst); auto.
                 apply (dict_in_grown h1); auto. }
        split; auto. split; auto. split; auto. split. { rewrite load_copy_untouched. auto. }
        split. { apply (Hst (state_cells st) _ h2 _ _ _ HI2 Cst); auto. } split.
        { apply (Hst (state_cells st) _ h2 _ _ _ HI2 Cst). intros c Lc K.
          apply copy_untouched_cells in K as [K|K]; auto. apply Hn3' in K. lia. }
        split. { intros c K. apply Hd in K. apply grown_length in G2. lia. } split; auto.
        exists new0. split; auto. split; auto. split; auto. intros c K. apply Hn3' in K. lia.
      - destruct (alloc_result h2 (step_forward_euler (load_state h2 st) (load_dict h2 tend) dt)) as [h3 rn] eqn:El.
        rewrite Es2 in El. pose proof El as El0. apply alloc_result_spec in El as (G3 & V3 & C3).
        pose proof (grown_trans _ _ _ G12 G3) as G.
        assert (Es3 : load_state h3 st = load_state h st) by (apply load_state_grown; auto).
        rewrite V3. assert (HI3 : I (state_cells st) h3 u1 v1) by exact (stable_grown I Hst _ _ _ _ _ HI2 G3).
        pose proof (grown_length _ _ G3) as L3.
        destruct rn as [new0|e]; cbn [res_map].
        2: { injection H as <- <- <- <-. split. apply grown_changed; auto. do 2 eexists. split. rewrite Es3. reflexivity. exact HI3. }
        injection H as <- <- <- <-. split. apply grown_changed; auto.
        destruct (euler_ok _ _ _ _ _ V2 V3 Hps Hpt1) as (_ & P2).
        exists (load_leap h3 (mkhleap (hlf_nu l) (hlf_alpha l) (Some dt) (Some st))), v1.
        split. { rewrite Es3. cbn [load_stepped]. unfold load_leap. cbn [hlf_nu hlf_alpha hlf_dt hlf_old]. rewrite Es3.
                 do 2 f_equal. f_equal; [|rewrite load_copy_untouched, Es3; auto].
                 symmetry. apply load_dict_grown; auto. exact (grown_trans _ _ _ G2 G3). }
        split; auto. split; auto. split. { rewrite Es3; auto. } split. { rewrite load_copy_untouched, Es3. auto. } split; auto. split.
        { apply (Hst (state_cells st) _ h2 _ _ _ HI2 (grown_changed _ _ _ G3)). intros c Lc K.
          apply copy_untouched_cells in K as [K|K]; auto. apply C3 in K. lia. }
        split. { intros c K. apply Hd in K. apply grown_length in G2. lia. } split; auto.
        exists new0. split; auto. split. { intros c K. apply C3 in K. lia. } split.
        { apply (alloc_state_separate (load_state h3 new0) h2 h3).
          - unfold alloc_result in El0. rewrite V3 in El0. cbn [res_map] in El0.
            destruct (alloc_state h2 (load_state h3 new0)) as [ha oa] eqn:Ea. injection El0 as <- <-. auto.
          - apply for_keys_ok in V3 as (Ek & _). cbn [res_map] in Ek. rewrite Ek, keys_load_dict, Hkt. apply Hpt. }
        intros c K. apply C3 in K. lia.
    Qed.

    Theorem main_leap_memory : forall cfg h l u v st dt l' u' h' r, leap_ready I h l u v st ->
      h_leapfrog cfg prog (l, u) h st dt = ((l', u', h'), r) ->
      changed_in (state_cells st) h h' /\
      exists vl' v', leapfrog cfg vprog (load_leap h l, v) (load_state h st) dt = ((vl', v'), load_state h' st, load_stepped h' r) /\
      match r with
      | Ok (d, new) => vl' = load_leap h' l' /\ leap_ready I h' l' u' v' new /\ dict_in h' d /\ avoids (cells_of d) (state_cells st)
      | Err _ => I (state_cells st) h' u' v'
      end.
    Proof.
      intros cfg h l u v st dt l' u' h' r Hr H. unfold h_leapfrog in H.
      destruct (h_leap_call prog (l, u) h st dt) as [[[l1 u1] h1] r1] eqn:E1.
      destruct (leap_call_behaves h l u v st dt l1 u1 h1 r1 Hr E1) as (C1 & vl1 & v1 & V1 & O1).
      destruct (h_finish cfg dt h1 st r1) as [h2 r2] eqn:E2. injection H as <- <- <- <-.
      destruct Hr as (HI & Hs & Hsep & Hps & Hold).
      assert (Hs1 : state_in h1 st) by (intros c K; apply Hs in K; destruct C1; lia).
      apply h_finish_spec in E2 as (G2 & V2 & O2); auto.
      2: { destruct r1 as [[d new]|e]; auto. destruct O1 as (_ & _ & _ & _ & _ & _ & Hd & _ & new0 & -> & Hn & _). split; auto.
           intros c K. apply copy_untouched_cells in K as [K|K]; auto. }
      assert (Es2 : load_state h2 st = load_state h1 st) by (apply load_state_grown; auto).
      pose proof (grown_length _ _ G2) as L2.
      split. { apply (changed_trans _ _ _ _ _ _ C1 (grown_changed (state_cells st) _ _ G2)). intros c _ [K|K]; auto. }
      unfold leapfrog. rewrite V1, V2, Es2. exists vl1, v1. split; auto.
      assert (L1 : length h <= length h1) by apply C1.
      destruct r2 as [[d' new']|e].
      - destruct O2 as (d & new & -> & Hd' & Hn' & -> & Hc).
        destruct O1 as (-> & -> & P1 & P2 & _ & HI1 & Hd & Had & new0 & -> & Hn0 & Hsn & Hfr).
        rewrite h_copy_idem in *.
        assert (Hav : avoids (state_cells new0) (state_cells st)).
        { intros c K1 K2. apply Hfr in K1. apply Hs in K2. lia. }
        destruct (separate_copy st new0 Hsep Hsn Hav) as (S1 & S2).
        assert (Hn1 : state_in h1 (h_copy_untouched st new0)).
        { intros c K. apply copy_untouched_cells in K as [K|K]; auto. }
        split. { unfold load_leap. cbn [hlf_nu hlf_alpha hlf_dt hlf_old]. rewrite Es2. auto. }
        split; [|split; auto].
        + split. { exact (stable_grown I Hst _ _ _ _ _ HI1 G2). }
          split; auto. split; auto. split. { rewrite (load_state_grown h1 h2 _ G2 Hn1). auto. }
          cbn [hlf_old]. split. { intros c K. apply Hs1 in K. lia. } split; auto. rewrite Es2. auto.
        + intros c K K2. apply Hc in K as [K|K]; [exact (Had c K K2)|]. apply Hs1 in K2. lia.
      - destruct r1 as [[d new]|e1].
        + destruct O1 as (_ & _ & _ & _ & HI1 & _). exact (stable_grown I Hst _ _ _ _ _ HI1 G2).
        + exact (stable_grown I Hst _ _ _ _ _ O1 G2).
    Qed.
  End Step.
End Leap.
