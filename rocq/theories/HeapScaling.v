(** ScalingWrapper in memory: C42, C43, C44. *)
From Coq Require Import String List Bool Arith ZArith QArith Qcanon Lia.
From Verif Require Import Prelude PreludeFacts ArithM NdArray NdFacts Units DataArrayM GetNp UnitsFacts SpecDa DaFacts
  InitNp Tracers Components Composite Steppers SpecSteppers SteppersFacts Heap SpecHeap HeapFacts HeapComposite HeapSteppers.
Import ListNotations.
Open Scope string_scope.
Open Scope nat_scope.
Open Scope list_scope.

Section Scaling.
  Context {T : Type} {A : Arith T} {R : Registry}.

  #[local] Opaque alloc.

  (** ** Construction *)

  Lemma fields_have_ok : forall (fs : dict T) p, fields_have fs p = true <-> forall k, In k (keys fs) -> In k (keys p).
  Proof.
    intros fs p. unfold fields_have. rewrite forallb_forall. split; intros H k Hk; specialize (H k Hk).
    - unfold dmem in H. destruct (dget k p) eqn:E; [|discriminate H]. eapply dget_In_keys; eauto.
    - apply In_keys_dget in H as (v & Hv). unfold dmem. rewrite Hv. auto.
  Qed.

  Lemma check_factors_ok : forall (fs : option (dict T)) (p : option pdict) x, check_factors fs p = Ok x <->
    x = given fs /\ (fs = None \/ exists f q, fs = Some f /\ p = Some q /\ forall k, In k (keys f) -> In k (keys q)).
  Proof.
    intros [fs|] p x; unfold check_factors, given.
    - destruct p as [p|].
      + destruct (fields_have fs p) eqn:E.
        * split. { intros H; injection H as <-. split; auto. right. exists fs, p. split; auto. split; auto. apply fields_have_ok; auto. }
          intros (-> & _). auto.
        * split; [discriminate|]. intros (_ & [H|(f & q & Hf & Hq & Hk)]); [discriminate H|].
          injection Hf as <-. injection Hq as <-. apply fields_have_ok in Hk. congruence.
      + split; [discriminate|]. intros (_ & [H|(f & q & _ & H & _)]); discriminate H.
    - split. intros H; injection H as <-; auto. intros (-> & _); auto.
  Qed.

  Theorem main_scaling_refused : forall c (fin fout ftend fdiag : option (dict T)) k,
    sc_kind c = Some k ->
    (exists w, new_scaling c fin fout ftend fdiag = Ok w) \/
    exists fs p, In (fs, p) [(fin, Some (sc_inp c)); (fdiag, sc_diag c); (fout, sc_out c); (ftend, sc_tend c)] /\
      (p = None /\ fs <> None /\ new_scaling c fin fout ftend fdiag = Err EType \/
       exists f q n, fs = Some f /\ p = Some q /\ In n (keys f) /\ ~ In n (keys q) /\
                     new_scaling c fin fout ftend fdiag = Err EValue).
  Proof.
    intros c fin fout ftend fdiag k Hk. unfold new_scaling. rewrite Hk.
    assert (C : forall (fs : option (dict T)) p, (exists x, check_factors fs p = Ok x) \/
      (p = None /\ fs <> None /\ check_factors fs p = Err EType \/
       exists f q n, fs = Some f /\ p = Some q /\ In n (keys f) /\ ~ In n (keys q) /\ check_factors fs p = Err EValue)).
    { clear. intros [fs|] p; unfold check_factors; [|left; eexists; reflexivity].
      destruct p as [p|].
      - destruct (fields_have fs p) eqn:E; [left; eexists; reflexivity|]. right; right.
        unfold fields_have in E.
        assert (N : existsb (fun k => negb (dmem k p)) (keys fs) = true).
        { clear - E. induction (keys fs) as [|k ks IH]; cbn in *; [discriminate E|]. destruct (dmem k p); cbn in *; auto. }
        apply existsb_exists in N as (n & Hn & Hm). exists fs, p, n. repeat (split; auto).
        intros K. apply In_keys_dget in K as (v & K). unfold dmem in Hm. rewrite K in Hm. discriminate Hm.
      - right; left. split; auto. split; auto. discriminate. }
    destruct (C fin (Some (sc_inp c))) as [(i & Hi)|[(E & _)|(f & q & n & H1 & H2 & H3 & H4 & H5)]].
    2: discriminate E.
    2: { right. exists fin, (Some (sc_inp c)). split. left; auto. right. exists f, q, n. rewrite H5. repeat (split; auto). }
    rewrite Hi. cbn [bind].
    destruct (C fdiag (sc_diag c)) as [(d & Hd)|[(E & H2 & H3)|(f & q & n & H1 & H2 & H3 & H4 & H5)]].
    2: { right. exists fdiag, (sc_diag c). split. right; left; auto. left. rewrite H3. auto. }
    2: { right. exists fdiag, (sc_diag c). split. right; left; auto. right. exists f, q, n. rewrite H5. repeat (split; auto). }
    rewrite Hd. cbn [bind].
    destruct (C fout (sc_out c)) as [(o & Ho)|[(E & H2 & H3)|(f & q & n & H1 & H2 & H3 & H4 & H5)]].
    2: { right. exists fout, (sc_out c). split. right; right; left; auto. left. rewrite H3. auto. }
    2: { right. exists fout, (sc_out c). split. right; right; left; auto. right. exists f, q, n. rewrite H5. repeat (split; auto). }
    rewrite Ho. cbn [bind].
    destruct (C ftend (sc_tend c)) as [(t & Ht)|[(E & H2 & H3)|(f & q & n & H1 & H2 & H3 & H4 & H5)]].
    2: { right. exists ftend, (sc_tend c). split. right; right; right; left; auto. left. rewrite H3. auto. }
    2: { right. exists ftend, (sc_tend c). split. right; right; right; left; auto. right. exists f, q, n. rewrite H5. repeat (split; auto). }
    rewrite Ht. cbn [bind]. left. eexists. reflexivity.
  Qed.

  Theorem main_scaling_accepted : forall c (fin fout ftend fdiag : option (dict T)) w, new_scaling c fin fout ftend fdiag = Ok w <->
    exists k, sc_kind c = Some k /\
      w = mkscaling k (keys (sc_inp c)) (given fin) (given fout) (given ftend) (given fdiag) /\
      forall fs p, In (fs, p) [(fin, Some (sc_inp c)); (fdiag, sc_diag c); (fout, sc_out c); (ftend, sc_tend c)] ->
        forall f, fs = Some f -> exists q, p = Some q /\ forall n, In n (keys f) -> In n (keys q).
  Proof.
    intros c fin fout ftend fdiag w. unfold new_scaling. destruct (sc_kind c) as [k|].
    2: { split; [discriminate|]. intros (k & H & _). discriminate H. }
    assert (C : forall (fs : option (dict T)) p, (forall f, fs = Some f -> exists q, p = Some q /\ forall n, In n (keys f) -> In n (keys q)) ->
      check_factors fs p = Ok (given fs)).
    { intros fs p H. apply check_factors_ok. split; auto. destruct fs as [f|]; auto. right.
      destruct (H f eq_refl) as (q & -> & Hq). exists f, q. auto. }
    assert (D : forall (fs : option (dict T)) p x, check_factors fs p = Ok x -> x = given fs /\
      forall f, fs = Some f -> exists q, p = Some q /\ forall n, In n (keys f) -> In n (keys q)).
    { intros fs p x H. apply check_factors_ok in H as (-> & H). split; auto. intros f ->.
      destruct H as [H|(f' & q & H & -> & Hq)]; [discriminate H|]. injection H as <-. exists q; auto. }
    split.
    - intros H. apply bind_ok in H as (i & Hi & H). apply bind_ok in H as (d & Hd & H). apply bind_ok in H as (o & Ho & H).
      apply bind_ok in H as (t & Ht & H). injection H as <-.
      apply D in Hi as (-> & Hi). apply D in Hd as (-> & Hd). apply D in Ho as (-> & Ho). apply D in Ht as (-> & Ht).
      exists k. split; auto. split; auto.
      intros fs p [E|[E|[E|[E|[]]]]]; injection E as <- <-; auto.
    - intros (k' & E & -> & H). injection E as <-.
      rewrite (C fin (Some (sc_inp c))) by (apply H; cbn; auto). cbn [bind].
      rewrite (C fdiag (sc_diag c)) by (apply H; cbn; auto). cbn [bind].
      rewrite (C fout (sc_out c)) by (apply H; cbn; auto). cbn [bind].
      rewrite (C ftend (sc_tend c)) by (apply H; cbn; auto). cbn [bind]. auto.
  Qed.

  (** ** The state handed to the component *)

  Lemma scale_inputs_spec : forall fs st names (h : heap T) acc h' r, state_in h st ->
    (forall k v, dget k acc = Some v -> forall a, v = HDA a -> exists_in h a) ->
    scale_inputs h fs st names acc = (h', r) ->
    grown h h' /\
    match r with
    | Ok sst =>
        (forall k a, dget k sst = Some (HDA a) -> exists_in h' a) /\
        forall k, if mem k names then
            exists v, dget k st = Some v /\
              match dget k fs with
              | None => dget k sst = Some v
              | Some f => exists a b, v = HDA a /\ dget k sst = Some (HDA b) /\ scaled_by f (load h a) (load h' b) /\
                                      forall c, In c (h_cells b) -> length h <= c
              end
          else dget k sst = dget k acc
    | Err e => exists k, In k names /\
        (e = EKey /\ dget k st = None \/ e = EType /\ exists t f, dget k st = Some (HTime t) /\ dget k fs = Some f)
    end.
  Proof.
    intros fs st. induction names as [|n names IH]; intros h acc h' r Hs Ha H; cbn [scale_inputs] in H.
    - injection H as <- <-. split. apply grown_refl. split. { intros k a K. eapply Ha; eauto. } intros k. cbn [mem existsb]. auto.
    - unfold dgetE in H. destruct (dget n st) as [v|] eqn:En.
      2: { injection H as <- <-. split. apply grown_refl. exists n. split. left; auto. left; auto. }
      assert (Hv : forall a, v = HDA a -> exists_in h a).
      { intros a -> c Hc. apply Hs. exists n, a. split; auto. apply dget_In; auto. }
      destruct (dget n fs) as [f|] eqn:Ef.
      + unfold scale_input in H. destruct v as [a|t].
        2: { injection H as <- <-. split. apply grown_refl. exists n. split. left; auto. right. split; auto. exists t, f; auto. }
        rewrite alloc_eq in H.
        set (w := da_map (fun x => amul x f) (h_attrs a) (load h a)) in *.
        pose proof (grown_alloc h w) as G. set (h1 := fst (alloc h w)) in *. set (b := snd (alloc h w)) in *.
        pose proof (grown_length _ _ G) as L.
        assert (Hb : exists_in h1 b) by (intros c K; apply alloc_cells in K; fold h1 in K; lia).
        apply IH in H.
        * destruct H as (G' & H). split. exact (grown_trans _ _ _ G G'). destruct r as [sst|e].
          -- destruct H as (H0 & H). split; auto. intros k. specialize (H k). change (mem k (n :: names)) with (String.eqb k n || mem k names). destruct (String.eqb_spec k n) as [->|Hne]; cbn [orb].
             ++ exists (HDA a). split; auto. rewrite Ef. destruct (mem n names) eqn:Em.
                ** destruct H as (v & Hv' & H). rewrite Ef in H. destruct H as (a' & b' & -> & Hb' & (S1 & S2 & S3 & S4) & Hf).
                   assert (a' = a) by congruence. subst a'. exists a, b'. split; auto. split; auto. split.
                   { rewrite (load_grown h h1) in * by (auto; apply Hv; auto). repeat split; auto. }
                   intros c K. apply Hf in K. lia.
                ** rewrite dget_dset_eq in H. exists a, b. split; auto. split; auto. split.
                   { rewrite (load_grown h1 h') by auto. unfold b, h1. rewrite load_alloc. repeat split; auto. }
                   intros c K. apply alloc_cells in K. lia.
             ++ destruct (mem k names) eqn:Em.
                ** destruct H as (v & Hv' & H). exists v. split; auto. destruct (dget k fs) as [g|]; auto.
                   destruct H as (a' & b' & -> & Hb' & S & Hf). exists a', b'. split; auto. split; auto. split.
                   { rewrite (load_grown h h1) in S; auto. intros c K. apply Hs. exists k, a'. split; auto. apply dget_In; auto. }
                   intros c K. apply Hf in K. lia.
                ** rewrite dget_dset_neq in H by auto. auto.
          -- destruct H as (k & Hk & H). exists k. split; auto. right; auto.
        * apply (state_in_grown h); auto.
        * intros k v Hk a' ->. rewrite dget_dset in Hk. destruct (String.eqb k n).
          -- injection Hk as <-. auto.
          -- apply (exists_mono h); auto. eapply Ha; eauto.
      + apply IH in H; auto.
        * destruct H as (G' & H). split; auto. destruct r as [sst|e].
          -- destruct H as (H0 & H). split; auto. intros k. specialize (H k). change (mem k (n :: names)) with (String.eqb k n || mem k names). destruct (String.eqb_spec k n) as [->|Hne]; cbn [orb].
             ++ destruct (mem n names) eqn:Em; auto. exists v. rewrite Ef. rewrite dget_dset_eq in H. auto.
             ++ destruct (mem k names) eqn:Em; auto. rewrite dget_dset_neq in H by auto. auto.
          -- destruct H as (k & Hk & H). exists k. split; auto. right; auto.
        * intros k v' Hk a' ->. rewrite dget_dset in Hk. destruct (String.eqb k n); [injection Hk as ->; auto|]. eapply Ha; eauto.
  Qed.

  Theorem main_scaled_inputs : forall w (h : heap T) st h1 r, state_in h st -> scaled_state w h st = (h1, r) ->
    grown h h1 /\
    match r with
    | Ok sst => sees w h h1 st sst
    | Err e => exists k, In k (sw_inp w) /\
        (e = EKey /\ dget k st = None \/ e = EType /\ exists t f, dget k st = Some (HTime t) /\ dget k (sw_in w) = Some f)
    end.
  Proof.
    intros w h st h1 r Hs H. unfold scaled_state in H. apply scale_inputs_spec in H; auto.
    - destruct H as (G & H). split; auto. destruct r as [sst|e]; auto. destruct H as (_ & H). intros k. specialize (H k).
      destruct (mem k (sw_inp w)); auto. rewrite H. destruct (dget "time" st) as [t|]; cbn [dget]; auto.
      destruct (String.eqb k "time"); auto.
    - intros k v Hk a ->. destruct (dget "time" st) as [t|] eqn:Et; [|discriminate Hk]. cbn [dget] in Hk.
      destruct (String.eqb k "time"); [|discriminate Hk]. injection Hk as ->. intros c K. apply Hs.
      exists "time", a. split; auto. apply dget_In; auto.
  Qed.

  (** ** Scaling the outputs in place *)

  Lemma cell_write_map : forall (h : heap T) a (g : T -> T) at' c, NoDup (h_cells a) -> exists_in h a -> c < length h ->
    cell (write h a (da_map g at' (load h a))) c = if existsb (Nat.eqb c) (h_cells a) then g (cell h c) else cell h c.
  Proof.
    intros h a g at' c Hn Hi Hc. unfold write, da_map, nd_map, load. cbn [arr data].
    destruct (existsb (Nat.eqb c) (h_cells a)) eqn:E.
    - apply existsb_exists in E as (d & Hd & E). apply Nat.eqb_eq in E. subst d.
      pose proof (store_cells (h_cells a) h (map g (map (cell h) (h_cells a))) Hn) as S.
      rewrite !map_length in S. specialize (S eq_refl Hi). rewrite map_map in S at 2.
      assert (S' : forall d, In d (h_cells a) -> cell (store h (h_cells a) (map g (map (cell h) (h_cells a)))) d = g (cell h d)).
      { apply map_ext_in_iff. exact S. }
      apply S'; auto.
    - apply cell_store_other. intros K. assert (existsb (Nat.eqb c) (h_cells a) = true); [|congruence].
      apply existsb_exists. exists c. split; auto. apply Nat.eqb_refl.
  Qed.

  Lemma scale_outputs_spec : forall fs out (h : heap T) h' r, scale_outputs h fs out = (h', r) ->
    length h' = length h /\
    match r with
    | Ok _ => has_arrays fs out
    | Err e => exists k, In k (keys fs) /\ (e = EKey /\ dget k out = None \/ e = EType /\ exists t, dget k out = Some (HTime t))
    end.
  Proof.
    induction fs as [|[k f] fs IH]; intros out h h' r H; cbn [scale_outputs] in H.
    - injection H as <- <-. split; auto. intros k [].
    - unfold dgetE in H. destruct (dget k out) as [[a|t]|] eqn:Ek.
      + apply IH in H as (L & H). split. { rewrite L. apply length_store. }
        destruct r as [x|e].
        * intros j [<-|Hj]; eauto.
        * destruct H as (j & Hj & H). exists j. split; auto. right; auto.
      + injection H as <- <-. split; auto. exists k. split. left; auto. right; eauto.
      + injection H as <- <-. split; auto. exists k. split. left; auto. left; auto.
  Qed.

  Lemma scale_outputs_cells : forall fs out (h : heap T) h' x, plain out -> state_in h out ->
    scale_outputs h fs out = (h', Ok x) ->
    forall c, c < length h -> cell h' c = times (cell h c) (factors_at fs out c).
  Proof.
    induction fs as [|[k f] fs IH]; intros out h h' x Hp Hi H c Hc; cbn [scale_outputs] in H.
    - injection H as <- _. auto.
    - unfold dgetE in H. destruct (dget k out) as [[a|t]|] eqn:Ek; try discriminate H.
      assert (Ha : In (k, HDA a) out) by (apply dget_In; auto).
      set (h1 := write h a (da_map (fun x => amul x f) (h_attrs a) (load h a))) in *.
      assert (L : length h1 = length h) by apply length_store.
      assert (Hi1 : state_in h1 out) by (intros d K; rewrite L; apply Hi; auto).
      rewrite (IH out h1 h' x Hp Hi1 H c) by (rewrite L; auto).
      unfold h1. rewrite cell_write_map; auto.
      + unfold factors_at. cbn [filter fst]. unfold in_array at 2. rewrite Ek.
        destruct (existsb (Nat.eqb c) (h_cells a)); auto.
      + exact (Hp k a Ha).
      + intros d K. apply Hi. exists k, a; auto.
  Qed.

  Lemma scale_outputs_succeeds : forall fs out (h : heap T), has_arrays fs out -> exists h', scale_outputs h fs out = (h', Ok tt).
  Proof.
    induction fs as [|[k f] fs IH]; intros out h H; cbn [scale_outputs].
    - eexists; reflexivity.
    - destruct (H k (or_introl eq_refl)) as (a & Ha). unfold dgetE. rewrite Ha. apply IH. intros j Hj. apply H. right; auto.
  Qed.

  Lemma times_app : forall (x : T) l1 l2, times x (l1 ++ l2) = times (times x l1) l2.
  Proof. intros. unfold times. apply fold_left_app. Qed.

  (** The two dictionaries in the order they are scaled. *)
  Definition ordered (w : scaling T) (o1 o2 : hstate) : (dict T * hstate) * (dict T * hstate) :=
    match sw_kind w with
    | KStepper => ((second_factors w, o2), (first_factors w, o1))
    | _ => ((first_factors w, o1), (second_factors w, o2))
    end.

  Lemma scaling_call_eq : forall {U} w (comp : hwrapped (T:=T) U) u h st dt,
    scaling_call w comp u h st dt =
    match scaled_state w h st with
    | (h1, Err e) => ((u, h1), Err e)
    | (h1, Ok sst) =>
        if takes_step w && match dt with None => true | Some _ => false end then ((u, h1), Err EType)
        else
          let '((u', h2), r) := comp u h1 sst (passed w dt) in
          match r with
          | Err e => ((u', h2), Err e)
          | Ok (o1, o2) =>
              let '((f1, d1), (f2, d2)) := ordered w o1 o2 in
              match scale_outputs h2 f1 d1 with
              | (h3, Err e) => ((u', h3), Err e)
              | (h3, Ok _) => match scale_outputs h3 f2 d2 with
                              | (h4, Err e) => ((u', h4), Err e)
                              | (h4, Ok _) => ((u', h4), Ok (o1, o2))
                              end
              end
          end
    end.
  Proof.
    intros U w comp u h st dt. unfold scaling_call, passed, takes_step, ordered, first_factors, second_factors.
    destruct (scaled_state w h st) as [h1 [sst|e]]; auto.
    destruct (sw_kind w); cbn [andb].
    - destruct dt as [dt|]; auto.
    - auto.
    - destruct dt as [dt|]; auto.
    - auto.
  Qed.

  Theorem main_scaling_call : forall {U} w (comp : hwrapped (T:=T) U) u h st dt u' h' o1 o2, state_in h st ->
    scaling_call w comp u h st dt = ((u', h'), Ok (o1, o2)) ->
    exists h1 sst h2, grown h h1 /\ sees w h h1 st sst /\ (takes_step w = true -> dt <> None) /\
      comp u h1 sst (passed w dt) = ((u', h2), Ok (o1, o2)) /\
      has_arrays (first_factors w) o1 /\ has_arrays (second_factors w) o2 /\ length h' = length h2 /\
      (plain o1 -> plain o2 -> state_in h2 o1 -> state_in h2 o2 ->
       forall c, c < length h2 -> cell h' c = times (cell h2 c) (all_factors w o1 o2 c)).
  Proof.
    intros U w comp u h st dt u' h' o1 o2 Hs H. rewrite scaling_call_eq in H.
    destruct (scaled_state w h st) as [h1 [sst|e]] eqn:Es; [|discriminate H].
    destruct (main_scaled_inputs _ _ _ _ _ Hs Es) as (G & Hsees).
    destruct (takes_step w && match dt with None => true | Some _ => false end) eqn:Et; [discriminate H|].
    destruct (comp u h1 sst (passed w dt)) as [[u2 h2] [[p1 p2]|e]] eqn:Ec; [|discriminate H].
    destruct (ordered w p1 p2) as [[f1 d1] [f2 d2]] eqn:Eo.
    destruct (scale_outputs h2 f1 d1) as [h3 [x|e]] eqn:E1; [|discriminate H].
    destruct (scale_outputs h3 f2 d2) as [h4 [y|e]] eqn:E2; [|discriminate H].
    injection H as <- <- <- <-. exists h1, sst, h2. split; auto. split; auto.
    split. { intros K. rewrite K in Et. destruct dt; [discriminate|discriminate Et]. } split; auto.
    destruct (scale_outputs_spec _ _ _ _ _ E1) as (L1 & A1). destruct (scale_outputs_spec _ _ _ _ _ E2) as (L2 & A2).
    assert (HA : has_arrays (first_factors w) p1 /\ has_arrays (second_factors w) p2).
    { unfold ordered in Eo. destruct (sw_kind w); injection Eo as <- <- <- <-; auto. }
    split; [apply HA|split; [apply HA|]]. split. congruence.
    intros P1 P2 I1 I2 c Hc.
    assert (Q : plain d1 /\ plain d2 /\ state_in h2 d1 /\ state_in h2 d2).
    { unfold ordered in Eo. destruct (sw_kind w); injection Eo as <- <- <- <-; auto. }
    destruct Q as (Q1 & Q2 & Q3 & Q4).
    rewrite (scale_outputs_cells _ _ _ _ _ Q2 ltac:(intros z Hz; rewrite L1; auto) E2) by (rewrite L1; auto).
    rewrite (scale_outputs_cells _ _ _ _ _ Q1 Q3 E1) by auto. rewrite <- times_app. f_equal.
    unfold all_factors, ordered in *. destruct (sw_kind w); injection Eo as <- <- <- <-; auto.
  Qed.

  Theorem main_scaling_error : forall {U} w (comp : hwrapped (T:=T) U) u h st dt u' h' e, state_in h st ->
    scaling_call w comp u h st dt = ((u', h'), Err e) ->
    u' = u /\ grown h h' /\
      (exists k, In k (sw_inp w) /\
        (e = EKey /\ dget k st = None \/ e = EType /\ exists t f, dget k st = Some (HTime t) /\ dget k (sw_in w) = Some f)) \/
    u' = u /\ grown h h' /\ takes_step w = true /\ dt = None /\ e = EType \/
    exists h1 sst, grown h h1 /\ sees w h h1 st sst /\
      (comp u h1 sst (passed w dt) = ((u', h'), Err e) \/
       exists h2 o1 o2, comp u h1 sst (passed w dt) = ((u', h2), Ok (o1, o2)) /\ length h' = length h2 /\
         ~ (has_arrays (first_factors w) o1 /\ has_arrays (second_factors w) o2)).
  Proof.
    intros U w comp u h st dt u' h' e Hs H. rewrite scaling_call_eq in H.
    destruct (scaled_state w h st) as [h1 [sst|e1]] eqn:Es; destruct (main_scaled_inputs _ _ _ _ _ Hs Es) as (G & Hsees).
    2: { injection H as <- <- <-. left. auto. }
    destruct (takes_step w && match dt with None => true | Some _ => false end) eqn:Et.
    { injection H as <- <- <-. apply andb_true_iff in Et as (E1 & E2). right; left. destruct dt; [discriminate E2|]. auto. }
    right; right. exists h1, sst. split; auto. split; auto.
    destruct (comp u h1 sst (passed w dt)) as [[u2 h2] [[p1 p2]|e2]] eqn:Ec.
    2: { injection H as <- <- <-. left. auto. }
    right. destruct (ordered w p1 p2) as [[f1 d1] [f2 d2]] eqn:Eo.
    assert (HA : has_arrays f1 d1 /\ has_arrays f2 d2 <-> has_arrays (first_factors w) p1 /\ has_arrays (second_factors w) p2).
    { unfold ordered in Eo. destruct (sw_kind w); injection Eo as <- <- <- <-; tauto. }
    destruct (scale_outputs h2 f1 d1) as [h3 [x|e3]] eqn:E1; destruct (scale_outputs_spec _ _ _ _ _ E1) as (L1 & A1).
    - destruct (scale_outputs h3 f2 d2) as [h4 [y|e4]] eqn:E2; [discriminate H|]. destruct (scale_outputs_spec _ _ _ _ _ E2) as (L2 & A2).
      injection H as <- <- <-. exists h2, p1, p2. split; auto. split. congruence. rewrite <- HA. intros (_ & K).
      destruct A2 as (k & Hk & A2). apply K in Hk as (a & Ha). destruct A2 as [(_ & A2)|(_ & t & A2)]; congruence.
    - injection H as <- <- <-. exists h2, p1, p2. split; auto. split; auto. rewrite <- HA. intros (K & _).
      destruct A1 as (k & Hk & A1). apply K in Hk as (a & Ha). destruct A1 as [(_ & A1)|(_ & t & A1)]; congruence.
  Qed.

  Theorem main_scaling_succeeds : forall {U} w (comp : hwrapped (T:=T) U) u h st dt,
    (forall k, In k (sw_inp w) -> match dget k st with
                                  | None => False
                                  | Some (HTime _) => dget k (sw_in w) = None
                                  | Some (HDA _) => True
                                  end) ->
    state_in h st -> (takes_step w = true -> dt <> None) ->
    exists h1 sst, grown h h1 /\ sees w h h1 st sst /\
      forall u' h2 r, comp u h1 sst (passed w dt) = ((u', h2), r) ->
        match r with
        | Err e => scaling_call w comp u h st dt = ((u', h2), Err e)
        | Ok (o1, o2) => has_arrays (first_factors w) o1 -> has_arrays (second_factors w) o2 ->
                         exists h', scaling_call w comp u h st dt = ((u', h'), Ok (o1, o2))
        end.
  Proof.
    intros U w comp u h st dt Hk Hs Hdt. destruct (scaled_state w h st) as [h1 r1] eqn:Es.
    destruct (main_scaled_inputs _ _ _ _ _ Hs Es) as (G & Hr). destruct r1 as [sst|e].
    2: { exfalso. destruct Hr as (k & Hin & Hr). specialize (Hk k Hin). destruct Hr as [(_ & E)|(_ & t & f & E & Ef)]; rewrite E in Hk; auto. congruence. }
    exists h1, sst. split; auto. split; auto. intros u' h2 r Hc. rewrite scaling_call_eq, Es, Hc.
    assert (Et : takes_step w && match dt with None => true | Some _ => false end = false).
    { destruct (takes_step w); auto. destruct dt; auto. exfalso. apply Hdt; auto. }
    rewrite Et. destruct r as [[o1 o2]|e]; auto. intros A1 A2.
    destruct (ordered w o1 o2) as [[f1 d1] [f2 d2]] eqn:Eo.
    assert (HA : has_arrays f1 d1 /\ has_arrays f2 d2).
    { unfold ordered in Eo. destruct (sw_kind w); injection Eo as <- <- <- <-; auto. }
    destruct HA as (B1 & B2). destruct (scale_outputs_succeeds f1 d1 h2 B1) as (h3 & E3). rewrite E3.
    destruct (scale_outputs_succeeds f2 d2 h3 B2) as (h4 & E4). rewrite E4. eauto.
  Qed.

  (** ** Outputs that do not overlap *)

  Lemma factors_at_separate : forall (fs : dict T) out k a c, NoDup (keys fs) -> separate out -> dget k out = Some (HDA a) -> In c (h_cells a) ->
    factors_at fs out c = match dget k fs with Some f => [f] | None => [] end.
  Proof.
    intros fs out k a c Hn (S1 & S2 & S3) Ha Hc.
    assert (Hex : forall j, in_array out c j = true -> j = k).
    { intros j Hj. unfold in_array in Hj. destruct (dget j out) as [[b|t]|] eqn:Ej; try discriminate Hj.
      destruct (String.eqb_spec j k) as [->|Hne]; auto. exfalso. apply existsb_exists in Hj as (d & Hd & E). apply Nat.eqb_eq in E. subst d.
      exact (S3 j k b a (dget_In _ _ _ Ej) (dget_In _ _ _ Ha) Hne c Hd Hc). }
    assert (Hk : in_array out c k = true).
    { unfold in_array. rewrite Ha. apply existsb_exists. exists c. split; auto. apply Nat.eqb_refl. }
    unfold factors_at. induction fs as [|[j f] fs IH]; cbn [filter map fst dget]; auto.
    inversion Hn as [|? ? N1 N2]; subst. destruct (String.eqb_spec k j) as [->|Hne].
    - rewrite Hk. cbn [map snd]. f_equal. rewrite (IH N2). destruct (dget j fs) eqn:E; auto. exfalso. apply N1. eapply dget_In_keys; eauto.
    - destruct (in_array out c j) eqn:Ej; [apply Hex in Ej; congruence|]. apply IH; auto.
  Qed.

  Lemma factors_at_apart : forall (fs : dict T) out c, ~ named_cells out (keys fs) c -> factors_at fs out c = [].
  Proof.
    intros fs out c H. unfold factors_at. induction fs as [|[j f] fs IH]; cbn [filter map fst]; auto.
    assert (E : in_array out c j = false).
    { unfold in_array. destruct (dget j out) as [[a|t]|] eqn:Ej; auto. destruct (existsb (Nat.eqb c) (h_cells a)) eqn:E; auto.
      exfalso. apply H. apply existsb_exists in E as (d & Hd & E). apply Nat.eqb_eq in E. subst d.
      exists j, a. split; [left; auto|]. split; auto. apply dget_In; auto. }
    rewrite E. apply IH. intros (k & a & Hk & Ha & Hc). apply H. exists k, a. split; [right; auto|]. auto.
  Qed.

  Lemma load_scaled : forall (h h' : heap T) a f, (forall c, In c (h_cells a) -> cell h' c = amul (cell h c) f) ->
    scaled_by f (load h a) (load h' a).
  Proof.
    intros h h' a f H. repeat split; auto. unfold load. cbn [arr data]. rewrite map_map. apply map_ext_in. auto.
  Qed.

  Lemma load_unscaled : forall (h h' : heap T) a, (forall c, In c (h_cells a) -> cell h' c = cell h c) -> load h' a = load h a.
  Proof. intros h h' a H. unfold load. do 2 f_equal. apply map_ext_in. auto. Qed.

  Theorem main_scaling_separate : forall {U} w (comp : hwrapped (T:=T) U) u h st dt u' h' o1 o2, state_in h st ->
    NoDup (keys (first_factors w)) -> NoDup (keys (second_factors w)) ->
    scaling_call w comp u h st dt = ((u', h'), Ok (o1, o2)) ->
    exists h1 sst h2, sees w h h1 st sst /\ comp u h1 sst (passed w dt) = ((u', h2), Ok (o1, o2)) /\
      (separate o1 -> separate o2 -> avoids (state_cells o1) (state_cells o2) -> state_in h2 o1 -> state_in h2 o2 ->
       scaled_outputs (first_factors w) h2 h' o1 /\ scaled_outputs (second_factors w) h2 h' o2 /\
       changed_in (scaled_cells w o1 o2) h2 h').
  Proof.
    intros U w comp u h st dt u' h' o1 o2 Hs N1 N2 H.
    destruct (main_scaling_call w comp u h st dt u' h' o1 o2 Hs H) as (h1 & sst & h2 & G & Hsees & _ & Hc & A1 & A2 & L & C).
    exists h1, sst, h2. split; auto. split; auto. intros S1 S2 Hav I1 I2.
    specialize (C (fun k a Ha => proj1 (proj2 S1) k a Ha) (fun k a Ha => proj1 (proj2 S2) k a Ha) I1 I2).
    split; [|split].
    - intros k a Ha. pose proof (dget_In _ _ _ Ha) as Hin.
      assert (F : forall c, In c (h_cells a) -> all_factors w o1 o2 c = match dget k (first_factors w) with Some f => [f] | None => [] end).
      { intros c Hcc. assert (E2 : factors_at (second_factors w) o2 c = []).
        { apply factors_at_apart. intros (j & b & _ & Hb & Hcb). apply (Hav c); [exists k, a|exists j, b]; auto. }
        unfold all_factors. rewrite E2, (factors_at_separate (first_factors w) o1 k a c N1 S1 Ha Hcc). destruct (sw_kind w); cbn [app]; auto using app_nil_r. }
      assert (B : forall c, In c (h_cells a) -> c < length h2) by (intros c Hcc; apply I1; exists k, a; auto).
      destruct (dget k (first_factors w)) as [f|].
      + apply load_scaled. intros c Hcc. rewrite C, F by auto. reflexivity.
      + apply load_unscaled. intros c Hcc. rewrite C, F by auto. reflexivity.
    - intros k a Ha. pose proof (dget_In _ _ _ Ha) as Hin.
      assert (F : forall c, In c (h_cells a) -> all_factors w o1 o2 c = match dget k (second_factors w) with Some f => [f] | None => [] end).
      { intros c Hcc. assert (E2 : factors_at (first_factors w) o1 c = []).
        { apply factors_at_apart. intros (j & b & _ & Hb & Hcb). apply (Hav c); [exists j, b|exists k, a]; auto. }
        unfold all_factors. rewrite E2, (factors_at_separate (second_factors w) o2 k a c N2 S2 Ha Hcc). destruct (sw_kind w); cbn [app]; auto using app_nil_r. }
      assert (B : forall c, In c (h_cells a) -> c < length h2) by (intros c Hcc; apply I2; exists k, a; auto).
      destruct (dget k (second_factors w)) as [f|].
      + apply load_scaled. intros c Hcc. rewrite C, F by auto. reflexivity.
      + apply load_unscaled. intros c Hcc. rewrite C, F by auto. reflexivity.
    - split. lia. intros c Hcc Hn. rewrite C by auto.
      assert (E : all_factors w o1 o2 c = []); [|rewrite E; reflexivity].
      unfold all_factors. rewrite !factors_at_apart; [destruct (sw_kind w); reflexivity|..]; intros K; apply Hn; first [left; exact K|right; exact K].
  Qed.

  (** ** Fresh answers stay fresh *)

  Fixpoint v_inputs (fs : dict T) (st : state T) (names : list string) (acc : state T) : res (state T) :=
    match names with
    | [] => Ok acc
    | k :: names' =>
        let* v := dgetE k st in
        match dget k fs with
        | None => v_inputs fs st names' (dset k v acc)
        | Some f =>
            match v with
            | VTime _ => Err EType
            | VDA d => v_inputs fs st names' (dset k (VDA (da_map (fun x => amul x f) (attrs d) d)) acc)
            end
        end
    end.

  Fixpoint v_outputs (fs : dict T) (out : state T) : res (state T) :=
    match fs with
    | [] => Ok out
    | (k, f) :: fs' =>
        let* v := dgetE k out in
        match v with
        | VTime _ => Err EType
        | VDA d => v_outputs fs' (dset k (VDA (da_map (fun x => amul x f) (attrs d) d)) out)
        end
    end.

  Lemma scale_inputs_value : forall fs st names (h : heap T) acc h' r, state_in h st -> state_in h acc ->
    scale_inputs h fs st names acc = (h', r) ->
    grown h h' /\ v_inputs fs (load_state h st) names (load_state h acc) = res_map (load_state h') r /\
    match r with Ok sst => state_in h' sst | Err _ => True end.
  Proof.
    intros fs st. induction names as [|n names IH]; intros h acc h' r Hs Ha H; cbn [scale_inputs] in H; cbn [v_inputs].
    - injection H as <- <-. split. apply grown_refl. auto.
    - unfold dgetE in *. rewrite dget_load_state. destruct (dget n st) as [v|] eqn:En; cbn [option_map bind].
      2: { injection H as <- <-. split; auto. apply grown_refl. }
      destruct (dget n fs) as [f|] eqn:Ef.
      + unfold scale_input in H. destruct v as [a|t]; cbn [load_val].
        2: { injection H as <- <-. split; auto. apply grown_refl. }
        rewrite alloc_eq in H.
        change (attrs (load h a)) with (h_attrs a).
        set (w := da_map (fun x => amul x f) (h_attrs a) (load h a)) in *.
        pose proof (grown_alloc h w) as G. pose proof (grown_length _ _ G) as L.
        pose proof (load_alloc h w) as El. pose proof (fun c => alloc_cells h w c) as Hcl.
        set (h1 := fst (alloc h w)) in *. set (b := snd (alloc h w)) in *.
        apply IH in H.
        * destruct H as (G' & V & Hr). split. exact (grown_trans _ _ _ G G'). split; auto.
          rewrite <- V. rewrite load_state_dset. cbn [load_val]. rewrite El.
          rewrite (load_state_grown h h1 st), (load_state_grown h h1 acc) by auto. auto.
        * apply (state_in_grown h); auto.
        * intros c (k & x & Hx & Hc). apply In_dset_inv in Hx as [(-> & E)|Hx].
          -- injection E as ->. apply Hcl in Hc. lia.
          -- assert (K : state_cells acc c) by (exists k, x; auto). apply Ha in K. lia.
      + apply IH in H; auto.
        * rewrite load_state_dset in H. auto.
        * intros c (k & x & Hx & Hc). apply In_dset_inv in Hx as [(-> & E)|Hx].
          -- subst v. apply Hs. exists n, x. split; auto. apply dget_In; auto.
          -- apply Ha. exists k, x; auto.
  Qed.

  Lemma load_state_write_map : forall (h : heap T) out k a (g : T -> T), separate out -> state_in h out -> dget k out = Some (HDA a) ->
    load_state (write h a (da_map g (h_attrs a) (load h a))) out = dset k (VDA (da_map g (h_attrs a) (load h a))) (load_state h out).
  Proof.
    intros h out k a g (S1 & S2 & S3) Hi Ha. pose proof (dget_In _ _ _ Ha) as Hin.
    assert (Hia : exists_in h a) by (intros c K; apply Hi; exists k, a; auto).
    set (h' := write h a (da_map g (h_attrs a) (load h a))).
    assert (El : load h' a = da_map g (h_attrs a) (load h a)).
    { apply load_write; auto. eapply S2; eauto. cbn. rewrite !map_length. auto. }
    assert (Eo : forall j b, In (j, HDA b) out -> j <> k -> load h' b = load h b).
    { intros j b Hb Hne. apply (load_same _ _ _ _ (changed_write h a _)).
      - intros c K. apply Hi. exists j, b; auto.
      - intros c K1 K2. exact (S3 j k b a Hb Hin Hne c K1 K2). }
    assert (Hget : forall o, NoDup (keys o) -> (forall j b, In (j, HDA b) o -> j <> k -> load h' b = load h b) -> dget k o = Some (HDA a) ->
      load_state h' o = dset k (VDA (load h' a)) (load_state h o)).
    { clear - T. induction o as [|[j v] o IH]; intros Hn Ho Hk; [discriminate Hk|]. cbn [dget] in Hk.
      inversion Hn as [|? ? N1 N2]; subst.
      change (load_state h' ((j, v) :: o)) with ((j, load_val h' v) :: load_state h' o).
      change (load_state h ((j, v) :: o)) with ((j, load_val h v) :: load_state h o). cbn [dset].
      destruct (String.eqb_spec k j) as [->|Hne].
      - injection Hk as ->. cbn [load_val]. f_equal. apply load_state_eq. intros i b Hb. apply (Ho i b). right; auto.
        intros ->. apply N1. apply (in_map fst) in Hb. exact Hb.
      - f_equal. 2: { apply IH; auto. intros i b Hb. apply (Ho i b). right; auto. }
        f_equal. destruct v as [b|t]; auto. cbn [load_val]. f_equal. apply (Ho j b); auto. left; auto. }
    rewrite <- El. apply Hget; auto.
  Qed.

  Lemma scale_outputs_value : forall fs out (h : heap T) h' r, separate out -> state_in h out ->
    scale_outputs h fs out = (h', r) ->
    changed_in (state_cells out) h h' /\ v_outputs fs (load_state h out) = res_map (fun _ => load_state h' out) r.
  Proof.
    induction fs as [|[k f] fs IH]; intros out h h' r Hsep Hi H; cbn [scale_outputs] in H; cbn [v_outputs].
    - injection H as <- <-. split. apply changed_refl. auto.
    - unfold dgetE in *. rewrite dget_load_state. destruct (dget k out) as [[a|t]|] eqn:Ek; cbn [option_map bind load_val].
      2: { injection H as <- <-. split. apply changed_refl. auto. }
      2: { injection H as <- <-. split. apply changed_refl. auto. }
      change (attrs (load h a)) with (h_attrs a).
      pose proof (changed_write h a (da_map (fun x => amul x f) (h_attrs a) (load h a))) as C.
      pose proof (load_state_write_map h out k a (fun x => amul x f) Hsep Hi Ek) as E.
      set (h1 := write h a (da_map (fun x => amul x f) (h_attrs a) (load h a))) in *.
      apply IH in H; auto.
      + destruct H as (C' & V). split.
        * apply (changed_trans _ _ _ _ _ _ C C'). intros c _ [K|K]; auto. exists k, a. split; auto. apply dget_In; auto.
        * rewrite <- E. auto.
      + intros c K. destruct C as (L & _). apply Hi in K. lia.
  Qed.

  (** What the wrapper computes, when the component computes [f]. *)
  Definition v_scaling (w : scaling T) (f : state T -> option Z -> res (state T * state T)) (st : state T) (dt : option Z)
      : res (state T * state T) :=
    let* sst := v_inputs (sw_in w) st (sw_inp w) (match dget "time" st with Some t => [("time", t)] | None => [] end) in
    if takes_step w && match dt with None => true | Some _ => false end then Err EType
    else
      let* o := f sst (passed w dt) in
      match sw_kind w with
      | KStepper => let* o2 := v_outputs (second_factors w) (snd o) in
                    let* o1 := v_outputs (first_factors w) (fst o) in Ok (o1, o2)
      | _ => let* o1 := v_outputs (first_factors w) (fst o) in
             let* o2 := v_outputs (second_factors w) (snd o) in Ok (o1, o2)
      end.

  Lemma two_outputs : forall f1 f2 (d1 d2 : hstate) (h2 : heap T), separate d1 -> separate d2 ->
    (forall c, state_cells d1 c -> state_cells d2 c -> False) ->
    state_in h2 d1 -> state_in h2 d2 ->
    exists h' r, (match scale_outputs h2 f1 d1 with
                  | (h3, Err e) => (h3, Err e)
                  | (h3, Ok _) => match scale_outputs h3 f2 d2 with
                                  | (h4, Err e) => (h4, Err e)
                                  | (h4, Ok _) => (h4, Ok tt)
                                  end
                  end) = (h', r) /\
      changed_in (fun c => state_cells d1 c \/ state_cells d2 c) h2 h' /\
      (let* a := v_outputs f1 (load_state h2 d1) in let* b := v_outputs f2 (load_state h2 d2) in Ok (a, b)) =
      res_map (fun _ => (load_state h' d1, load_state h' d2)) r.
  Proof.
    intros f1 f2 d1 d2 h2 S1 S2 Hav I1 I2.
    destruct (scale_outputs h2 f1 d1) as [h3 r3] eqn:E1. destruct (scale_outputs_value _ _ _ _ _ S1 I1 E1) as (C1 & V1).
    destruct r3 as [x|e]; rewrite V1; cbn [res_map bind].
    2: { eexists _, _. split. reflexivity. split; auto. apply (changed_weaken (state_cells d1)); auto. }
    assert (I2' : state_in h3 d2) by (intros c K; apply I2 in K; destruct C1; lia).
    destruct (scale_outputs h3 f2 d2) as [h4 r4] eqn:E2. destruct (scale_outputs_value _ _ _ _ _ S2 I2' E2) as (C2 & V2).
    assert (El : load_state h3 d2 = load_state h2 d2).
    { apply (load_changed_state _ _ _ _ C1); auto. intros c K1 K2. exact (Hav c K2 K1). }
    rewrite El in V2. rewrite V2.
    assert (C : changed_in (fun c => state_cells d1 c \/ state_cells d2 c) h2 h4).
    { apply (changed_trans _ _ _ _ _ _ C1 C2). intros c _ [K|K]; auto. }
    destruct r4 as [y|e]; cbn [res_map bind].
    - eexists _, _. split. reflexivity. split; auto. cbn [res_map]. do 2 f_equal. symmetry.
      apply (load_changed_state _ _ _ _ C2); auto. intros c K; apply I1 in K; destruct C1; lia.
    - eexists _, _. split. reflexivity. split; auto.
  Qed.

  Theorem main_scaling_fresh : forall {U} w (comp : hwrapped (T:=T) U), fresh_answers comp -> fresh_answers (scaling_call w comp).
  Proof.
    intros U w comp (f & Hf). exists (v_scaling w f). intros u h st dt u' h' r Hs H. rewrite scaling_call_eq in H.
    destruct (scaled_state w h st) as [h1 rs] eqn:Es. unfold scaled_state in Es.
    assert (Ht : state_in h (match dget "time" st with Some t => [("time", t)] | None => [] end)).
    { intros c (k & a & Ha & Hc). destruct (dget "time" st) as [t|] eqn:Et; [|destruct Ha]. destruct Ha as [E|[]]. injection E as <- ->.
      apply Hs. exists "time", a. split; auto. apply dget_In; auto. }
    apply scale_inputs_value in Es as (G1 & V1 & Hs1); auto.
    unfold v_scaling. rewrite dget_load_state.
    match goal with |- context [v_inputs _ _ _ ?m] =>
      replace m with (load_state h (match dget "time" st with Some t => [("time", t)] | None => [] end)) by (destruct (dget "time" st); auto) end.
    rewrite V1. destruct rs as [sst|e]; cbn [res_map bind].
    2: { injection H as <- <- <-. split; auto. }
    destruct (takes_step w && match dt with None => true | Some _ => false end).
    { injection H as <- <- <-. split; auto. }
    destruct (comp u h1 sst (passed w dt)) as [[u2 h2] r2] eqn:Ec.
    destruct (Hf _ _ _ _ _ _ _ Hs1 Ec) as (G2 & V2 & F2). rewrite <- V2.
    pose proof (grown_length _ _ G1) as L1.
    destruct r2 as [[o1 o2]|e]; cbn [load_pair bind fst snd].
    2: { injection H as <- <- <-. split; auto. exact (grown_trans _ _ _ G1 G2). }
    destruct F2 as (S1 & S2 & Hav & Hfr).
    assert (I1 : state_in h2 o1) by (intros c K; apply Hfr; auto).
    assert (I2 : state_in h2 o2) by (intros c K; apply Hfr; auto).
    assert (Done : forall (X : cells) h4, changed_in X h2 h4 -> (forall c, X c -> length h1 <= c) -> grown h h4 /\ length h2 <= length h4).
    { intros X h4 C HX. split; [|apply C]. apply (changed_grown X).
      - apply (changed_trans no_cells X _ h h2 h4); auto.
        + apply grown_changed. exact (grown_trans _ _ _ G1 G2).
        + intros c _ [[]|K]; auto.
      - intros c Hc K. apply HX in K. lia. }
    assert (Std : match scale_outputs h2 (first_factors w) o1 with
                  | (h3, Err e) => ((u2, h3), Err e)
                  | (h3, Ok _) => match scale_outputs h3 (second_factors w) o2 with
                                  | (h4, Err e) => ((u2, h4), Err e)
                                  | (h4, Ok _) => ((u2, h4), Ok (o1, o2))
                                  end
                  end = ((u', h'), r) ->
      grown h h' /\
      load_pair h' r = (let* a := v_outputs (first_factors w) (load_state h2 o1) in
                        let* b := v_outputs (second_factors w) (load_state h2 o2) in Ok (a, b)) /\
      match r with
      | Ok (o1, o2) => separate o1 /\ separate o2 /\ avoids (state_cells o1) (state_cells o2) /\
                       forall c, state_cells o1 c \/ state_cells o2 c -> length h <= c < length h'
      | Err _ => True
      end).
    { clear H. intros H.
      destruct (two_outputs (first_factors w) (second_factors w) o1 o2 h2 S1 S2 Hav I1 I2) as (h4 & r4 & E & C & V).
      destruct (Done _ _ C ltac:(intros c [K|K]; apply Hfr; auto)) as (D1 & D2). rewrite V.
      destruct (scale_outputs h2 (first_factors w) o1) as [h3 [x|e]].
      2: { injection E as <- <-. injection H as <- <- <-. auto. }
      destruct (scale_outputs h3 (second_factors w) o2) as [h5 [y|e]]; injection E as <- <-; injection H as <- <- <-; split; auto.
      split; auto. split; auto. split; auto. split; auto. intros c K. apply Hfr in K. lia. }
    unfold ordered in H. destruct (sw_kind w).
    - clear Std. destruct (two_outputs (second_factors w) (first_factors w) o2 o1 h2 S2 S1 (fun c K1 K2 => Hav c K2 K1) I2 I1) as (h4 & r4 & E & C & V).
      destruct (Done _ _ C ltac:(intros c [K|K]; apply Hfr; auto)) as (D1 & D2).
      destruct (scale_outputs h2 (second_factors w) o2) as [h3 [x|e]].
      2: { injection E as <- <-. injection H as <- <- <-. split; auto. split; auto.
           destruct (v_outputs (second_factors w) (load_state h2 o2)); cbn [bind res_map load_pair] in *; [|injection V as ->; auto].
           destruct (v_outputs (first_factors w) (load_state h2 o1)); cbn [bind res_map load_pair] in *; [discriminate V|injection V as ->; auto]. }
      destruct (scale_outputs h3 (first_factors w) o1) as [h5 [y|e]]; injection E as <- <-; injection H as <- <- <-; split; auto.
      + split. 2: { split; auto. split; auto. split; auto. intros c K. apply Hfr in K. lia. }
        destruct (v_outputs (second_factors w) (load_state h2 o2)); cbn [bind res_map load_pair] in *; [|discriminate V].
        destruct (v_outputs (first_factors w) (load_state h2 o1)); cbn [bind res_map load_pair] in *; [injection V as -> ->; auto|discriminate V].
      + split; auto.
        destruct (v_outputs (second_factors w) (load_state h2 o2)); cbn [bind res_map load_pair] in *; [|injection V as ->; auto].
        destruct (v_outputs (first_factors w) (load_state h2 o1)); cbn [bind res_map load_pair] in *; [discriminate V|injection V as ->; auto].
    - exact (Std H).
    - exact (Std H).
    - exact (Std H).
  Qed.

  (** ** Repeated calls *)

  Lemma fresh_after : forall {U} w (comp : hwrapped (T:=T) U), fresh_answers comp ->
    forall calls s, (forall st dt, In (st, dt) calls -> state_in (snd s) st) -> grown (snd s) (snd (scaling_after w comp calls s)).
  Proof.
    intros U w comp Hf. apply main_scaling_fresh with (w := w) in Hf as (f & Hf).
    unfold scaling_after. induction calls as [|[st dt] calls IH]; intros [u h] Hi; cbn [fold_left fst snd]; [apply grown_refl|].
    destruct (scaling_call w comp u h st dt) as [[u' h'] r] eqn:E. cbn [fst snd].
    destruct (Hf u h st dt u' h' r) as (G & _); auto. { apply (Hi st dt). left; auto. }
    apply (grown_trans _ _ _ G). apply (IH (u', h')). intros st' dt' Hin. cbn [snd]. apply (state_in_grown h); auto.
    apply (Hi st' dt'). right; auto.
  Qed.

  Theorem main_scaling_repeat : forall {U} w (comp : hwrapped (T:=T) U), fresh_answers comp ->
    forall calls u h st dt, state_in h st -> (forall st' dt', In (st', dt') calls -> state_in h st') ->
    let '((u1, h1), r1) := scaling_call w comp u h st dt in
    let '(u2, h2) := scaling_after w comp calls (u, h) in
    let '((u3, h3), r3) := scaling_call w comp u2 h2 st dt in
    grown h h1 /\ grown h h2 /\ grown h2 h3 /\ load_state h3 st = load_state h st /\ load_pair h3 r3 = load_pair h1 r1.
  Proof.
    intros U w comp Hf calls u h st dt Hs Hc. pose proof (fresh_after w comp Hf calls (u, h) Hc) as G2. cbn [snd] in G2.
    apply main_scaling_fresh with (w := w) in Hf as (f & Hf).
    destruct (scaling_call w comp u h st dt) as [[u1 h1] r1] eqn:E1.
    destruct (scaling_after w comp calls (u, h)) as [u2 h2]. cbn [snd] in G2.
    destruct (scaling_call w comp u2 h2 st dt) as [[u3 h3] r3] eqn:E3.
    destruct (Hf _ _ _ _ _ _ _ Hs E1) as (G1 & V1 & _).
    assert (Hs2 : state_in h2 st) by (apply (state_in_grown h); auto).
    destruct (Hf _ _ _ _ _ _ _ Hs2 E3) as (G3 & V3 & _).
    split; auto. split; auto. split; auto. split.
    - apply load_state_grown; auto. exact (grown_trans _ _ _ G2 G3).
    - rewrite V3, V1. f_equal. apply load_state_grown; auto.
  Qed.

  (** ** Tracers *)

  Lemma foldM_each : forall {B C} (f : B -> C -> res B) l acc r, foldM f l acc = Ok r ->
    forall x, In x l -> exists acc' r', f acc' x = Ok r'.
  Proof.
    induction l as [|y l IH]; intros acc r H x Hx; [destruct Hx|]. cbn [foldM] in H. apply bind_ok in H as (b & Hb & H).
    destruct Hx as [<-|Hx]; eauto.
  Qed.

  Lemma extract_each : forall (st : state T) pd raw, get_numpy_arrays_with_properties st pd = Ok raw ->
    forall n, In n (keys pd) -> dget n st <> None.
  Proof.
    intros st pd raw H n Hn K. unfold get_numpy_arrays_with_properties in H. apply bind_ok in H as ([wn dl] & _ & H).
    apply in_map_iff in Hn as ([n' p] & E & Hn). cbn in E. subst n'.
    destruct (foldM_each _ _ _ _ H _ Hn) as (acc & r & Hs). unfold extract_step in Hs. apply bind_ok in Hs as ([ds u] & _ & Hs).
    apply bind_ok in Hs as (v & Hv & _). apply dgetE_ok in Hv. cbn [fst] in Hv. congruence.
  Qed.

  Lemma extract_absent : forall (st : state T) pd raw n, get_numpy_arrays_with_properties st pd = Ok raw ->
    (forall k p, In (k, p) pd -> raw_name k p <> n) -> dget n raw = None.
  Proof.
    intros st pd raw n H Hn. unfold get_numpy_arrays_with_properties in H. apply bind_ok in H as ([wn dl] & _ & H).
    assert (G : forall pd acc, (forall k p, In (k, p) pd -> raw_name k p <> n) -> dget n acc = None ->
      foldM (extract_step st wn dl) pd acc = Ok raw -> dget n raw = None).
    { clear. induction pd as [|[k p] pd IH]; intros acc Hn Ha H; cbn [foldM] in H; [injection H as <-; auto|].
      apply bind_ok in H as (acc1 & H1 & H). apply (IH acc1); auto. { intros k' p' K. apply (Hn k' p'). right; auto. }
      unfold extract_step in H1. apply bind_ok in H1 as ([ds u] & _ & H1). apply bind_ok in H1 as (v & _ & H1).
      apply bind_ok in H1 as (a & _ & H1). injection H1 as <-. rewrite dget_dset_neq; auto.
      intros E. symmetry in E. revert E. apply (Hn k p). left; auto. }
    apply (G pd []); auto.
  Qed.

  Lemma pack_each : forall g p (st : state T) t n, pack g p st = Ok t -> In n (tracer_names g p) -> dget n st <> None.
  Proof.
    intros g p st t n H Hn. unfold pack in H. apply bind_ok in H as (raw & Hr & H). apply bind_ok in H as (sh & _ & H).
    assert (Hi : exists i, In (i, n) (enumerate (tracer_names g p))).
    { clear - Hn. unfold enumerate. generalize 0 at 1. induction (tracer_names g p) as [|m l IH]; intros s; [destruct Hn|].
      cbn [length seq combine]. destruct Hn as [->|Hn]. { exists s. left; auto. } destruct (IH Hn (S s)) as (i & Hi). exists i. right; auto. }
    destruct Hi as (i & Hi). destruct (foldM_each _ _ _ _ H _ Hi) as (acc & r & Hs). apply bind_ok in Hs as (sub & Hs & _).
    apply dgetE_ok in Hs. cbn [snd] in Hs.
    set (tp := get_tracer_input_properties g (pk_prepend p) (quantity_dims p)) in *.
    destruct (in_dec string_dec n (keys tp)) as [K|K]; [exact (extract_each _ _ _ Hr _ K)|]. exfalso.
    rewrite (extract_absent _ _ _ n Hr) in Hs; [discriminate Hs|]. intros k q Hin E. apply K.
    unfold tp, get_tracer_input_properties in Hin. apply in_map_iff in Hin as ([k' u] & E' & Hin). injection E' as <- <-.
    unfold raw_name in E. cbn in E. subst. apply (in_map fst) in Hin. unfold tp, get_tracer_input_properties, keys. rewrite map_map. exact Hin.
  Qed.

  Theorem main_scaling_tracers : forall w (h : heap T) st h1 sst g inp p n, state_in h st -> scaled_state w h st = (h1, Ok sst) ->
    sw_inp w = keys inp -> In n (tracer_names g p) -> ~ In n (keys inp) -> n <> "time" ->
    exists e, raw_state g inp (Some p) (load_state h1 sst) = Err e.
  Proof.
    intros w h st h1 sst g inp p n Hs Es Ei Hn Hni Hnt. apply main_scaled_inputs in Es as (_ & Hsees); auto.
    specialize (Hsees n). rewrite Ei in Hsees.
    assert (Em : mem n (keys inp) = false).
    { destruct (mem n (keys inp)) eqn:E; auto. exfalso. apply Hni. apply existsb_exists in E as (x & Hx & E). apply String.eqb_eq in E. subst; auto. }
    rewrite Em in Hsees. apply String.eqb_neq in Hnt. rewrite Hnt in Hsees.
    assert (Ev : dget n (load_state h1 sst) = None) by (rewrite dget_load_state, Hsees; auto).
    destruct (raw_state g inp (Some p) (load_state h1 sst)) as [raw|e] eqn:E; [|eauto]. exfalso.
    unfold raw_state in E. apply bind_ok in E as (_ & _ & E). apply bind_ok in E as (raw0 & _ & E).
    apply bind_ok in E as (raw1 & Hp & _). apply bind_ok in Hp as (t & Hp & _).
    exact (pack_each _ _ _ _ _ Hp Hn Ev).
  Qed.
End Scaling.
