(** What a write, successful or not, leaves as it was (C54). *)
From Coq Require Import String List Bool Arith ZArith Sorting Lia.
From Verif Require Import Prelude PreludeFacts ArithM NdArray DataArrayM StrFun NetCDF SpecNetCDF.
Import ListNotations.
Open Scope string_scope.
Open Scope nat_scope.
Open Scope list_scope.

Section Keeps.
  Context {T : Type} {A : Arith T} {N : NcLib T}.

  (** [keeps], for the rows before [k]. *)
  Definition keeps_upto (k : nat) (f f' : nfile T) : Prop :=
    (forall x o, dget x (d_dims f) = Some o -> dget x (d_dims f') = Some o) /\
    (forall tv, d_time f = Some tv -> exists more, d_time f' = Some (mktvar (t_units tv) (t_ref tv) (t_vals tv ++ more))) /\
    (forall n v, dget n (d_vars f) = Some v -> exists v', dget n (d_vars f') = Some v' /\ nv_dims v' = nv_dims v /\ nv_attrs v' = nv_attrs v /\
       forall i, i < k -> nth i (nv_rows v') None = nth i (nv_rows v) None).

  Lemma keeps_refl : forall k f, keeps_upto k f f.
  Proof.
    intros k f. split; auto. split.
    - intros [u r z] H. exists []. rewrite app_nil_r. auto.
    - intros n v H. exists v. auto.
  Qed.

  Lemma keeps_trans : forall k f g h, keeps_upto k f g -> keeps_upto k g h -> keeps_upto k f h.
  Proof.
    intros k f g h (D1 & T1 & V1) (D2 & T2 & V2). split; auto. split.
    - intros tv H. apply T1 in H as (m1 & H). apply T2 in H as (m2 & H). cbn [t_units t_ref t_vals] in H. exists (m1 ++ m2). rewrite app_assoc. auto.
    - intros n v H. apply V1 in H as (v1 & H & E1 & E2 & E3). apply V2 in H as (v2 & H & F1 & F2 & F3). exists v2. split; auto.
      split. congruence. split. congruence. intros i Hi. rewrite F3, E3; auto.
  Qed.

  (** What every outcome of an action keeps. *)
  Definition safe {B} (k : nat) (a : act B) : Prop := forall f r f', a f = (r, f') -> keeps_upto k f f'.

  Lemma safe_thn : forall {B C} k (a : act (T := T) B) (g : B -> act C), safe k a -> (forall x, safe k (g x)) -> safe k (thn a g).
  Proof.
    intros B C k a g Ha Hg f r f' H. unfold thn in H. destruct (a f) as [[x|e] f1] eqn:E.
    - eapply keeps_trans. eapply Ha; eauto. eapply Hg; eauto.
    - injection H as <- <-. eapply Ha; eauto.
  Qed.

  Lemma safe_each : forall {B} k (g : B -> act (T := T) unit) l, (forall x, safe k (g x)) -> safe k (each g l).
  Proof.
    intros B k g l Hg. induction l as [|x l IH]; cbn [each].
    - intros f r f' H. injection H as <- <-. apply keeps_refl.
    - apply safe_thn; auto.
  Qed.

  Lemma safe_lift : forall {B} k (r : res B), safe k (lift (T := T) r).
  Proof. intros B k r f r' f' H. injection H as <- <-. apply keeps_refl. Qed.

  Lemma safe_ensure_dim : forall k name len, safe k (ensure_dim (T := T) name len).
  Proof.
    intros k name len f r f' H. unfold ensure_dim in H. destruct (dget name (d_dims f)) as [[n|]|] eqn:E.
    - destruct len as [n'|]; [destruct (Nat.eqb _ _)|]; injection H as <- <-; apply keeps_refl.
    - destruct len as [n'|]; [destruct (Nat.eqb _ _)|]; injection H as <- <-; apply keeps_refl.
    - assert (G : f' = mkds (dset name len (d_dims f)) (d_time f) (d_vars f)) by (destruct len; injection H as <- <-; auto). subst f'. clear H.
      split; [|exact (proj2 (keeps_refl k f))]. cbn [d_dims]. intros x o Hx. rewrite dget_dset_neq; auto. intros ->. rewrite E in Hx. discriminate.
  Qed.

  Lemma safe_ensure_time : forall k m t0, safe k (ensure_time m t0).
  Proof.
    intros k m t0. unfold ensure_time. apply safe_thn. apply safe_ensure_dim. intros _ f r f' H. destruct (d_time f) as [tv|] eqn:E; injection H as <- <-.
    - apply keeps_refl.
    - split; auto. split; [|exact (proj2 (proj2 (keeps_refl k f)))]. intros tv H. rewrite E in H. discriminate.
  Qed.

  Lemma safe_append : forall k m ts, safe k (append_times m ts).
  Proof.
    intros k m ts f r f' H. unfold append_times in H. destruct (d_time f) as [tv|] eqn:E.
    - destruct (if m_delta m then _ else _) as [zs|e]; injection H as <- <-; [|apply keeps_refl].
      split; auto. split; [|exact (proj2 (proj2 (keeps_refl k f)))]. intros tv' H. rewrite E in H. injection H as <-. exists zs. auto.
    - injection H as <- <-. apply keeps_refl.
  Qed.

  Lemma vars_ensure_dim : forall name len f r f', ensure_dim (T := T) name len f = (r, f') -> d_vars f' = d_vars f.
  Proof. intros name len f r f' H. unfold ensure_dim in H. destruct (dget name (d_dims f)) as [[n|]|]; destruct len as [n'|]; try destruct (Nat.eqb _ _); injection H as <- <-; auto. Qed.

  Lemma safe_create : forall k name cb f r f', dget name (d_vars f) = None -> create_variable name cb f = (r, f') -> keeps_upto k f f'.
  Proof.
    intros k name cb f r f' Hn H.
    assert (S : forall r f', thn (ensure_dim (T := T) "time" None) (fun _ => each (fun dn => ensure_dim (fst dn) (Some (snd dn))) (combine (cb_dims cb) (cb_shape cb))) f = (r, f') ->
                keeps_upto k f f' /\ d_vars f' = d_vars f).
    { pose proof vars_ensure_dim as V.
      clear H. intros r0 f0 H. split. { eapply safe_thn; eauto. apply safe_ensure_dim. intros ?. apply safe_each. intros ?. apply safe_ensure_dim. }
      unfold thn in H. destruct (ensure_dim "time" None f) as [[x|e] f1] eqn:E1. 2: { injection H as <- <-. eauto. }
      rewrite <- (V _ _ _ _ _ E1). clear E1. revert f1 H. induction (combine (cb_dims cb) (cb_shape cb)) as [|dn l IH]; intros f1 H; cbn [each] in H.
      - injection H as <- <-. auto.
      - unfold thn in H. destruct (ensure_dim (fst dn) (Some (snd dn)) f1) as [[y|e] f2] eqn:E2.
        + rewrite <- (V _ _ _ _ _ E2). auto.
        + injection H as <- <-. eauto. }
    unfold create_variable in H. unfold thn in S, H.
    destruct (ensure_dim "time" None f) as [[x|e] f1]. 2: { injection H as <- <-. eapply S; eauto. }
    destruct (each _ _ f1) as [[y|e] f2]. 2: { injection H as <- <-. eapply S; eauto. }
    destruct (S _ _ eq_refl) as (S1 & S2). injection H as <- <-. eapply keeps_trans. exact S1. split; [|split]; cbn [d_dims d_time d_vars]; auto.
    - exact (proj1 (proj2 (keeps_refl k f2))).
    - intros n v Hv. exists v. rewrite dget_dset_neq; auto. intros ->. rewrite S2, Hn in Hv. discriminate.
  Qed.

  Lemma safe_ensure_variable : forall k name cb, safe k (ensure_variable (T := T) name cb).
  Proof.
    intros k name cb f r f' H. unfold ensure_variable in H. destruct (dget name (d_vars f)) as [v|] eqn:E.
    - injection H as <- <-. apply keeps_refl.
    - eapply safe_create; eauto.
  Qed.

  Lemma nth_firstn_lt : forall {X} (l : list X) k i d, i < k -> nth i (firstn k l) d = nth i l d.
  Proof.
    intros X l. induction l as [|x l IH]; intros [|k] [|i] d H; cbn [firstn nth]; auto; try lia. apply IH. lia.
  Qed.

  Lemma nth_put : forall {X} (rows : list (option X)) start more rest i, i < start ->
    nth i (firstn start rows ++ repeat None (start - length rows) ++ more ++ rest) None = nth i rows None.
  Proof.
    intros X rows start more rest i Hi. destruct (Nat.lt_ge_cases i (length rows)) as [L|L].
    - rewrite app_nth1. apply nth_firstn_lt; auto. rewrite firstn_length. lia.
    - rewrite (nth_overflow rows) by auto. rewrite app_nth2, app_nth1; try (rewrite firstn_length, ?repeat_length; lia).
      apply nth_repeat.
  Qed.

  Lemma safe_put : forall k name cb, safe k (put_rows name k cb).
  Proof.
    intros k name cb f r f' H. unfold put_rows in H. destruct (dget name (d_vars f)) as [v|] eqn:E. 2: { injection H as <- <-. apply keeps_refl. }
    destruct (mapM _ _) as [rows|e]; injection H as <- <-; [|apply keeps_refl]. split; [|split]; cbn [d_dims d_time d_vars]; auto.
    - exact (proj1 (proj2 (keeps_refl k f))).
    - intros n w Hw. rewrite dget_dset. destruct (String.eqb n name) eqn:En.
      + apply String.eqb_eq in En. subst n. rewrite E in Hw. injection Hw as <-. eexists. split; [reflexivity|]. cbn [nv_dims nv_attrs nv_rows]. split; auto. split; auto.
        intros i Hi. apply nth_put. auto.
      + exists w. auto.
  Qed.

  Lemma n_times_ensure_dim : forall name len f r f', ensure_dim (T := T) name len f = (r, f') -> d_time f' = d_time f.
  Proof. intros name len f r f' H. unfold ensure_dim in H. destruct (dget name (d_dims f)) as [[n|]|]; destruct len as [n'|]; try destruct (Nat.eqb _ _); injection H as <- <-; auto. Qed.

  Lemma n_times_ensure_time : forall m t0 f r f', ensure_time (T := T) m t0 f = (r, f') -> n_times f' = n_times f.
  Proof.
    intros m t0 f r f' H. unfold ensure_time, thn in H. destruct (ensure_dim "time" None f) as [[x|e] f1] eqn:E.
    - unfold n_times. rewrite <- (n_times_ensure_dim _ _ _ _ _ E). destruct (d_time f1) as [tv|] eqn:Et; injection H as <- <-; cbn [d_time]; auto. rewrite Et. auto.
    - injection H as <- <-. unfold n_times. rewrite (n_times_ensure_dim _ _ _ _ _ E). auto.
  Qed.

  Theorem safe_write : forall m c f r f', write_act m c f = (r, f') -> keeps f f'.
  Proof.
    intros m c f r f' H. change (keeps_upto (n_times f) f f'). unfold write_act in H. unfold thn at 1 in H.
    assert (C : forall r f1, check_keys c f = (r, f1) -> f1 = f).
    { intros r0 f1 H1. unfold check_keys in H1. destruct c as [|[t s] c']. injection H1 as <- <-; auto. destruct (forallb _ _); injection H1 as <- <-; auto. }
    destruct (check_keys c f) as [[x|e] f1] eqn:Ec; specialize (C _ _ eq_refl); subst f1. 2: { injection H as <- <-. apply keeps_refl. }
    destruct (by_time c) as [|[t0 s0] l]. { injection H as <- <-. apply keeps_refl. }
    unfold thn at 1 in H. destruct (ensure_time m t0 f) as [[y|e] f1] eqn:Et.
    - eapply keeps_trans. eapply safe_ensure_time; eauto. rewrite <- (n_times_ensure_time _ _ _ _ _ Et). cbv zeta in H.
      eapply safe_thn; [| |exact H]. apply safe_append. intros ?. apply safe_thn. apply safe_lift. intros all. apply safe_each. intros nc. apply safe_thn.
      apply safe_ensure_variable. intros ?. apply safe_put.
    - injection H as <- <-. eapply safe_ensure_time; eauto.
  Qed.

  (** C54: no write changes other files, or what the file already holds. *)
  Theorem main_write_keeps : forall m (fs : files T) c r fs' c', write m fs c = (r, fs', c') ->
    (forall g, g <> m_file m -> dget g fs' = dget g fs) /\
    (forall f, dget (m_file m) fs = Some f -> exists f', dget (m_file m) fs' = Some f' /\ keeps f f') /\
    (forall e, r = Err e -> c' = c) /\ (r = Ok tt -> c' = []).
  Proof.
    intros m fs c r fs' c' H. unfold write in H.
    destruct (write_act m c _) as [[[]|e] d'] eqn:E; injection H as <- <- <-; (split; [intros g Hg; apply dget_dset_neq; auto|split; [|split; auto; discriminate]]);
      intros f Hf; rewrite Hf in E; exists d'; split; try apply dget_dset_eq; eapply safe_write; eauto.
  Qed.

  Lemma keeps_n_times : forall f f' : nfile T, keeps f f' -> n_times f <= n_times f'.
  Proof.
    intros f f' (_ & H & _). unfold n_times at 1. destruct (d_time f) as [tv|]; [|lia]. destruct (H tv eq_refl) as (more & E). unfold n_times. rewrite E. cbn [t_vals].
    rewrite app_length. lia.
  Qed.

  Lemma keeps_whole_trans : forall f g h : nfile T, keeps f g -> keeps g h -> keeps f h.
  Proof.
    intros f g h H1 H2. apply (keeps_trans (n_times f) f g h H1). destruct H2 as (D & Tm & V). split; auto. split; auto.
    intros n v Hv. destruct (V n v Hv) as (v' & E & E1 & E2 & E3). exists v'. split; auto. split; auto. split; auto. intros i Hi. apply E3. pose proof (keeps_n_times _ _ H1). lia.
  Qed.

  (** C54: nor does any program using the monitor, whatever exceptions it meets. *)
  Theorem main_run_keeps : forall ord m ops (fs : files T) c os fs' c', mon_run ord m ops fs c = (os, fs', c') ->
    (forall g, g <> m_file m -> dget g fs' = dget g fs) /\
    (forall f, dget (m_file m) fs = Some f -> exists f', dget (m_file m) fs' = Some f' /\ keeps f f').
  Proof.
    intros ord m ops. induction ops as [|op ops IH]; intros fs c os fs' c' H; cbn [mon_run] in H.
    - injection H as <- <- <-. split; auto. intros f Hf. exists f. split; auto. apply keeps_refl.
    - destruct (mon_step ord m op fs c) as [[o fs1] c1] eqn:E. destruct (mon_run ord m ops fs1 c1) as [[os1 fs2] c2] eqn:E2. injection H as <- <- <-.
      apply IH in E2 as (G1 & G2).
      assert (S : (forall g, g <> m_file m -> dget g fs1 = dget g fs) /\ (forall f, dget (m_file m) fs = Some f -> exists f', dget (m_file m) fs1 = Some f' /\ keeps f f')).
      { assert (R : forall f, dget (m_file m) fs = Some f -> exists f', dget (m_file m) fs = Some f' /\ keeps f f') by (intros f Hf; exists f; split; auto; apply keeps_refl).
        destruct op as [st|]; cbn [mon_step] in E.
        - unfold store in E. destruct (prepare ord m st) as [[t cs]|e]. 2: { injection E as <- <- <-. auto. }
          destruct (m_on_store m). apply main_write_keeps in E as (E & E' & _); auto. injection E as <- <- <-. auto.
        - apply main_write_keeps in E as (E & E' & _). auto. }
      destruct S as (S1 & S2). split.
      + intros g Hg. rewrite G1, S1; auto.
      + intros f Hf. apply S2 in Hf as (f1 & Hf & K1). apply G2 in Hf as (f2 & Hf & K2). exists f2. split; auto. eapply keeps_whole_trans; eauto.
  Qed.

  (** C54: when the cached quantities do not match, or nothing is cached, nothing is written. *)

  Theorem main_mismatch : forall m (fs : files T) c, c <> [] ->
    (exists ts, In ts c /\ ~ (forall n, In n (keys (snd ts)) <-> In n (match keys (d_vars (opened m fs)) with [] => keys (snd (hd (0%Z, []) c)) | ks => ks end))) ->
    write m fs c = (Err EInvalidState, dset (m_file m) (opened m fs) fs, c).
  Proof.
    intros m fs c Hc (ts & Hin & Hn). unfold write. fold (opened m fs). set (d := opened m fs) in *. unfold write_act, thn at 1.
    destruct c as [|[t s] c']; [contradiction Hc; auto|]. unfold check_keys.
    set (ref := match keys (d_vars d) with [] => keys s | _ => _ end). change (match keys (d_vars d) with [] => keys (snd (hd (0%Z, []) ((t, s) :: c'))) | _ => _ end) with ref in Hn.
    destruct (forallb _ _) eqn:E; auto. exfalso. rewrite forallb_forall in E. apply E in Hin. apply Hn. intros n. unfold same_list in Hin.
    apply andb_true_iff in Hin as (_ & Hin). apply andb_true_iff in Hin as (H1 & H2). rewrite forallb_forall in H1, H2. split; intros H. apply mem_In; auto. apply mem_In; auto.
  Qed.

  Theorem main_nothing_cached : forall m (fs : files T), write m fs [] = (Err EValue, dset (m_file m) (opened m fs) fs, []).
  Proof. intros m fs. unfold write. fold (opened m fs). reflexivity. Qed.
End Keeps.
