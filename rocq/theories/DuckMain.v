(** Main theorems about the kinds of components (C61, C68). *)
From Coq Require Import String List Bool Arith ZArith.
From Verif Require Import Prelude PreludeFacts Duck SpecDuck.
Import ListNotations.
Open Scope string_scope.
Open Scope nat_scope.
Open Scope list_scope.

Lemma has_mem : forall o att, mem att (o_attrs o) = true <-> has o att.
Proof. intros. apply mem_In. Qed.

Lemma not_has_mem : forall o att, mem att (o_attrs o) = false <-> ~ has o att.
Proof. intros. apply mem_false. Qed.

Lemma timestep_in_iff : forall o args, o_call o = Some args -> (timestep_in args = true <-> takes_timestep o).
Proof. intros o args H. unfold timestep_in, takes_timestep. rewrite mem_In. split. eauto. intros (a & E & Hi). rewrite H in E. injection E as <-. auto. Qed.

Lemma optional_iff : forall o args, o_call o = Some args -> (timestep_optional args = true <-> timestep_may_be_none o).
Proof.
  intros o args H. unfold timestep_optional, timestep_may_be_none. rewrite existsb_exists. split.
  - intros ((n & d) & Hi & E). apply andb_true_iff in E as (E1 & E2). cbn [fst snd] in *. apply String.eqb_eq in E1. subst. exists args. split; auto. destruct d; try discriminate E2. auto.
  - intros (a & E & Hi). rewrite H in E. injection E as <-. exists ("timestep", DefaultNone). auto.
Qed.

(** C61: what makes an object that inherits from no component class an instance of one. *)
Theorem main_instance_iff : forall k o, o_bases o = [] ->
  (is_instance k o = true <-> callable o /\ attributes_of k o /\ ((uses_timestep k <-> takes_timestep o) \/ timestep_may_be_none o)).
Proof.
  intros k o Hb. unfold is_instance. rewrite Hb. unfold callable. destruct (o_call o) as [args|] eqn:Hc. 2: { split. discriminate. intros (H & _). contradiction H; auto. }
  rewrite andb_true_iff, orb_true_iff, (optional_iff o args Hc).
  assert (Ht : Bool.eqb (class_timestep k) (timestep_in args) = true <-> (uses_timestep k <-> takes_timestep o)).
  { rewrite <- (timestep_in_iff o args Hc). rewrite Bool.eqb_true_iff. unfold uses_timestep. destruct k; cbn [class_timestep]; destruct (timestep_in args); split; intros H; try discriminate H; auto; try (split; auto; try discriminate; intros [E|E]; discriminate E).
    - destruct H as (H & _). specialize (H (or_introl eq_refl)). discriminate H.
    - destruct H as (_ & H). specialize (H eq_refl). destruct H as [E|E]; discriminate E.
    - destruct H as (H & _). specialize (H (or_intror eq_refl)). discriminate H.
    - destruct H as (_ & H). specialize (H eq_refl). destruct H as [E|E]; discriminate E. }
  rewrite Ht.
  assert (Ha : forallb (hasattr o) (required k) && negb (existsb (hasattr o) (disallowed k)) = true <-> attributes_of k o).
  { unfold attributes_of, common. rewrite andb_true_iff, negb_true_iff.
    pose proof (fun att => has_mem o att) as P. pose proof (fun att => not_has_mem o att) as N.
    assert (C : hasattr o "__call__" = true) by (unfold hasattr; cbn; rewrite Hc; reflexivity).
    assert (E1 : hasattr o "input_properties" = mem "input_properties" (o_attrs o)) by reflexivity.
    assert (E2 : hasattr o "diagnostic_properties" = mem "diagnostic_properties" (o_attrs o)) by reflexivity.
    assert (E3 : hasattr o "array_call" = mem "array_call" (o_attrs o)) by reflexivity.
    assert (E4 : hasattr o "tendency_properties" = mem "tendency_properties" (o_attrs o)) by reflexivity.
    assert (E5 : hasattr o "output_properties" = mem "output_properties" (o_attrs o)) by reflexivity.
    assert (E6 : hasattr o "tendencies_in_diagnostics" = mem "tendencies_in_diagnostics" (o_attrs o)) by reflexivity.
    assert (E7 : hasattr o "name" = mem "name" (o_attrs o)) by reflexivity.
    destruct k;
      [ change (required KStepper) with ["input_properties"; "diagnostic_properties"; "output_properties"; "__call__"; "array_call"; "tendencies_in_diagnostics"]; change (disallowed KStepper) with ["tendency_properties"]
      | change (required KTendency) with ["input_properties"; "tendency_properties"; "diagnostic_properties"; "__call__"; "array_call"; "tendencies_in_diagnostics"; "name"]; change (disallowed KTendency) with ["output_properties"]
      | change (required KImplicit) with ["input_properties"; "tendency_properties"; "diagnostic_properties"; "__call__"; "array_call"; "tendencies_in_diagnostics"; "name"]; change (disallowed KImplicit) with ["output_properties"]
      | change (required KDiagnostic) with ["input_properties"; "diagnostic_properties"; "__call__"; "array_call"]; change (disallowed KDiagnostic) with ["tendency_properties"; "output_properties"; "tendencies_in_diagnostics"] ];
      cbn [forallb existsb]; rewrite ?C, ?E1, ?E2, ?E3, ?E4, ?E5, ?E6, ?E7; rewrite ?andb_true_iff, ?orb_false_iff, ?P, ?N; tauto. }
  rewrite Ha. split.
  - intros (H1 & H2). split; [discriminate|auto].
  - intros (_ & H1 & H2). auto.
Qed.

(** C61: an object that inherits from no component class is of at most one kind, except that
    it can be both kinds of tendency component if its timestep can be left out. *)
Theorem main_one_kind : forall k k' o, o_bases o = [] -> is_instance k o = true -> is_instance k' o = true ->
  k = k' \/ (counts_as k k' /\ timestep_may_be_none o).
Proof.
  intros k k' o Hb H1 H2. apply (main_instance_iff k o Hb) in H1. apply (main_instance_iff k' o Hb) in H2.
  destruct H1 as (_ & (_ & A1) & T1), H2 as (_ & (_ & A2) & T2). unfold counts_as.
  destruct k, k'; auto; try (exfalso; tauto); right; unfold uses_timestep in *.
  - split; [auto|]. destruct T1 as [T1|T1]; auto. destruct T2 as [T2|T2]; auto. exfalso.
    assert (Hx : takes_timestep o) by (apply T2; auto). apply T1 in Hx. destruct Hx as [E|E]; discriminate E.
  - split; [auto|]. destruct T1 as [T1|T1]; auto. destruct T2 as [T2|T2]; auto. exfalso.
    assert (Hx : takes_timestep o) by (apply T1; auto). apply T2 in Hx. destruct Hx as [E|E]; discriminate E.
Qed.

Lemma kind_eqb_eq : forall a b, kind_eqb a b = true <-> a = b.
Proof. intros a b. destruct a, b; cbn; split; intros H; try discriminate H; auto. Qed.

(** C61: an object whose class inherits from component classes is an instance of those only. *)
Theorem main_inherits : forall k o, o_bases o <> [] -> (is_instance k o = true <-> In k (o_bases o)).
Proof.
  intros k o Hb. unfold is_instance. destruct (o_bases o) as [|b r] eqn:E. contradiction Hb; auto.
  rewrite existsb_exists. split.
  - intros (x & Hi & Hx). apply kind_eqb_eq in Hx. subst. auto.
  - intros H. exists k. split; auto. apply kind_eqb_eq. reflexivity.
Qed.

(** ** C68 *)

Lemma wrap_attributes : forall k o, attributes_of k (wrap o) <-> attributes_of k o.
Proof. intros. unfold attributes_of, common, has. cbn [wrap o_attrs]. tauto. Qed.

Lemma wrap_all_attributes : forall k ws o, attributes_of k (wrap_all ws o) <-> attributes_of k o.
Proof. intros k ws o. induction ws as [|w ws IH]; cbn [wrap_all fold_right]. tauto. rewrite wrap_attributes. exact IH. Qed.

Lemma wrap_optional : forall o, timestep_may_be_none (wrap o).
Proof. intros o. eexists. split. reflexivity. cbn; auto. Qed.

Lemma wrapped_instance : forall k o, is_instance k (wrap o) = true <-> attributes_of k o.
Proof.
  intros k o. rewrite main_instance_iff by reflexivity. rewrite wrap_attributes. split.
  - tauto.
  - intros H. split; [discriminate|]. split; auto. right. apply wrap_optional.
Qed.

Lemma attributes_counts : forall k k' o, attributes_of k o -> (attributes_of k' o <-> counts_as k k').
Proof.
  intros k k' o H. split.
  - intros H'. destruct H as (_ & H), H' as (_ & H'). unfold counts_as. destruct k, k'; auto; exfalso; tauto.
  - intros [<-|[(-> & ->)|(-> & ->)]]; auto.
Qed.

(** C68: a component with the attributes of its kind is, behind any wrappers, of that kind;
    it is of no other kind, except that a tendency component is of both kinds. *)
Theorem main_wrapped_kind : forall k k' w ws o, attributes_of k o -> (is_instance k' (wrap_all (w :: ws) o) = true <-> counts_as k k').
Proof.
  intros k k' w ws o H. cbn [wrap_all fold_right]. rewrite wrapped_instance. apply attributes_counts. apply wrap_all_attributes. exact H.
Qed.

(** C68: objects recognised by their attributes have the attributes of their kind. *)
Theorem main_recognised : forall k o, o_bases o = [] -> is_instance k o = true -> attributes_of k o.
Proof. intros k o Hb H. apply (main_instance_iff k o Hb) in H. tauto. Qed.

(** C68: ScalingWrapper accepts it. *)
Theorem main_scaling_accepts : forall k ws o, attributes_of k o -> (ws = [] -> o_bases o = [k]) -> scaling_accepts (wrap_all ws o) = true.
Proof.
  intros k ws o H Hb. unfold scaling_accepts. apply existsb_exists. exists k. split. destruct k; cbn; auto.
  destruct ws as [|w ws].
  - cbn [wrap_all fold_right]. apply main_inherits; rewrite (Hb eq_refl); [discriminate|cbn; auto].
  - apply (main_wrapped_kind k k w ws o H). left. reflexivity.
Qed.

Lemma is_wrapped : forall k k' w ws o, attributes_of k o -> is_instance k' (wrap_all (w :: ws) o) = match k, k' with
  | KStepper, KStepper | KDiagnostic, KDiagnostic => true
  | KTendency, KTendency | KTendency, KImplicit | KImplicit, KTendency | KImplicit, KImplicit => true
  | _, _ => false end.
Proof.
  intros k k' w ws o H. destruct (is_instance k' (wrap_all (w :: ws) o)) eqn:E.
  - apply (main_wrapped_kind k k' w ws o H) in E. destruct E as [<-|[(-> & ->)|(-> & ->)]]; auto. destruct k; auto.
  - destruct (match k, k' with
  | KStepper, KStepper | KDiagnostic, KDiagnostic => true
  | KTendency, KTendency | KTendency, KImplicit | KImplicit, KTendency | KImplicit, KImplicit => true
  | _, _ => false end) eqn:F; auto. exfalso.
    assert (Ht : is_instance k' (wrap_all (w :: ws) o) = true); [|congruence].
    apply (main_wrapped_kind k k' w ws o H). unfold counts_as. destruct k, k'; auto; discriminate F.
Qed.

Lemma is_base : forall k k' o, o_bases o = [k] -> is_instance k' o = kind_eqb k' k.
Proof. intros k k' o H. unfold is_instance. rewrite H. cbn [existsb]. apply orb_false_r. Qed.

Section Calls.
  Context {O : Type}.

  (** C68: behind any wrappers a stepper gets the timestep. *)
  Theorem main_stepper_call : forall ws o (body : option Z -> res O) dt, o_bases o = [KStepper] -> attributes_of KStepper o ->
    call_through ws o KStepper body (Some dt) = body (Some dt).
  Proof.
    intros ws o body dt Hb Ha.
    assert (N : forall ws, call_through ws o KStepper body None = Err EType).
    { intros l. induction l as [|[|] l IH]; cbn [call_through]. reflexivity.
      - unfold scaling_call. destruct l as [|w l]. cbn [wrap_all fold_right]. rewrite (is_base _ _ _ Hb). reflexivity. rewrite (is_wrapped KStepper _ _ _ _ Ha). reflexivity.
      - exact IH. }
    induction ws as [|[|] ws IH]; cbn [call_through]. reflexivity.
    - unfold scaling_call. destruct ws as [|w l]. cbn [wrap_all fold_right]. rewrite (is_base _ _ _ Hb). exact IH. rewrite (is_wrapped KStepper _ _ _ _ Ha). exact IH.
    - unfold frequency_call. rewrite IH, N. destruct (body (Some dt)) as [|[]]; reflexivity.
  Qed.

  (** C68: a component that takes no timestep is called without one, whether or not the
      wrapper gets one. *)
  Theorem main_plain_call : forall k w ws o (body : option Z -> res O) ts, k = KTendency \/ k = KDiagnostic -> o_bases o = [k] -> attributes_of k o ->
    call_through (w :: ws) o k body ts = body None.
  Proof.
    intros k w ws o body ts Hk Hb Ha.
    assert (N : forall ws, call_through ws o k body None = body None).
    { intros l. induction l as [|[|] l IH]; cbn [call_through]. destruct Hk; subst; reflexivity.
      - unfold scaling_call. destruct l as [|w' l]; [cbn [wrap_all fold_right]; rewrite !(is_base _ _ _ Hb)|rewrite !(is_wrapped k _ _ _ _ Ha)]; destruct Hk; subst; exact IH.
      - exact IH. }
    revert w. induction ws as [|w' ws IH]; intros w.
    - destruct w; cbn [call_through].
      + unfold scaling_call. cbn [wrap_all fold_right]. rewrite !(is_base _ _ _ Hb). destruct Hk; subst; reflexivity.
      + unfold frequency_call. destruct ts; destruct Hk; subst; reflexivity.
    - destruct w.
      + change (scaling_call (wrap_all (w' :: ws) o) (call_through (w' :: ws) o k body) ts = body None). unfold scaling_call. rewrite !(is_wrapped k _ _ _ _ Ha). destruct Hk; subst; apply (N (w' :: ws)).
      + change (frequency_call (call_through (w' :: ws) o k body) ts = body None). unfold frequency_call. destruct ts as [t|]. 2: apply (N (w' :: ws)).
        rewrite (IH w'), (N (w' :: ws)). destruct (body None) as [|[]]; reflexivity.
  Qed.

  (** C68: an implicit tendency component gets the timestep exactly when no ScalingWrapper is
      outside another wrapper; otherwise the call raises. *)
  Lemma implicit_call : forall ws o (body : option Z -> res O) dt, o_bases o = [KImplicit] -> attributes_of KImplicit o ->
    (~ scaling_outside ws -> call_through ws o KImplicit body (Some dt) = body (Some dt))
    /\ (scaling_outside ws -> call_through ws o KImplicit body (Some dt) = Err EType).
  Proof.
    intros ws o body dt Hb Ha.
    assert (N : forall ws, call_through ws o KImplicit body None = Err EType).
    { intros l. induction l as [|[|] l IH]; cbn [call_through]. reflexivity.
      - unfold scaling_call. destruct l as [|w l]. cbn [wrap_all fold_right]. rewrite !(is_base _ _ _ Hb). reflexivity. rewrite !(is_wrapped KImplicit _ _ _ _ Ha). exact IH.
      - exact IH. }
    induction ws as [|w ws (IH1 & IH2)].
    - split; intros H. reflexivity. destruct H as (a & w & b & E). destruct a; discriminate E.
    - destruct w; cbn [call_through].
      + unfold scaling_call. destruct ws as [|w' l].
        * cbn [wrap_all fold_right]. rewrite !(is_base _ _ _ Hb). split. intros _. reflexivity. intros (a & w & b & E). destruct a as [|x a]. discriminate E. injection E as _ E. destruct a; discriminate E.
        * rewrite !(is_wrapped KImplicit _ _ _ _ Ha). split.
          -- intros H. contradiction H. exists [], w', l. reflexivity.
          -- intros _. apply N.
      + unfold frequency_call.
        assert (Hiff : scaling_outside (Frequency :: ws) <-> scaling_outside ws).
        { split; intros (a & w & b & E).
          - destruct a as [|x a]. discriminate E. injection E as _ E. exists a, w, b. exact E.
          - exists (Frequency :: a), w, b. rewrite E. reflexivity. }
        rewrite Hiff. split; intros H.
        * rewrite (IH1 H), N. destruct (body (Some dt)) as [|[]]; reflexivity.
        * rewrite (IH2 H). apply N.
  Qed.

  Theorem main_implicit_call : forall ws o (body : option Z -> res O) dt, o_bases o = [KImplicit] -> attributes_of KImplicit o -> ~ scaling_outside ws ->
    call_through ws o KImplicit body (Some dt) = body (Some dt).
  Proof. intros ws o body dt Hb Ha. apply implicit_call; auto. Qed.

  Theorem main_implicit_fails : forall ws o (body : option Z -> res O) dt, o_bases o = [KImplicit] -> attributes_of KImplicit o -> scaling_outside ws ->
    call_through ws o KImplicit body (Some dt) = Err EType.
  Proof. intros ws o body dt Hb Ha. apply implicit_call; auto. Qed.
End Calls.
