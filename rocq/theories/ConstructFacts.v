(** Construction of components that use tracers (C16). *)
From Coq Require Import String List Bool Arith ZArith Lia.
From Verif Require Import Prelude PreludeFacts ArithM NdArray Units DataArrayM SpecArrays Tracers SpecComponents Components ComponentFacts StepperFacts SpecConstruct.
Import ListNotations.
Open Scope string_scope.
Open Scope nat_scope.
Open Scope list_scope.

Lemma ensure_all : forall (keep : string -> bool) p (l : list (string * string)),
  foldM (fun _ nu => if keep (fst nu) then Ok tt else ensure_tracer_not_in_outputs p (fst nu)) l tt =
  if existsb (fun nu => negb (keep (fst nu)) && mem (fst nu) (pk_outs p)) l then Err EInvalidProps else Ok tt.
Proof.
  intros keep p l. induction l as [|[n u] l IH]; cbn [foldM existsb fst]; [reflexivity|]. destruct (keep n); cbn [negb andb orb bind]; [exact IH|].
  unfold ensure_tracer_not_in_outputs, raise_if. destruct (mem n (pk_outs p)); cbn [bind orb]; [reflexivity|exact IH].
Qed.

Lemma new_packer_spec : forall g first ds outs,
  (~ In "tracer" ds -> new_packer g first ds outs = (g, Err EValue)) /\
  (In "tracer" ds -> tracer_is_output g first outs -> new_packer g first ds outs = (g, Err EInvalidProps)) /\
  (In "tracer" ds -> ~ tracer_is_output g first outs ->
     new_packer g first ds outs = (mktreg (tr_units g) (tr_names g) (tr_packers g ++ [mkpacker first ds outs]), Ok (mkpacker first ds outs))).
Proof.
  intros g first ds outs. unfold new_packer, get_quantity_dims.
  destruct (mem "tracer" ds) eqn:Em.
  2: { split; [reflexivity|]. apply mem_false in Em. split; intro X; contradiction. }
  apply mem_In in Em. split; [intro X; contradiction|]. cbv zeta.
  rewrite (ensure_all (fun n => dmem n (tr_units g)) (mkpacker first ds outs) first).
  rewrite (ensure_all (fun _ => false) (mkpacker first ds outs) (tr_units g)). cbn [pk_outs].
  set (e1 := existsb _ first). set (e2 := existsb _ (tr_units g)).
  assert (K : tracer_is_output g first outs <-> e1 || e2 = true).
  { rewrite orb_true_iff. unfold e1, e2. rewrite !existsb_exists. split.
    - intros (n & [H|H] & Ho).
      + destruct (dmem n (tr_units g)) eqn:Ed.
        * right. apply dmem_In in Ed. apply in_map_iff in Ed as ([n' u] & E & Hin). cbn in E. subst n'. exists (n, u). split; [exact Hin|]. cbn. apply mem_In. exact Ho.
        * left. apply in_map_iff in H as ([n' u] & E & Hin). cbn in E. subst n'. exists (n, u). split; [exact Hin|]. cbn [fst]. rewrite Ed. cbn. apply mem_In. exact Ho.
      + right. apply in_map_iff in H as ([n' u] & E & Hin). cbn in E. subst n'. exists (n, u). split; [exact Hin|]. cbn. apply mem_In. exact Ho.
    - intros [([n u] & Hin & H)|([n u] & Hin & H)]; cbn [fst] in H; apply andb_prop in H as (_ & H); apply mem_In in H; exists n; (split; [|exact H]).
      + left. apply in_map_iff. exists (n, u). auto.
      + right. apply in_map_iff. exists (n, u). auto. }
  split; intros _ H.
  - apply K in H. destruct e1; [reflexivity|]. destruct e2; [reflexivity|discriminate H].
  - destruct e1; [exfalso; apply H, K; reflexivity|]. destruct e2; [exfalso; apply H, K; reflexivity|]. reflexivity.
Qed.

Section Main.
  Context {R : Registry}.

  (** With tracer options the same checks come first. *)
  Lemma tendency_tracers : forall impl g inp tend diag name tid o tu,
    match make_tendency_component impl g inp tend diag name tid None tu with
    | (_, Err e) => make_tendency_component impl g inp tend diag name tid o tu = (g, Err e)
    | (_, Ok c) => make_tendency_component impl g inp tend diag name tid o tu =
        let (g', r) := make_packer g o (keys tend) in (g', let* pk := r in Ok (mktcomp (t_init c) (t_inp c) (t_tend c) (t_diag c) (t_name c) (t_tid c) (t_added c) pk (t_tunit c)))
    end.
  Proof.
    intros impl g inp tend diag name tid o tu. unfold make_tendency_component. cbv zeta. destruct (bind _ _) as [[diag' added]|e]; [|reflexivity].
    cbn [make_packer bind t_init t_inp t_tend t_diag t_name t_tid t_added t_tunit]. reflexivity.
  Qed.

  Lemma stepper_tracers : forall g inp diag outp name tid o tu,
    match make_stepper g inp diag outp name tid None tu with
    | (_, Err e) => make_stepper g inp diag outp name tid o tu = (g, Err e)
    | (_, Ok c) => make_stepper g inp diag outp name tid o tu =
        let (g', r) := make_packer g o (keys outp) in (g', let* pk := r in Ok (mkscomp (s_init c) (s_inp c) (s_diag c) (s_out c) (s_name c) (s_tid c) (s_ign c) pk (s_tu c)))
    end.
  Proof.
    intros g inp diag outp name tid o tu. unfold make_stepper. destruct (bind _ _) as [[[inp' diag'] added]|e]; [|reflexivity].
    cbn [make_packer bind s_init s_inp s_diag s_out s_name s_tid s_ign s_tu]. reflexivity.
  Qed.

  Lemma packer_outcome : forall {C} g o outs (f : option packer -> C) (made : treg -> option packer -> Prop) r,
    r = (let (g', x) := make_packer g o outs in (g', let* pk := x in Ok (f pk))) ->
    (forall g' pk, r = (g', Ok (f pk)) -> made g' pk) -> tracer_outcome g o outs r made.
  Proof.
    intros C g o outs f made r -> H. destruct o as [[[ds|] first]|]; cbn [tracer_outcome make_packer] in *.
    - destruct (new_packer_spec g first ds outs) as (K1 & K2 & K3). split; [intro X; rewrite (K1 X); reflexivity|]. split; [intros X Y; rewrite (K2 X Y); reflexivity|].
      intros X Y. rewrite (K3 X Y) in *. apply H. reflexivity.
    - reflexivity.
    - apply H. reflexivity.
  Qed.

  Lemma make_tendency_tracers : forall impl g inp tend diag name tid o tu,
    NoDup (keys inp) -> NoDup (keys tend) -> NoDup (keys diag) ->
    shared_known tendency_units inp tend -> shared_known (fun u => u) inp diag ->
    let r := make_tendency_component impl g inp tend diag name tid o tu in
    (bad_tendency_properties inp tend diag -> r = (g, Err EInvalidProps)) /\
    (~ bad_tendency_properties inp tend diag ->
       tracer_outcome g o (keys tend) r (fun g' pk => exists c, r = (g', Ok c) /\ t_packer c = pk /\ t_init c = true /\ t_inp c = inp /\ t_tend c = tend)).
  Proof.
    intros impl g inp tend diag name tid o tu H1 H2 H3 H4 H5 r. destruct (make_tendency_iff impl g inp tend diag name tid tu H1 H2 H3 H4 H5) as (K1 & K2).
    assert (K := tendency_tracers impl g inp tend diag name tid o tu). split.
    - intro X. rewrite (K1 X) in K. exact K.
    - intro X. destruct (K2 X) as (c & E). rewrite E in K. fold r in K.
      assert (F : t_init c = true /\ t_inp c = inp /\ t_tend c = tend).
      { unfold make_tendency_component in E. cbv zeta in E. destruct (bind _ _) as [[diag' added]|e]; [|discriminate E]. cbn in E. injection E as <-. auto. }
      apply (packer_outcome g o (keys tend) _ _ r K). intros g' pk Er. eexists. split; [exact Er|]. cbn. tauto.
  Qed.

  Lemma make_stepper_tracers : forall g inp diag outp name tid o tu,
    NoDup (keys inp) -> NoDup (keys diag) -> NoDup (keys outp) ->
    shared_known (fun u => u) inp diag -> shared_known (fun u => u) inp outp ->
    let bad := bad_stepper_properties inp diag outp \/ (tid = true /\ no_difference inp outp) in
    let r := make_stepper g inp diag outp name tid o tu in
    (bad -> r = (g, Err EInvalidProps)) /\
    (~ bad -> tracer_outcome g o (keys outp) r (fun g' pk => exists c, r = (g', Ok c) /\ s_packer c = pk /\ s_init c = true /\ s_out c = outp)).
  Proof.
    intros g inp diag outp name tid o tu H1 H2 H3 H4 H5 bad r. destruct (make_stepper_iff g inp diag outp name tid tu H1 H2 H3 H4 H5) as (K1 & K2). fold bad in K1, K2.
    assert (K := stepper_tracers g inp diag outp name tid o tu). split.
    - intro X. rewrite (K1 X) in K. exact K.
    - intro X. destruct (K2 X) as (c & E). rewrite E in K. fold r in K.
      assert (F : s_init c = true /\ s_out c = outp).
      { unfold make_stepper in E. destruct (bind _ _) as [[[inp' diag'] added]|e]; [|discriminate E]. cbn in E. injection E as <-. auto. }
      apply (packer_outcome g o (keys outp) _ _ r K). intros g' pk Er. eexists. split; [exact Er|]. cbn. tauto.
  Qed.
End Main.
