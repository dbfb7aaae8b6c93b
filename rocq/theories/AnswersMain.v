(** What calls do with the outputs that array_call returns (C09). *)
From Coq Require Import String List Bool Arith ZArith Lia.
From Verif Require Import Prelude PreludeFacts ArithM NdArray Units DataArrayM Wildcard GetNp Restore Checks Tracers SpecComponents Components CheckerFacts SpecAnswers.
Import ListNotations.
Open Scope string_scope.
Open Scope nat_scope.
Open Scope list_scope.

Lemma acc_ok : forall {X} (x : X), accepted (Ok x).
Proof. split; discriminate. Qed.
Lemma acc_err : forall {X} e, e <> EMissingOutput -> e <> EExtraOutput -> accepted (X:=X) (Err e).
Proof. intros X e H1 H2. split; congruence. Qed.
Lemma acc_bind : forall {X Y} (r : res X) (f : X -> res Y), accepted r -> (forall x, accepted (f x)) -> accepted (let* x := r in f x).
Proof. intros X Y [x|e] f H Hf; cbn; [apply Hf|]. destruct H. split; congruence. Qed.
Lemma acc_fold : forall {X S} (f : S -> X -> res S) l, (forall s x, accepted (f s x)) -> forall s, accepted (foldM f l s).
Proof. intros X S f l Hf. induction l as [|x l IH]; intro s; cbn [foldM]; [apply acc_ok|]. apply acc_bind; [apply Hf|exact IH]. Qed.
Lemma acc_map : forall {X Y} (f : X -> res Y) l, (forall x, accepted (f x)) -> accepted (mapM f l).
Proof. intros X Y f l Hf. induction l as [|x l IH]; cbn [mapM]; [apply acc_ok|]. apply acc_bind; [apply Hf|intro y]. apply acc_bind; [exact IH|intro; apply acc_ok]. Qed.

Ltac headof t := match t with ?f _ => headof f | _ => t end.
Ltac acc := repeat (cbv zeta; first
  [ apply acc_ok | apply acc_err; discriminate | apply acc_bind; [|intro] | apply acc_fold; intros ? ? | apply acc_map; intro
  | match goal with
    | |- accepted (match ?x with _ => _ end) => destruct x
    | |- accepted (let (_, _) := ?x in _) => destruct x
    | |- accepted ?r => let h := headof r in unfold h
    end ]).

Lemma acc_fill : forall ds dl wn seen, accepted (fill_dims ds dl wn seen).
Proof.
  induction ds as [|d ds IH]; intros dl wn seen; cbn [fill_dims]; [apply acc_ok|].
  destruct ((d =? "*")%string && negb seen).
  - destruct wn; [|apply acc_err; discriminate]. apply acc_bind; [acc|intro]. apply acc_bind; [apply IH|intros []; apply acc_ok].
  - apply acc_bind; [acc|intro]. apply acc_bind; [apply IH|intros []; apply acc_ok].
Qed.

Ltac acc2 := repeat (cbv zeta; first
  [ apply acc_ok | apply acc_fill | apply acc_err; discriminate | apply acc_bind; [|intro] | apply acc_fold; intros ? ? | apply acc_map; intro
  | match goal with
    | |- accepted (match ?x with _ => _ end) => destruct x
    | |- accepted (let (_, _) := ?x in _) => destruct x
    | |- accepted ?r => let h := headof r in unfold h
    end ]).

Section Main.
  Context {T : Type} {A : Arith T} {R : Registry}.

  Lemma acc_restore : forall raw outp (st : state T) inp ign im, accepted (restore_data_arrays_with_properties raw outp st inp ign im).
  Proof.
    intros. unfold restore_data_arrays_with_properties. cbv zeta. apply acc_bind; [acc|intros [wn dl]]. apply acc_bind; [acc|intro dd]. apply acc_bind; [|intros []; apply acc_ok].
    apply acc_fold. intros [d1 d2] [n ds]. unfold restore_step. acc2.
  Qed.
  Lemma acc_insert : forall c dt raw (rn rd : dict (nd T)), accepted (stepper_insert c dt raw rn rd).
  Proof. intros. acc. Qed.

  Lemma acc_check : forall {V X} outp inp ign (raw : dict V) (k : res X) (next : res X -> Prop), NoDup (keys outp) -> next k ->
    checked outp inp ign raw next (let* _ := check_outputs outp inp ign raw in k).
  Proof.
    intros V X outp inp ign raw k next N Hk. destruct (check_outputs_iff outp inp ign raw N) as (K1 & K2 & K3).
    split; [intro H; apply K1 in H; rewrite H; reflexivity|]. split; [intros H1 H2; rewrite (proj2 K2 (conj H1 H2)); reflexivity|].
    intros H1 H2. rewrite (proj2 K3 (conj H1 H2)). exact Hk.
  Qed.

  (** Of two checks in a row. *)
  Lemma tendency_checked : forall g c (f : dict (rval T) -> res (dict (nd T) * dict (nd T))) seen st,
    t_packer c = None -> NoDup (keys (t_tend c)) -> NoDup (keys (t_diag c)) ->
    let (seen', r) := tendency_call g c (fun s raw => (s ++ [raw], f raw)) seen st in
    (seen' = seen /\ exists e, r = Err e) \/
    exists raw, seen' = seen ++ [raw] /\
      match f raw with
      | Err e => r = Err e
      | Ok (rt, rd) => checked (t_tend c) (t_inp c) [] rt (checked (t_diag c) (t_inp c) (t_added c) rd accepted) r
      end.
  Proof.
    intros g c f seen st Hp N1 N2. unfold tendency_call. destruct (let* _ := raise_if _ _ in _) as [raw|e]; [|left; eauto].
    right. exists raw. split; [reflexivity|]. destruct (f raw) as [[rt rd]|e]; [|reflexivity]. cbn [bind]. unfold tendency_finish. rewrite Hp. cbn [unpack_tracers bind fst snd].
    apply acc_check; [exact N1|]. apply acc_check; [exact N2|]. apply acc_bind; [apply acc_restore|intro]. apply acc_bind; [apply acc_restore|intro]. apply acc_ok.
  Qed.

  Lemma diagnostic_checked : forall c (f : dict (rval T) -> res (dict (nd T))) seen st, NoDup (keys (d_diag c)) ->
    let (seen', r) := diagnostic_call c (fun s raw => (s ++ [raw], f raw)) seen st in
    (seen' = seen /\ exists e, r = Err e) \/
    exists raw, seen' = seen ++ [raw] /\
      match f raw with
      | Err e => r = Err e
      | Ok rd => checked (d_diag c) (d_inp c) [] rd accepted r
      end.
  Proof.
    intros c f seen st N1. unfold diagnostic_call. destruct (let* _ := raise_if _ _ in _) as [raw|e]; [|left; eauto].
    right. exists raw. split; [reflexivity|]. destruct (f raw) as [rd|e]; [|reflexivity]. cbn [bind]. unfold diagnostic_finish.
    apply acc_check; [exact N1|]. apply acc_restore.
  Qed.

  Lemma stepper_checked : forall g c (f : dict (rval T) -> Z -> res (dict (nd T) * dict (nd T))) seen st dt,
    s_packer c = None -> NoDup (keys (s_diag c)) -> NoDup (keys (s_out c)) ->
    let (seen', r) := stepper_call g c (fun s raw dt => (s ++ [raw], f raw dt)) seen st dt in
    (seen' = seen /\ exists e, r = Err e) \/
    exists raw, seen' = seen ++ [raw] /\
      match f raw dt with
      | Err e => r = Err e
      | Ok (rd, rn) => checked (s_diag c) (s_inp c) (s_ign c) rd (checked (s_out c) (s_inp c) [] rn accepted) r
      end.
  Proof.
    intros g c f seen st dt Hp N1 N2. unfold stepper_call. destruct (let* _ := raise_if _ _ in _) as [raw|e]; [|left; eauto].
    right. exists raw. split; [reflexivity|]. destruct (f raw dt) as [[rd rn]|e]; [|reflexivity]. cbn [bind]. unfold stepper_finish. rewrite Hp. cbn [unpack_tracers bind].
    apply acc_check; [exact N1|]. apply acc_check; [exact N2|]. apply acc_bind; [destruct (s_tid c); [apply acc_insert|apply acc_ok]|intro]. apply acc_bind; [apply acc_restore|intro]. apply acc_bind; [apply acc_restore|intro]. apply acc_ok.
  Qed.

  (** With tracers: the array of the tracers is taken out first; without it the call fails. *)
  Lemma tendency_tracers_answered : forall {U} g c p (ac : U -> dict (rval T) -> U * res (dict (nd T) * dict (nd T))) u u' st r,
    t_packer c = Some p -> NoDup (keys (t_tend c)) -> NoDup (keys (t_diag c)) -> tendency_call g c ac u st = (u', Ok r) ->
    exists raw rt rd, ac u raw = (u', Ok (rt, rd)) /\ In "tracers" (keys rt) /\
      (~ output_missing (t_tend c) (t_inp c) [] (ddel "tracers" rt) /\ ~ output_extra (t_tend c) (t_inp c) (ddel "tracers" rt)) /\
      (~ output_missing (t_diag c) (t_inp c) (t_added c) rd /\ ~ output_extra (t_diag c) (t_inp c) rd).
  Proof.
    intros U g c p ac u u' st r Hp N1 N2 H. unfold tendency_call in H.
    destruct (let* _ := raise_if _ _ in _) as [raw|e]; [|congruence]. exists raw.
    destruct (ac u raw) as [u1 o]. injection H as <- H. apply bind_ok in H as ((rt & rd) & -> & H).
    exists rt, rd. split; [reflexivity|]. unfold tendency_finish in H. rewrite Hp in H. cbn [unpack_tracers fst snd] in H.
    apply bind_ok in H as ((tr & rt') & E & H). apply bind_ok in E as (t & E0 & E). apply bind_ok in E as (out & _ & E). injection E as <- <-.
    apply bind_ok in H as ([] & C1 & H). apply bind_ok in H as ([] & C2 & H).
    apply check_outputs_iff in C1; auto. apply check_outputs_iff in C2; auto.
    split. { unfold dgetE in E0. destruct (dget "tracers" rt) eqn:Ed; [|discriminate E0]. apply dmem_In. unfold dmem. rewrite Ed. reflexivity. }
    split; assumption.
  Qed.

  Lemma stepper_tracers_answered : forall {U} g c p (ac : U -> dict (rval T) -> Z -> U * res (dict (nd T) * dict (nd T))) u u' st dt r,
    s_packer c = Some p -> NoDup (keys (s_diag c)) -> NoDup (keys (s_out c)) -> stepper_call g c ac u st dt = (u', Ok r) ->
    exists raw rd rn, ac u raw dt = (u', Ok (rd, rn)) /\ In "tracers" (keys rn) /\
      (~ output_missing (s_diag c) (s_inp c) (s_ign c) rd /\ ~ output_extra (s_diag c) (s_inp c) rd) /\
      (~ output_missing (s_out c) (s_inp c) [] (ddel "tracers" rn) /\ ~ output_extra (s_out c) (s_inp c) (ddel "tracers" rn)).
  Proof.
    intros U g c p ac u u' st dt r Hp N1 N2 H. unfold stepper_call in H.
    destruct (let* _ := raise_if _ _ in _) as [raw|e]; [|congruence]. exists raw.
    destruct (ac u raw dt) as [u1 o]. injection H as <- H. apply bind_ok in H as ((rd & rn) & -> & H).
    exists rd, rn. split; [reflexivity|]. unfold stepper_finish in H. rewrite Hp in H. cbn [unpack_tracers] in H.
    apply bind_ok in H as ((tr & rn') & E & H). apply bind_ok in E as (t & E0 & E). apply bind_ok in E as (out & _ & E). injection E as <- <-.
    apply bind_ok in H as ([] & C1 & H). apply bind_ok in H as ([] & C2 & H).
    apply check_outputs_iff in C1; auto. apply check_outputs_iff in C2; auto.
    split. { unfold dgetE in E0. destruct (dget "tracers" rn) eqn:Ed; [|discriminate E0]. apply dmem_In. unfold dmem. rewrite Ed. reflexivity. }
    split; assumption.
  Qed.
End Main.
