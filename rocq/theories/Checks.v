(** Boolean checks used to show that concrete cases meet the hypotheses of the
    property theorems. *)
From Coq Require Import String List Bool Arith ZArith Lia.
From Verif Require Import Prelude PreludeFacts ArithM NdArray Units DataArrayM SpecArrays.
Import ListNotations.
Open Scope string_scope.
Open Scope nat_scope.
Open Scope list_scope.

Fixpoint nodupb (l : list string) : bool :=
  match l with [] => true | x :: r => negb (mem x r) && nodupb r end.

Lemma nodupb_ok : forall l, nodupb l = true -> NoDup l.
Proof.
  induction l as [|x l IH]; simpl; intros H; constructor.
  - apply andb_true_iff in H as [H _]. apply negb_true_iff, mem_false in H; auto.
  - apply andb_true_iff in H as [_ H]; auto.
Qed.

Definition wf_dab {T} (a : da T) : bool :=
  Nat.eqb (length (dims a)) (length (shape (arr a))) && nodupb (dims a) &&
  Nat.eqb (length (data (arr a))) (prod (shape (arr a))).

Lemma wf_dab_ok : forall {T} (a : da T), wf_dab a = true -> wf_da a.
Proof.
  intros T a H. unfold wf_dab in H. apply andb_true_iff in H as [H H3]. apply andb_true_iff in H as [H1 H2].
  apply Nat.eqb_eq in H1, H3. apply nodupb_ok in H2. repeat split; auto.
Qed.

Definition wf_stateb {T} (st : state T) : bool :=
  forallb (fun kv => match snd kv with
                     | VDA a => wf_dab a && negb (mem "*" (dims a))
                     | VTime _ => true
                     end) st.

Lemma wf_stateb_ok : forall {T} (st : state T), wf_stateb st = true -> wf_state st.
Proof.
  intros T st H name a Hg. apply dget_In in Hg. unfold wf_stateb in H. rewrite forallb_forall in H.
  specialize (H _ Hg); simpl in H. apply andb_true_iff in H as [H1 H2].
  split; [apply wf_dab_ok; auto|]. apply negb_true_iff, mem_false in H2; auto.
Qed.

Definition one_starb (ds : list string) : bool :=
  match index_of "*" ds with
  | None => true
  | Some i => negb (mem "*" (skipn (S i) ds))
  end.

Lemma one_starb_ok : forall ds, one_starb ds = true -> one_star ds.
Proof.
  intros ds H. unfold one_starb in H. destruct (index_of "*" ds) as [i|] eqn:E.
  - right. revert i E H. induction ds as [|x ds IH]; intros i E H; [discriminate|].
    cbn [index_of] in E. destruct (String.eqb "*" x) eqn:Ex.
    + injection E as <-. apply String.eqb_eq in Ex. subst x. exists [], ds. split; auto. simpl in H.
      apply negb_true_iff, mem_false in H. auto.
    + destruct (index_of "*" ds) as [j|]; [|discriminate]. injection E as <-.
      destruct (IH j eq_refl) as (pre & post & -> & Hn); [simpl in *; auto|].
      exists (x :: pre), post. split; auto. simpl. intros [Hx|Hx]; auto.
      subst x. rewrite String.eqb_refl in Ex; discriminate.
  - left. apply index_of_none; auto.
Qed.

Definition wf_pdictb (pd : pdict) : bool :=
  forallb (fun np => match p_dims (snd np) with Some ds => one_starb ds | None => true end) pd.

Lemma wf_pdictb_ok : forall pd, wf_pdictb pd = true -> wf_pdict pd.
Proof.
  intros pd H name p ds Hi Hd. unfold wf_pdictb in H. rewrite forallb_forall in H.
  specialize (H _ Hi); simpl in H. rewrite Hd in H. apply one_starb_ok; auto.
Qed.

Lemma is_ok_ex : forall {B} (r : res B), is_ok r = true -> exists b, r = Ok b.
Proof. intros B [b|e] H; [eauto|discriminate]. Qed.

Definition completeb {T} (st : state T) (pd : pdict) : bool :=
  forallb (fun np => match p_dims (snd np), p_units (snd np), dget (fst np) st with
                     | Some _, Some _, Some (VDA _) => true
                     | _, _, _ => false
                     end) pd.

Lemma completeb_ok : forall {T} (st : state T) pd, completeb st pd = true -> complete st pd.
Proof.
  intros T st pd H name p Hi. unfold completeb in H. rewrite forallb_forall in H.
  specialize (H _ Hi); simpl in H. destruct (p_dims p), (p_units p); try discriminate.
  destruct (dget name st) as [[a|]|]; try discriminate. repeat split; eauto.
Qed.

Definition known_unitsb {R : Registry} {T} (st : state T) (pd : pdict) : bool :=
  forallb (fun np =>
     match p_units (snd np) with Some u => is_valid_unit u | None => true end &&
     match dget (fst np) st with
     | Some (VDA a) => match dget "units" (attrs a) with Some o => is_valid_unit o | None => true end
     | _ => true
     end) pd.

Lemma known_unitsb_ok : forall {R : Registry} {T} (st : state T) pd, known_unitsb st pd = true -> known_units st pd.
Proof.
  intros R T st pd H name p Hi. unfold known_unitsb in H. rewrite forallb_forall in H.
  specialize (H _ Hi); simpl in H. apply andb_true_iff in H as [H1 H2]. unfold is_valid_unit in *. split.
  - intros u Hu. rewrite Hu in H1. destruct (parse u); [eauto|discriminate].
  - intros a own Ha Ho. rewrite Ha, Ho in H2. destruct (parse own); [eauto|discriminate].
Qed.

Definition no_repeatedb {T} (st : state T) (pd : pdict) : bool :=
  forallb (fun np => match p_dims (snd np) with
                     | Some ds => nodupb (expand_dims (wildcard_dims st pd) ds)
                     | None => true
                     end) pd.

Lemma no_repeatedb_ok : forall {T} (st : state T) pd, no_repeatedb st pd = true -> no_repeated_dims st pd.
Proof.
  intros T st pd H name p ds Hi Hd. unfold no_repeatedb in H. rewrite forallb_forall in H.
  specialize (H _ Hi); simpl in H. rewrite Hd in H. apply nodupb_ok; auto.
Qed.
