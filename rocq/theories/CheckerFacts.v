(** Lemmas about the checkers of Components.v. *)
From Coq Require Import String List Bool Arith ZArith.
From Verif Require Import Prelude PreludeFacts ArithM NdArray Units DataArrayM SpecArrays RestoreFacts
  UnitsFacts SpecComponents Components.
Import ListNotations.
Open Scope string_scope.
Open Scope nat_scope.
Open Scope list_scope.

Lemma raise_if_err : forall b e e', raise_if b e = Err e' <-> b = true /\ e = e'.
Proof. intros [] e e'; simpl; split; intros H; try discriminate; try tauto; [injection H; auto|destruct H as [_ ->]; auto|destruct H; discriminate]. Qed.

Lemma raise_if_ok : forall b e, raise_if b e = Ok tt <-> b = false.
Proof. intros [] e; simpl; split; congruence. Qed.

Lemma raise_if_cases : forall b e, raise_if b e = Ok tt \/ raise_if b e = Err e.
Proof. intros [] e; simpl; auto. Qed.

(** A check over all entries that accumulates nothing. *)
Lemma foldM_unit_ok : forall {B} (f : B -> res unit) l,
  foldM (fun _ x => f x) l tt = Ok tt <-> forall x, In x l -> f x = Ok tt.
Proof.
  induction l as [|x l IH]; simpl; split; intros H; auto.
  - intros y [].
  - apply bind_ok in H as ([] & Hx & H). intros y [<-|Hy]; auto. apply IH; auto.
  - rewrite (H x (or_introl eq_refl)). simpl. apply IH. auto.
Qed.

Lemma foldM_unit_err : forall {B} (f : B -> res unit) l e,
  (forall x, In x l -> f x = Ok tt \/ f x = Err e) ->
  foldM (fun _ x => f x) l tt = Err e <-> exists x, In x l /\ f x = Err e.
Proof.
  induction l as [|x l IH]; simpl; intros e Hd; split; intros H; try discriminate.
  - destruct H as (y & [] & _).
  - apply bind_err in H as [H|(a & Ha & H)]; [eauto|]. destruct a. apply IH in H as (y & Hy & E); eauto.
  - destruct H as (y & [<-|Hy] & E).
    + rewrite E; reflexivity.
    + destruct (Hd x (or_introl eq_refl)) as [->| ->]; simpl; auto. apply IH; eauto.
Qed.

Lemma foldM_unit_dec : forall {B} (f : B -> res unit) l e,
  (forall x, In x l -> f x = Ok tt \/ f x = Err e) ->
  foldM (fun _ x => f x) l tt = Ok tt \/ foldM (fun _ x => f x) l tt = Err e.
Proof.
  induction l as [|x l IH]; simpl; intros e Hd; auto.
  destruct (Hd x (or_introl eq_refl)) as [->| ->]; simpl; auto.
Qed.

Lemma wanted_alias_of : forall outp inp name p al, In (name, p) outp ->
  In al (wanted_aliases inp (name, p)) -> alias_of outp inp name al.
Proof.
  intros outp inp name p al Hin H. split.
  - apply in_map_iff. exists (name, p); auto.
  - unfold wanted_aliases in H; simpl in H. apply in_app_iff in H as [H|H].
    + left. destruct (p_alias p) as [b|] eqn:E; simpl in H; [destruct H as [->|[]]|contradiction]. eauto.
    + right. destruct (dget name inp) as [q|]; [|contradiction].
      destruct (p_alias q) as [b|] eqn:E; simpl in H; [destruct H as [->|[]]|contradiction]. eauto.
Qed.

Lemma alias_of_wanted : forall outp inp name al, alias_of outp inp name al ->
  exists p, In (name, p) outp /\ In al (wanted_aliases inp (name, p)).
Proof.
  intros outp inp name al (Hk & [(p & Hin & E)|(q & Hq & E)]).
  - exists p; split; auto. unfold wanted_aliases; simpl. rewrite E. left; auto.
  - apply in_map_iff in Hk as ((n & p) & En & Hin). simpl in En; subst n.
    exists p; split; auto. unfold wanted_aliases; simpl. rewrite Hq, E.
    apply in_app_iff; right; left; auto.
Qed.

Lemma alias_of_NoDup : forall outp inp name p al, NoDup (keys outp) -> In (name, p) outp ->
  alias_of outp inp name al -> In al (wanted_aliases inp (name, p)).
Proof.
  intros outp inp name p al Hnd Hin H. apply alias_of_wanted in H as (p' & Hin' & H).
  pose proof (dget_NoDup_In _ _ _ Hnd Hin) as E1. pose proof (dget_NoDup_In _ _ _ Hnd Hin') as E2.
  rewrite E1 in E2; injection E2 as <-. auto.
Qed.

Lemma missing_iff : forall {V} outp inp ign (raw : dict V), NoDup (keys outp) ->
  existsb (fun np => negb (dmem (fst np) raw) && negb (mem (fst np) ign) &&
                     negb (existsb (fun al => dmem al raw) (wanted_aliases inp np))) outp = true
  <-> output_missing outp inp ign raw.
Proof.
  intros V outp inp ign raw Hnd. rewrite existsb_exists. split.
  - intros ((name & p) & Hin & H). simpl in H.
    apply andb_true_iff in H as [H H3]. apply andb_true_iff in H as [H1 H2].
    apply negb_true_iff, dmem_false in H1. apply negb_true_iff, mem_false in H2. apply negb_true_iff in H3.
    exists name. split; [apply in_map_iff; exists (name, p); auto|]. split; auto.
    intros [Hi|(al & Hal & Hi)]; auto.
    apply alias_of_NoDup with (p := p) in Hal; auto.
    assert (existsb (fun al => dmem al raw) (wanted_aliases inp (name, p)) = true); [|congruence].
    apply existsb_exists. exists al; split; auto. apply dmem_In; auto.
  - intros (name & Hk & Hni & Hna).
    apply in_map_iff in Hk as ((n & p) & En & Hin). simpl in En; subst n.
    exists (name, p); split; auto. simpl.
    apply andb_true_iff; split; [apply andb_true_iff; split|].
    + apply negb_true_iff, dmem_false. intros Hi; apply Hna; left; auto.
    + apply negb_true_iff, mem_false; auto.
    + apply negb_true_iff. destruct (existsb _ _) eqn:E; auto. exfalso.
      apply existsb_exists in E as (al & Hal & Hm). apply Hna. right. exists al; split.
      * eapply wanted_alias_of; eauto.
      * apply dmem_In; auto.
Qed.

Lemma extra_iff : forall {V} outp inp (raw : dict V),
  existsb (fun k => negb (mem k (keys outp ++ flat_map (wanted_aliases inp) outp))) (keys raw) = true
  <-> output_extra outp inp raw.
Proof.
  intros V outp inp raw. rewrite existsb_exists. split.
  - intros (k & Hk & H). apply negb_true_iff, mem_false in H. exists k. split; auto. split.
    + intros Hi; apply H, in_app_iff; auto.
    + intros name Hal. apply alias_of_wanted in Hal as (p & Hin & Hal).
      apply H, in_app_iff; right. apply in_flat_map. eauto.
  - intros (k & Hk & Hnk & Hna). exists k; split; auto.
    apply negb_true_iff, mem_false. intros Hi. apply in_app_iff in Hi as [Hi|Hi]; auto.
    apply in_flat_map in Hi as ((name & p) & Hin & Hal). eapply Hna, wanted_alias_of; eauto.
Qed.

Lemma check_outputs_iff : forall {V} outp inp ign (raw : dict V), NoDup (keys outp) ->
  (check_outputs outp inp ign raw = Err EMissingOutput <-> output_missing outp inp ign raw) /\
  (check_outputs outp inp ign raw = Err EExtraOutput <->
     ~ output_missing outp inp ign raw /\ output_extra outp inp raw) /\
  (check_outputs outp inp ign raw = Ok tt <->
     ~ output_missing outp inp ign raw /\ ~ output_extra outp inp raw).
Proof.
  intros V outp inp ign raw Hnd. rewrite <- (missing_iff outp inp ign raw Hnd), <- (extra_iff outp inp raw).
  unfold check_outputs, check_missing, check_extra.
  destruct (existsb _ outp); destruct (existsb _ (keys raw)); simpl; repeat split; intros; try congruence; try tauto;
    destruct H; congruence.
Qed.

Lemma accepted_found : forall {V} outp inp ign (raw : dict V), NoDup (keys outp) ->
  check_outputs outp inp ign raw = Ok tt ->
  (forall name, In name (keys outp) -> forall al, ~ alias_of outp inp name al) ->
  forall name, In name (keys outp) -> ~ In name ign ->
    out_key outp inp name = name /\ exists a, dget (out_key outp inp name) raw = Some a.
Proof.
  intros V outp inp ign raw Hnd H Hna name Hk Hi.
  apply check_outputs_iff in H as [H _]; auto.
  assert (E : out_key outp inp name = name).
  { unfold out_key. destruct (dget name outp) as [p|] eqn:Ep; auto.
    destruct (p_alias p) as [al|] eqn:Ea.
    - exfalso. apply (Hna name Hk al). split; auto. left. exists p; split; auto. apply dget_In; auto.
    - destruct (dget name inp) as [q|] eqn:Eq; auto. unfold raw_name.
      destruct (p_alias q) as [al|] eqn:Eb; auto. exfalso. apply (Hna name Hk al). split; auto. right; eauto. }
  split; auto. rewrite E. apply In_keys_dget.
  destruct (In_dec_str name (keys raw)) as [|Hn]; auto. exfalso. apply H. exists name. repeat split; auto.
  intros [|(al & Hal & _)]; auto. eapply Hna; eauto.
Qed.

(** ** Construction checks *)

Lemma overlapping_fold : forall pd seen,
  (exists l, foldM (fun seen np =>
                     match p_alias (snd np) with
                     | Some al => if mem al seen then Err EInvalidProps else Ok (al :: seen)
                     | None => Ok seen
                     end) pd seen = Ok l /\ NoDup (keys pd) /\
     (forall n p al, In (n, p) pd -> p_alias p = Some al -> ~ In al seen) /\ ~ shared_alias pd)
  \/ (foldM (fun seen np =>
                     match p_alias (snd np) with
                     | Some al => if mem al seen then Err EInvalidProps else Ok (al :: seen)
                     | None => Ok seen
                     end) pd seen = Err EInvalidProps /\
      ((exists n p al, In (n, p) pd /\ p_alias p = Some al /\ In al seen) \/ shared_alias pd))
  \/ ~ NoDup (keys pd).
Proof.
  induction pd as [|[n p] pd IH]; intros seen; simpl.
  - left. exists seen. repeat split; [constructor|intros ? ? ? []|]. intros (n1 & p1 & n2 & p2 & al & [] & _).
  - destruct (p_alias p) as [al|] eqn:Ea.
    + destruct (mem al seen) eqn:Em; simpl.
      * right; left. split; auto. left. exists n, p, al. apply mem_In in Em. auto.
      * apply mem_false in Em. destruct (IH (al :: seen)) as [(l & Hf & Hnd & Hs & Hsh)|[(Hf & H)|H]].
        -- destruct (In_dec_str n (keys pd)) as [Hk|Hk]; [right; right; intros X; inversion X; auto|].
           left. exists l. split; auto. split; [constructor; auto|]. split.
           ++ intros n' p' al' [E|Hin] Ha; [injection E as <- <-; congruence|].
              intros Hc. eapply Hs; eauto. right; auto.
           ++ intros (n1 & p1 & n2 & p2 & al' & [E1|H1] & [E2|H2] & Hne & A1 & A2).
              ** congruence.
              ** injection E1 as <- <-. eapply Hs; eauto. left; congruence.
              ** injection E2 as <- <-. eapply Hs; eauto. left; congruence.
              ** apply Hsh. exists n1, p1, n2, p2, al'; auto.
        -- destruct (In_dec_str n (keys pd)) as [Hk|Hk]; [right; right; intros X; inversion X; auto|].
           right; left. split; auto. destruct H as [(n' & p' & al' & Hin & Ha & [<-|Hs])|H].
           ++ right. exists n, p, n', p', al. repeat split; simpl; auto.
              intros ->. apply Hk. apply in_map_iff. exists (n', p'); auto.
           ++ left. exists n', p', al'; auto.
           ++ right. destruct H as (n1 & p1 & n2 & p2 & al' & H1 & H2 & H3).
              exists n1, p1, n2, p2, al'; simpl; tauto.
        -- right; right. intros X; inversion X; auto.
    + destruct (IH seen) as [(l & Hf & Hnd & Hs & Hsh)|[(Hf & H)|H]]; simpl.
      * destruct (In_dec_str n (keys pd)) as [Hk|Hk]; [right; right; intros X; inversion X; auto|].
        left. exists l. split; auto. split; [constructor; auto|]. split.
        -- intros n' p' al' [E|Hin] Ha; [injection E as <- <-; congruence|]. eapply Hs; eauto.
        -- intros (n1 & p1 & n2 & p2 & al' & [E1|H1] & [E2|H2] & Hne & A1 & A2);
             [congruence|injection E1 as <- <-; congruence|injection E2 as <- <-; congruence|].
           apply Hsh. exists n1, p1, n2, p2, al'; auto.
      * right; left. split; auto. destruct H as [(n' & p' & al' & Hin & H)|H].
        -- left. exists n', p', al'; auto.
        -- right. destruct H as (n1 & p1 & n2 & p2 & al' & H1 & H2 & H3).
           exists n1, p1, n2, p2, al'; simpl; tauto.
      * right; right. intros X; inversion X; auto.
Qed.

Lemma overlapping_iff : forall pd, NoDup (keys pd) ->
  (check_overlapping_aliases pd = Ok tt /\ ~ shared_alias pd) \/
  (check_overlapping_aliases pd = Err EInvalidProps /\ shared_alias pd).
Proof.
  intros pd Hnd. unfold check_overlapping_aliases.
  destruct (overlapping_fold pd []) as [(l & -> & _ & _ & H)|[(-> & [(n & p & al & _ & _ & [])|H])|H]];
    [left|right|contradiction]; auto.
Qed.

Lemma input_entries_iff : forall inp,
  (foldM (fun _ np => match p_units (snd np), p_dims (snd np) with
                      | Some _, Some _ => Ok tt
                      | _, _ => Err EInvalidProps
                      end) inp tt = Ok tt /\ ~ incomplete_input inp) \/
  (foldM (fun (_ : unit) np => match p_units (snd np), p_dims (snd np) with
                      | Some _, Some _ => Ok tt
                      | _, _ => Err EInvalidProps
                      end) inp tt = Err EInvalidProps /\ incomplete_input inp).
Proof.
  intros inp.
  set (f := fun np : string * props => match p_units (snd np), p_dims (snd np) with
                      | Some _, Some _ => Ok tt | _, _ => Err EInvalidProps end).
  change (fun (_ : unit) np => match p_units (snd np), p_dims (snd np) with
                      | Some _, Some _ => Ok tt | _, _ => Err EInvalidProps end) with (fun (_ : unit) x => f x).
  assert (Hd : forall x, In x inp -> f x = Ok tt \/ f x = Err EInvalidProps).
  { intros x _. unfold f. destruct (p_units (snd x)), (p_dims (snd x)); auto. }
  destruct (foldM_unit_dec f inp EInvalidProps Hd) as [H|H]; [left|right]; split; auto.
  - intros (name & p & Hin & Hp). rewrite foldM_unit_ok in H. specialize (H _ Hin). unfold f in H; simpl in H.
    destruct (p_units p), (p_dims p); try discriminate. destruct Hp; discriminate.
  - apply foldM_unit_err in H as ((name & p) & Hin & Hp); auto. exists name, p. split; auto.
    unfold f in Hp; simpl in Hp. destruct (p_units p), (p_dims p); try discriminate; auto.
Qed.

Lemma check_input_iff : forall inp, NoDup (keys inp) ->
  (check_input_properties inp = Ok tt /\ ~ incomplete_input inp /\ ~ shared_alias inp) \/
  (check_input_properties inp = Err EInvalidProps /\ (incomplete_input inp \/ shared_alias inp)).
Proof.
  intros inp Hnd. unfold check_input_properties.
  destruct (input_entries_iff inp) as [(-> & H1)|(-> & H1)]; simpl; [|right; auto].
  destruct (overlapping_iff inp Hnd) as [(-> & H2)|(-> & H2)]; [left|right]; auto.
Qed.

Lemma output_entries_iff : forall outp inp,
  (check_output_entries outp inp = Ok tt /\ ~ incomplete_output outp inp) \/
  (check_output_entries outp inp = Err EInvalidProps /\ incomplete_output outp inp).
Proof.
  intros outp inp. unfold check_output_entries.
  set (f := fun np : string * props => match p_units (snd np) with
           | None => Err EInvalidProps
           | Some _ => match p_dims (snd np) with
               | Some _ => Ok tt
               | None => if dmem (fst np) inp then Ok tt else Err EInvalidProps
               end end).
  change (fun (_ : unit) (np : string * props) => match p_units (snd np) with
           | None => Err EInvalidProps
           | Some _ => match p_dims (snd np) with
               | Some _ => Ok tt
               | None => if dmem (fst np) inp then Ok tt else Err EInvalidProps
               end end) with (fun (_ : unit) x => f x).
  assert (Hd : forall x, In x outp -> f x = Ok tt \/ f x = Err EInvalidProps).
  { intros x _. unfold f. destruct (p_units (snd x)), (p_dims (snd x)); auto. destruct (dmem (fst x) inp); auto. }
  destruct (foldM_unit_dec f outp EInvalidProps Hd) as [H|H]; [left|right]; split; auto.
  - intros (name & p & Hin & Hp). rewrite foldM_unit_ok in H. specialize (H _ Hin). unfold f in H; simpl in H.
    destruct (p_units p); [|discriminate]. destruct Hp as [Hp|(Hp & Hn)]; [discriminate|].
    rewrite Hp in H. apply dmem_false in Hn. rewrite Hn in H. discriminate.
  - apply foldM_unit_err in H as ((name & p) & Hin & Hp); auto. exists name, p. split; auto.
    unfold f in Hp; simpl in Hp. destruct (p_units p); auto. right.
    destruct (p_dims p); [discriminate|]. split; auto. destruct (dmem name inp) eqn:E; [discriminate|].
    apply dmem_false; auto.
Qed.

Lemma compatible_iff : forall {R : Registry} f inp outp,
  ~ incomplete_input inp -> ~ incomplete_output outp inp -> shared_known f inp outp ->
  (check_compatible f inp outp = Ok tt /\ ~ clash f inp outp) \/
  (check_compatible f inp outp = Err EInvalidProps /\ clash f inp outp).
Proof.
  intros R f inp outp Hi Ho Hk. unfold check_compatible.
  set (g := fun np : string * props => match dget (fst np) outp with
             | None => Ok tt
             | Some q => match p_units (snd np), p_units q with
                 | Some u1, Some u2 =>
                     let* b := units_are_compatible (f u1) u2 in if b then Ok tt else Err EInvalidProps
                 | _, _ => Err EKey
                 end end).
  change (foldM _ inp tt) with (foldM (fun (_ : unit) x => g x) inp tt).
  assert (Hg : forall name p, In (name, p) inp ->
    (g (name, p) = Ok tt /\ forall u1 u2 x1 x2 q, dget name outp = Some q -> p_units p = Some u1 -> p_units q = Some u2 ->
        parse (f u1) = Some x1 -> parse u2 = Some x2 -> u_dim x1 = u_dim x2) \/
    (g (name, p) = Err EInvalidProps /\ exists u1 u2 x1 x2 q, dget name outp = Some q /\ p_units p = Some u1 /\
        p_units q = Some u2 /\ parse (f u1) = Some x1 /\ parse u2 = Some x2 /\ u_dim x1 <> u_dim x2)).
  { intros name p Hin. unfold g; simpl. destruct (dget name outp) as [q|] eqn:Eq; [|left; split; auto; congruence].
    destruct (p_units p) as [u1|] eqn:E1; [|exfalso; apply Hi; exists name, p; auto].
    destruct (p_units q) as [u2|] eqn:E2.
    2:{ exfalso. apply Ho. exists name, q. split; auto. apply dget_In; auto. }
    destruct (Hk name u1 u2) as ((x1 & H1) & (x2 & H2)); [exists p, q; auto|].
    unfold units_are_compatible, parseE. rewrite H1, H2. simpl.
    destruct (udim_eqb x1 x2) eqn:Ed.
    - left. split; auto. intros. apply udim_eqb_eq in Ed. congruence.
    - right. split; auto. exists u1, u2, x1, x2, q. repeat split; auto. intros E. apply udim_eqb_eq in E. congruence. }
  assert (Hd : forall x, In x inp -> g x = Ok tt \/ g x = Err EInvalidProps).
  { intros [name p] Hin. destruct (Hg name p Hin) as [[H _]|[H _]]; auto. }
  destruct (foldM_unit_dec g inp EInvalidProps Hd) as [H|H]; [left|right]; split; auto.
  - intros (name & u1 & u2 & x1 & x2 & (p & q & Hin & Hq & U1 & U2) & P1 & P2 & Hne).
    rewrite foldM_unit_ok in H. specialize (H _ Hin).
    destruct (Hg name p Hin) as [[_ Hx]|[Hx _]]; [|congruence]. apply Hne. eapply Hx; eauto.
  - apply foldM_unit_err in H as ((name & p) & Hin & Hp); auto.
    destruct (Hg name p Hin) as [[Hx _]|[_ (u1 & u2 & x1 & x2 & q & Q & U1 & U2 & P1 & P2 & Hne)]]; [congruence|].
    exists name, u1, u2, x1, x2. repeat split; auto. exists p, q; auto.
Qed.
