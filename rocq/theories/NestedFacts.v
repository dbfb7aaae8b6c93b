(** Composites inside composites (C77). *)
From Coq Require Import String List Bool Arith ZArith QArith Qcanon Lia Permutation.
From Verif Require Import Prelude PreludeFacts ArithM NdArray NdFacts Units DataArrayM SpecUnits UnitsFacts SpecDa DaFacts
  Tracers Components Composite SpecComposite CompositeFacts CombineFacts CompositeMain SpecNested.
Import ListNotations.
Open Scope string_scope.
Open Scope nat_scope.
Open Scope list_scope.

(** ** Dictionaries *)

Lemma nodup_dupdate : forall {V} (d2 d1 : dict V), NoDup (keys d1) -> NoDup (keys (dupdate d1 d2)).
Proof.
  intros V d2. unfold dupdate. induction d2 as [|[k v] d2 IH]; intros d1 H; cbn [fold_left]; auto. apply IH. apply NoDup_dset; auto.
Qed.

Lemma nodup_merge : forall {V} (l : list (dict V)) d, NoDup (keys d) -> NoDup (keys (fold_left dupdate l d)).
Proof. intros V l. induction l as [|x l IH]; intros d H; cbn [fold_left]; auto. apply IH, nodup_dupdate; auto. Qed.

Lemma dget_merge : forall {V} X (l : list (dict V)) d, Forall (fun e => NoDup (keys e)) l ->
  dget X (fold_left dupdate l d) = match dget X (fold_left dupdate l []) with Some v => Some v | None => dget X d end.
Proof.
  intros V X l. induction l as [|x l IH]; intros d H; cbn [fold_left]; [reflexivity|]. inversion H as [|? ? Hx Hl]; subst.
  rewrite (IH (dupdate d x)), (IH (dupdate [] x)) by auto. rewrite !dget_dupdate by auto. cbn [dget].
  destruct (dget X (fold_left dupdate l [])); auto. destruct (dget X x); auto.
Qed.

(** ** Calls one after the other *)

Lemma runs_app : forall {T U O} (st : state T) (cs1 cs2 : list (U -> state T -> U * res O)) u u2 outs,
  runs st (cs1 ++ cs2) u u2 outs <-> exists u1 outs1 outs2, outs = outs1 ++ outs2 /\ runs st cs1 u u1 outs1 /\ runs st cs2 u1 u2 outs2.
Proof.
  intros T U O st cs1. induction cs1 as [|c cs1 IH]; intros cs2 u u2 outs; cbn [app]; split.
  - intros H. exists u, [], outs. split; auto. split; auto. constructor.
  - intros (u1 & o1 & o2 & -> & H1 & H2). inversion H1; subst. auto.
  - intros H. inversion H as [|? ? ? v ? td o Hc Hr]; subst. apply IH in Hr as (u1 & o1 & o2 & -> & H1 & H2).
    exists u1, (td :: o1), o2. split; auto. split; auto. econstructor; eauto.
  - intros (u1 & o1 & o2 & -> & H1 & H2). inversion H1 as [|? ? ? v ? td o Hc Hr]; subst. cbn [app]. econstructor; eauto.
    apply IH. exists u1, o, o2. auto.
Qed.

Lemma runs_det : forall {T U O} (st : state T) (cs : list (U -> state T -> U * res O)) u u1 u2 o1 o2,
  runs st cs u u1 o1 -> runs st cs u u2 o2 -> u1 = u2 /\ o1 = o2.
Proof.
  intros T U O st cs u u1 u2 o1 o2 H. revert u2 o2. induction H as [u|c cs u v u1 td outs Hc Hr IH]; intros u2 o2 H2; inversion H2 as [|? ? ? v' ? td' o Hc' Hr']; subst; auto.
  assert (v' = v /\ td' = td) as [-> ->] by (split; congruence). destruct (IH _ _ Hr') as [-> ->]. auto.
Qed.

Section Nested.
  Context {R : Registry}.
  Hypothesis Hsane : sane_registry R.

  Lemma contributions_app : forall X (l1 l2 : list (dict (da Qc))), contributions X (l1 ++ l2) = contributions X l1 ++ contributions X l2.
  Proof. intros. unfold contributions. apply flat_map_app. Qed.

  Lemma fine_contributions : forall X (outs : list outcome), Forall fine outs ->
    Forall plain_units (contributions X (map fst outs)) /\ Forall wf_da (contributions X (map fst outs)).
  Proof.
    intros X outs H. split; apply Forall_forall; intros a Ha; unfold contributions in Ha; apply in_flat_map in Ha as (t & Ht & Ha);
      apply in_map_iff in Ht as (o & <- & Ho); rewrite Forall_forall in H; destruct (H o Ho) as ((Hn & Hw) & Hp & _);
      (destruct (dget X (fst o)) eqn:E; [destruct Ha as [<-|[]]; eauto|destruct Ha]).
  Qed.

  Lemma fine_proper : forall outs : list outcome, Forall fine outs -> Forall proper (map fst outs).
  Proof. intros outs H. apply Forall_forall. intros x Hx. apply in_map_iff in Hx as (o & <- & Ho). rewrite Forall_forall in H. apply H; auto. Qed.

  (** What a composite returns. *)
  Lemma call_outs : forall {U} (cs : list (caller U)) u u' (st : state Qc) t d, tendency_composite_call cs u st = (u', Ok (t, d)) ->
    exists outs, runs st cs u u' outs /\ d = fold_left dupdate (map snd outs) [] /\
      (Forall fine outs -> fine (t, d) /\ forall X, match contributions X (map fst outs) with
                                                 | [] => dget X t = None
                                                 | a :: rest => exists r, dget X t = Some r /\ sum_of a rest r
                                                 end).
  Proof.
    intros U cs u u' st t d H. destruct (composite_sum _ _ _ _ _ _ H) as (outs & Hr & Hs). unfold tendency_composite_call in H.
    destruct (loop_get _ _ _ _ _ _ _ _ H) as (outs' & Hr' & Hd & _ & Hk). destruct (runs_det _ _ _ _ _ _ _ Hr Hr') as [_ <-].
    exists outs. split; auto. split; auto. intros Hf. specialize (Hs (fine_proper _ Hf)). split; auto.
    destruct (Hk (NoDup_nil _)) as [Hn _]. split; [|split]; cbn [fst snd].
    - split; auto. intros X a Ha. specialize (Hs X). destruct (contributions X (map fst outs)) as [|b rest] eqn:E; [congruence|].
      destruct Hs as (r & Hg & Hsum). assert (r = a) as -> by congruence. apply Hsum.
    - intros X a Ha. specialize (Hs X). destruct (contributions X (map fst outs)) as [|b rest] eqn:E; [congruence|].
      destruct Hs as (r & Hg & Hsum). assert (r = a) as -> by congruence. destruct (fine_contributions X outs Hf) as [Hp _]. rewrite E in Hp.
      inversion Hp as [|? ? (s & w & K) _]; subst. destruct Hsum as (_ & Hat & _). exists s, w. rewrite Hat. auto.
    - subst d. apply nodup_merge. constructor.
  Qed.

  (** ** Sums of sums *)

  Definition uniform (l : list (da Qc)) : Prop :=
    (forall a b, In a l -> In b l -> exists sa sb ua ub, units_of a = Some sa /\ units_of b = Some sb /\ parse sa = Some ua /\ parse sb = Some ub /\ u_dim ua = u_dim ub) /\
    forall a b, In a l -> In b l -> sizes_match a b.

  (** [r] is the sum of [l] as far as anyone can tell: units, lengths, amounts. *)
  Definition summed (l : list (da Qc)) (r : da Qc) : Prop :=
    match l with
    | [] => False
    | a :: _ => attrs r = attrs a /\ (forall d, dim_len r d = first_len d l) /\ forall c, in_grid r c -> amount r c = sum_amounts l c
    end.

  Inductive grouped : list (da Qc) -> list (da Qc) -> Prop :=
  | grouped_nil : grouped [] []
  | grouped_cons : forall g r l l', summed g r -> uniform g -> grouped l l' -> grouped (g ++ l) (r :: l').

  Lemma addable_uniform : forall l, Forall plain_units l -> (addable l <-> uniform l).
  Proof.
    intros l Hp. rewrite Forall_forall in Hp. split.
    - intros [Hle|[(dim & Hd) Hm]].
      + assert (Hs : forall a b, In a l -> In b l -> a = b).
        { destruct l as [|x [|y l]]; [intros a b []| |cbn in Hle; lia]. intros a b [<-|[]] [<-|[]]; auto. }
        split; intros a b Ha Hb; assert (a = b) as -> by auto.
        * destruct (Hp b Hb) as (s & u & K1 & K2 & _). exists s, s, u, u. unfold units_of. auto.
        * intros d n m H1 H2. congruence.
      + split; auto. intros a b Ha Hb. destruct (Hd a Ha) as (sa & ua & K1 & K2 & K3). destruct (Hd b Hb) as (sb & ub & J1 & J2 & J3).
        exists sa, sb, ua, ub. repeat split; auto. congruence.
    - intros [Hu Hm]. destruct l as [|x l]; [left; cbn; lia|]. right. split; auto.
      destruct (Hu x x (or_introl eq_refl) (or_introl eq_refl)) as (s0 & _ & u0 & _ & E0 & _ & P0 & _). exists (u_dim u0). intros a Ha.
      destruct (Hu a x Ha (or_introl eq_refl)) as (sa & sb & ua & ub & K1 & K2 & K3 & K4 & K5). exists sa, ua. repeat split; auto. congruence.
  Qed.

  Lemma summed_one : forall a : da Qc, plain_units a -> summed [a] a.
  Proof.
    intros a (s & u & K1 & K2 & _). cbn [summed]. split; auto. split. { intros d. cbn [first_len]. destruct (dim_len a d); auto. }
    intros c _. cbn [sum_amounts]. unfold amount. rewrite K1, K2. f_equal. ring.
  Qed.

  Lemma summed_sum : forall (a : da Qc) rest r, sum_of a rest r -> Forall plain_units (a :: rest) -> summed (a :: rest) r.
  Proof. intros a rest r Hs Hp. pose proof Hs as (_ & E & _ & L & _). cbn [summed]. split; auto. split; auto. intros c Hc. apply (sum_of_amounts Hsane); auto. Qed.

  Lemma summed_first : forall l r, summed l r -> exists a, In a l /\ attrs r = attrs a.
  Proof. intros [|a l] r H; [destruct H|]. exists a. split; [left; auto|apply H]. Qed.

  Lemma summed_len : forall l r, summed l r -> forall d, dim_len r d = first_len d l.
  Proof. intros [|a l] r H; [destruct H|]. apply H. Qed.

  Lemma summed_plain : forall l r, summed l r -> Forall plain_units l -> plain_units r.
  Proof. intros l r H Hp. apply summed_first in H as (a & Ha & E). rewrite Forall_forall in Hp. destruct (Hp a Ha) as (s & u & K). exists s, u. rewrite E. auto. Qed.

  Lemma grouped_plain : forall l l', grouped l l' -> Forall plain_units l -> Forall plain_units l'.
  Proof.
    intros l l' H. induction H as [|g r l l' Hs Ha H IH]; intros Hp; constructor; apply Forall_app in Hp as [Hp1 Hp2]; auto. eapply summed_plain; eauto.
  Qed.

  Lemma grouped_first : forall l l', grouped l l' -> forall d, first_len d l = first_len d l'.
  Proof.
    intros l l' H. induction H as [|g r l l' Hs Ha H IH]; intros d; auto. cbn [first_len]. rewrite (summed_len _ _ Hs), <- IH.
    clear. induction g as [|x g IHg]; cbn [app first_len]; auto. destruct (dim_len x d); auto.
  Qed.

  Lemma grouped_head : forall a l r l', grouped (a :: l) (r :: l') -> attrs r = attrs a.
  Proof.
    intros a l r l' H. inversion H as [|g r0 l0 l0' Hs Hu H0 E1 E2]; subst. destruct g as [|b g]; [destruct Hs|]. cbn [app] in E1. injection E1 as -> _. apply Hs.
  Qed.

  (** Every sum has the lengths and units of members of the groups, and back. *)
  Lemma grouped_members : forall l l', grouped l l' ->
    (forall r, In r l' -> exists g, summed g r /\ uniform g /\ forall x, In x g -> In x l) /\
    (forall x, In x l -> exists g r, summed g r /\ uniform g /\ In x g /\ In r l' /\ forall y, In y g -> In y l).
  Proof.
    intros l l' H. induction H as [|g r l l' Hs Ha H (IH1 & IH2)]; [split; intros ? []|split].
    - intros r0 [<-|H0].
      + exists g. split; auto. split; auto. intros x Hx. apply in_or_app; auto.
      + destruct (IH1 _ H0) as (b & K1 & K2 & K3). exists b. split; auto. split; auto. intros x Hx. apply in_or_app; auto.
    - intros x Hx. apply in_app_or in Hx as [Hx|Hx].
      + exists g, r. split; auto. split; auto. split; auto. split; [left; auto|]. intros y Hy. apply in_or_app; auto.
      + destruct (IH2 _ Hx) as (b & q & K1 & K2 & K3 & K4 & K5). exists b, q. split; auto. split; auto. split; auto. split; [right; auto|].
        intros y Hy. apply in_or_app; auto.
  Qed.

  Lemma grouped_uniform : forall l l', grouped l l' -> (uniform l <-> uniform l').
  Proof.
    intros l l' H. destruct (grouped_members l l' H) as [M1 M2]. split; intros [Hu Hm]; split; intros x y Hx Hy.
    - destruct (M1 x Hx) as (ga & Sa & _ & Ia). destruct (M1 y Hy) as (gb & Sb & _ & Ib).
      apply summed_first in Sa as (a & Ha & Ea). apply summed_first in Sb as (b & Hb & Eb). unfold units_of. rewrite Ea, Eb. apply Hu; auto.
    - destruct (M1 x Hx) as (ga & Sa & _ & Ia). destruct (M1 y Hy) as (gb & Sb & _ & Ib). intros d n m E1 E2.
      rewrite (summed_len _ _ Sa) in E1. rewrite (summed_len _ _ Sb) in E2.
      pose proof (first_len_spec ga d) as F1. pose proof (first_len_spec gb d) as F2. rewrite E1 in F1. rewrite E2 in F2.
      destruct F1 as (a1 & I1 & D1). destruct F2 as (b1 & I2 & D2). eapply (Hm a1 b1); eauto.
    - destruct (M2 x Hx) as (ga & q & Sa & Aa & Ia & Iq & Wa). destruct (M2 y Hy) as (gb & q' & Sb & Ab & Ib & Iq' & Wb).
      destruct Aa as [Ua _]. destruct Ab as [Ub _]. apply summed_first in Sa as (a & Ha & Ea). apply summed_first in Sb as (b & Hb & Eb).
      destruct (Ua x a Ia Ha) as (s1 & s2 & u1 & u2 & J1 & J2 & J3 & J4 & J5).
      destruct (Ub y b Ib Hb) as (t1 & t2 & v1 & v2 & K1 & K2 & K3 & K4 & K5).
      destruct (Hu q q' Iq Iq') as (w1 & w2 & z1 & z2 & L1 & L2 & L3 & L4 & L5). unfold units_of in L1, L2, J2, K2. rewrite Ea in L1. rewrite Eb in L2.
      exists s1, t1, u1, v1. repeat split; auto. congruence.
    - destruct (M2 x Hx) as (ga & q & Sa & Aa & Ia & Iq & Wa). destruct (M2 y Hy) as (gb & q' & Sb & Ab & Ib & Iq' & Wb).
      destruct Aa as [_ Ua]. destruct Ab as [_ Ub]. intros d n m E1 E2.
      pose proof (first_len_spec ga d) as F1. pose proof (first_len_spec gb d) as F2. rewrite <- (summed_len _ _ Sa) in F1. rewrite <- (summed_len _ _ Sb) in F2.
      destruct (dim_len q d) as [n'|] eqn:Q1; [|rewrite (F1 x Ia) in E1; discriminate E1].
      destruct (dim_len q' d) as [m'|] eqn:Q2; [|rewrite (F2 y Ib) in E2; discriminate E2].
      destruct F1 as (a1 & I1 & D1). destruct F2 as (b1 & I2 & D2). rewrite (Ua x a1 Ia I1 d n n' E1 D1), (Ub y b1 Ib I2 d m m' E2 D2). eapply (Hm q q'); eauto.
  Qed.

  Lemma grouped_amounts : forall l l', grouped l l' -> forall c, (forall r, In r l' -> in_grid r c) -> sum_amounts l c = sum_amounts l' c.
  Proof.
    intros l l' H. induction H as [|g r l l' Hs Ha H IH]; intros c Hc; auto.
    assert (E : amount r c = sum_amounts g c). { destruct g as [|a g]; [destruct Hs|]. apply Hs. apply Hc. left; auto. }
    cbn [sum_amounts]. rewrite E, <- IH by (intros; apply Hc; right; auto). clear. induction g as [|x g IHg]; cbn [app sum_amounts].
    - destruct (sum_amounts l c); auto. f_equal. ring.
    - rewrite IHg. destruct (amount x c), (sum_amounts g c), (sum_amounts l c); auto. f_equal. ring.
  Qed.

  (** A sum of sums is a sum. *)
  Lemma grouped_summed : forall l l' r, grouped l l' -> uniform l' -> summed l' r -> summed l r.
  Proof.
    intros l l' r H Hu Hs. pose proof (grouped_first _ _ H) as Hf. destruct l' as [|b l']; [destruct Hs|].
    destruct l as [|a l].
    { inversion H as [|g r0 l0 l0' S1 U1 H1 E1 E2]; subst. destruct g; [destruct S1|discriminate E1]. }
    cbn [summed] in *. destruct Hs as (E & L & V). split; [rewrite E; eapply grouped_head; eauto|]. split; [intros d; rewrite L; auto|].
    intros c Hc. rewrite (V c Hc). symmetry. apply grouped_amounts; auto. intros q Hq d n Hd. destruct Hu as [_ Hm].
    pose proof (first_len_spec (b :: l') d) as F. rewrite <- L in F. destruct (dim_len r d) as [n'|] eqn:Er.
    - destruct F as (x & Ix & Dx). rewrite (Hm q x Hq Ix d n n' Hd Dx). apply Hc; auto.
    - rewrite (F q Hq) in Hd. discriminate Hd.
  Qed.

  Lemma summed_same : forall l r r', summed l r -> summed l r' -> attrs r = attrs r' /\ same_amounts r r'.
  Proof.
    intros [|a l] r r' H H'; [destruct H|]. destruct H as (E & L & V). destruct H' as (E' & L' & V'). split; [congruence|]. split; [congruence|].
    intros c Hc. rewrite V by auto. rewrite V'; auto. intros d n Hd. apply Hc. rewrite L, <- L'. auto.
  Qed.

  (** ** Composites of composites *)

  Section Calls.
    Context {U : Type}.
    Variable st : state Qc.

    (** Calling [c] amounts to calling [cs] one after the other and adding up. *)
    Definition represents (c : caller U) (cs : list (caller U)) : Prop :=
      (forall u u' td, c u st = (u', Ok td) -> fine td /\ exists outs, runs st cs u u' outs /\
         (forall X, match contributions X (map fst outs) with
                    | [] => dget X (fst td) = None
                    | l => exists r, dget X (fst td) = Some r /\ summed l r /\ uniform l
                    end) /\
         forall X, dget X (snd td) = dget X (fold_left dupdate (map snd outs) [])) /\
      (forall u u' outs, runs st cs u u' outs -> (forall X, uniform (contributions X (map fst outs))) -> exists td, c u st = (u', Ok td)).

    Lemma fine_runs : forall (cs : list (caller U)) u u' outs, (forall c, In c cs -> returns_fine st c) -> runs st cs u u' outs -> Forall fine outs.
    Proof.
      intros cs u u' outs Hg H. induction H as [u|c cs u u1 u2 td outs Hc Hr IH]; constructor.
      - eapply (Hg c); [left; auto|]. eauto.
      - apply IH. intros; apply Hg; right; auto.
    Qed.

    Lemma fine_nodup : forall outs : list outcome, Forall fine outs -> Forall (fun e => NoDup (keys e)) (map snd outs).
    Proof. intros outs H. apply Forall_forall. intros x Hx. apply in_map_iff in Hx as (o & <- & Ho). rewrite Forall_forall in H. apply H; auto. Qed.

    Lemma represents_leaf : forall c, returns_fine st c -> represents c [c].
    Proof.
      intros c Hg. split.
      - intros u u' [t d] H. pose proof (Hg _ _ _ H) as F. split; auto. exists [(t, d)]. split; [econstructor; eauto; constructor|]. split.
        + intros X. cbn [map fst snd]. unfold contributions. cbn [flat_map]. destruct (dget X t) as [a|] eqn:E; cbn [app]; auto.
          exists a. split; auto. destruct F as (_ & Hp & _). specialize (Hp X a E). split; [apply summed_one; auto|].
          apply addable_uniform; [constructor; auto|]. left. cbn. lia.
        + intros X. cbn [map fst snd fold_left]. destruct F as (_ & _ & Hn). cbn [snd] in Hn. rewrite dget_dupdate by auto. destruct (dget X d); auto.
      - intros u u' outs H _. inversion H as [|? ? ? u1 ? td o Hc Hr]; subst. inversion Hr; subst. eauto.
    Qed.

    (** What the inner components return. *)
    Lemma inner_outs : forall cs lss, Forall2 represents cs lss -> forall u u' nouts, (forall l c, In l lss -> In c l -> returns_fine st c) ->
      runs st cs u u' nouts ->
      Forall fine nouts /\ exists outs, runs st (concat lss) u u' outs /\
        (forall X, grouped (contributions X (map fst outs)) (contributions X (map fst nouts))) /\
        forall X, dget X (fold_left dupdate (map snd nouts) []) = dget X (fold_left dupdate (map snd outs) []).
    Proof.
      intros cs lss HR. induction HR as [|c l cs lss Hcl HR IH]; intros u u' nouts Hg H; cbn [concat].
      - inversion H; subst. split; [constructor|]. exists []. split; [constructor|]. split; [constructor|]. auto.
      - inversion H as [|? ? ? u1 ? [t d] nouts' Hc Hr]; subst. destruct Hcl as [Hcl _]. destruct (Hcl _ _ _ Hc) as (Ft & o1 & R1 & Hs & Ed).
        assert (F1 : Forall fine o1) by (eapply fine_runs; [|eauto]; intros; eapply Hg; [left|]; eauto).
        destruct (IH _ _ _ (fun l' c' Hi => Hg l' c' (or_intror Hi)) Hr) as (F2 & o2 & R2 & G & D).
        split; [constructor; auto|]. exists (o1 ++ o2). split; [apply runs_app; exists u1, o1, o2; auto|]. split.
        + intros X. rewrite !map_app, contributions_app. cbn [map fst]. change ((t :: map fst nouts')) with ([t] ++ map fst nouts').
          rewrite contributions_app. specialize (Hs X). unfold contributions at 3. cbn [flat_map fst] in *. rewrite app_nil_r.
          destruct (contributions X (map fst o1)) as [|a rest] eqn:E; [rewrite Hs; apply G|]. destruct Hs as (r & -> & Hs & Hu).
          apply (grouped_cons (a :: rest) r); auto.
        + intros X. cbn [map snd fold_left]. rewrite map_app, fold_left_app.
          assert (F3 : Forall fine o2) by (eapply fine_runs; [|eauto]; intros c' Hc'; apply in_concat in Hc' as (l' & I1 & I2); eapply Hg; [right|]; eauto).
          rewrite (dget_merge X (map snd nouts')), (dget_merge X (map snd o2)) by (apply fine_nodup; auto).
          rewrite D. destruct (dget X (fold_left dupdate (map snd o2) [])) eqn:E; auto. destruct Ft as (_ & _ & Hn). rewrite dget_dupdate by exact Hn.
          specialize (Ed X). cbn [snd] in Ed. rewrite Ed. cbn [dget]. destruct (dget X (fold_left dupdate (map snd o1) [])); auto.
    Qed.

    (** The inner components return if all the others do and the tendencies can be added. *)
    Lemma inner_returns : forall cs lss, Forall2 represents cs lss -> forall u u' outs,
      runs st (concat lss) u u' outs -> (forall X, uniform (contributions X (map fst outs))) ->
      exists nouts, runs st cs u u' nouts.
    Proof.
      intros cs lss HR. induction HR as [|c l cs lss Hcl HR IH]; intros u u' outs H Hu; cbn [concat] in H.
      - inversion H; subst. exists []. constructor.
      - apply runs_app in H as (u1 & o1 & o2 & -> & R1 & R2).
        assert (Hsub : forall X, uniform (contributions X (map fst o1)) /\ uniform (contributions X (map fst o2))).
        { intros X. destruct (Hu X) as [V1 V2]. rewrite map_app, contributions_app in V1, V2.
          split; split; intros a b Ha Hb; (apply V1 || apply V2); apply in_or_app; auto. }
        destruct Hcl as [_ Hcl]. destruct (Hcl _ _ _ R1 (fun X => proj1 (Hsub X))) as (td & Hc).
        destruct (IH u1 u' o2 R2 (fun X => proj2 (Hsub X))) as (nouts & Hn). exists (td :: nouts). econstructor; eauto.
    Qed.

    Lemma represents_node : forall cs lss, Forall2 represents cs lss -> (forall l c, In l lss -> In c l -> returns_fine st c) ->
      represents (tendency_composite_call cs) (concat lss).
    Proof.
      intros cs lss HR Hg.
      assert (Hgc : forall c, In c (concat lss) -> returns_fine st c) by (intros c Hc; apply in_concat in Hc as (l & I1 & I2); eauto).
      split.
      - intros u u' [t d] H. destruct (call_outs _ _ _ _ _ _ H) as (nouts & Hr & Ed & K). destruct (inner_outs _ _ HR _ _ _ Hg Hr) as (Fn & outs & Ro & G & D).
        destruct (K Fn) as [Ft Hs]. split; auto. exists outs. split; auto. split; [|intros X; cbn [snd]; subst d; auto].
        intros X. specialize (Hs X). specialize (G X). destruct (fine_contributions X nouts Fn) as [Hp _].
        assert (Had := proj1 (composite_returns _ _ _ _ _ Hr (fine_proper _ Fn)) (ex_intro _ _ H) X). apply addable_uniform in Had; auto.
        cbn [fst]. destruct (contributions X (map fst nouts)) as [|b rest'].
        + inversion G as [E1|]. exact Hs.
        + destruct Hs as (r & Hr' & Hs). apply (summed_sum b rest' r) in Hs; auto. pose proof (grouped_summed _ _ _ G Had Hs) as Hl.
          destruct (contributions X (map fst outs)) as [|a rest]; [destruct Hl|]. exists r. split; auto. split; auto. apply (grouped_uniform _ _ G). auto.
      - intros u u' outs Ro Hu. destruct (inner_returns _ _ HR _ _ _ Ro Hu) as (nouts & Rn).
        destruct (inner_outs _ _ HR _ _ _ Hg Rn) as (Fn & outs2 & Ro2 & G & D). destruct (runs_det _ _ _ _ _ _ _ Ro Ro2) as [_ <-].
        apply (composite_returns _ _ _ _ _ Rn (fine_proper _ Fn)). intros X.
        apply addable_uniform; [apply fine_contributions; auto|]. apply (grouped_uniform _ _ (G X)). auto.
    Qed.

    Lemma represents_tree : forall t : ctree U, (forall c, In c (leaves t) -> returns_fine st c) -> represents (tree_call t) (leaves t).
    Proof.
      fix IH 1. intros [c|l] Hg; cbn [tree_call leaves] in *.
      - apply represents_leaf. apply Hg. left; auto.
      - rewrite flat_map_concat_map in *. apply represents_node.
        + assert (Hl : forall t c, In t l -> In c (leaves t) -> returns_fine st c).
          { intros t c Ht Hc. apply Hg. apply in_concat. exists (leaves t). split; auto. apply in_map; auto. }
          clear Hg. induction l as [|t l IHl]; cbn [map]; constructor.
          * apply IH. intros c Hc. apply (Hl t); auto. left; auto.
          * apply IHl. intros t' c Ht'. apply Hl. right; auto.
        + intros x c Hx Hc. apply Hg. apply in_concat. eauto.
    Qed.

    Lemma represents_flat : forall cs : list (caller U), (forall c, In c cs -> returns_fine st c) -> represents (tendency_composite_call cs) cs.
    Proof.
      intros cs Hg.
      assert (HR : Forall2 represents cs (map (fun c => [c]) cs)).
      { revert Hg. induction cs as [|c l IHl]; intros Hg; cbn [map]; constructor; [apply represents_leaf; apply Hg; left; auto|].
        apply IHl. intros; apply Hg; right; auto. }
      assert (Hg' : forall l c, In l (map (fun c => [c]) cs) -> In c l -> returns_fine st c).
      { intros l c Hl Hc. apply in_map_iff in Hl as (x & <- & Hx). destruct Hc as [<-|[]]. auto. }
      pose proof (represents_node _ _ HR Hg') as H. replace (concat (map (fun c => [c]) cs)) with cs in H; auto.
      clear. induction cs as [|c l IHl]; cbn [map concat app]; auto. f_equal; auto.
    Qed.

    (** Both return, or neither does; and they return the same. *)
    Lemma represents_same : forall (c1 c2 : caller U) cs, represents c1 cs -> represents c2 cs -> forall u u',
      ((exists td, c1 u st = (u', Ok td)) <-> (exists td, c2 u st = (u', Ok td))) /\
      forall tn dn tf df, c1 u st = (u', Ok (tn, dn)) -> c2 u st = (u', Ok (tf, df)) ->
        agree (fun r r' => attrs r = attrs r' /\ same_amounts r r') tn tf /\ forall X, dget X dn = dget X df.
    Proof.
      intros c1 c2 cs [N1 N2] [F1 F2] u u'.
      assert (Hun : forall (outs : list (dict (da Qc) * dict (da Qc))) (td : dict (da Qc) * dict (da Qc)),
                      (forall X, match contributions X (map fst outs) with
                      | [] => dget X (fst td) = None | l => exists r, dget X (fst td) = Some r /\ summed l r /\ uniform l end) ->
                      forall X, uniform (contributions X (map fst outs))).
      { intros outs td H X. specialize (H X). destruct (contributions X (map fst outs)); [split; intros ? ? []|]. destruct H as (_ & _ & _ & H). auto. }
      split; [split|].
      - intros (td & H). destruct (N1 _ _ _ H) as (_ & outs & Hr & Hs & _). apply (F2 _ _ _ Hr). eapply Hun; eauto.
      - intros (td & H). destruct (F1 _ _ _ H) as (_ & outs & Hr & Hs & _). apply (N2 _ _ _ Hr). eapply Hun; eauto.
      - intros tn dn tf df H H'. destruct (N1 _ _ _ H) as (_ & outs & Hr & Hs & Hd). destruct (F1 _ _ _ H') as (_ & outs2 & Hr2 & Hs2 & Hd2).
        destruct (runs_det _ _ _ _ _ _ _ Hr Hr2) as [_ <-]. cbn [fst snd] in *. split; [|intros X; rewrite Hd, Hd2; auto].
        intros X. specialize (Hs X). specialize (Hs2 X). destruct (contributions X (map fst outs)) as [|a l]; [rewrite Hs, Hs2; exact I|].
        destruct Hs as (r & -> & Hs & _). destruct Hs2 as (r2 & -> & Hs2 & _). eapply summed_same; eauto.
    Qed.

    Theorem nested_call : forall (t : ctree U) u, (forall c, In c (leaves t) -> returns_fine st c) ->
      let nested := tree_call t u st in let flat := tendency_composite_call (leaves t) u st in
      forall u', ((exists td, nested = (u', Ok td)) <-> (exists td, flat = (u', Ok td))) /\
        forall tn dn tf df, nested = (u', Ok (tn, dn)) -> flat = (u', Ok (tf, df)) ->
          agree (fun r r' => attrs r = attrs r' /\ same_amounts r r') tn tf /\ forall X, dget X dn = dget X df.
    Proof.
      intros t u Hg nested flat u'. apply (represents_same (tree_call t) (tendency_composite_call (leaves t)) (leaves t)); auto using represents_tree, represents_flat.
    Qed.

    Lemma represents_itree : forall (t : itree U) dt, (forall c, In c (ileaves t) -> returns_fine st (with_timestep dt c)) ->
      represents (with_timestep dt (itree_call t)) (map (with_timestep dt) (ileaves t)).
    Proof.
      fix IH 1. intros [c|l] dt Hg; cbn [itree_call ileaves map] in *.
      - apply represents_leaf. apply Hg. left; auto.
      - cbn [with_timestep]. rewrite flat_map_concat_map in *. rewrite concat_map, map_map.
        change (represents (tendency_composite_call (map (with_timestep dt) (map itree_call l))) (concat (map (fun x => map (with_timestep dt) (ileaves x)) l))).
        rewrite map_map. apply represents_node.
        + assert (Hl : forall t c, In t l -> In c (ileaves t) -> returns_fine st (with_timestep dt c)).
          { intros t c Ht Hc. apply Hg. apply in_concat. exists (ileaves t). split; auto. apply in_map; auto. }
          clear Hg. induction l as [|t l IHl]; cbn [map]; constructor.
          * apply IH. intros c Hc. apply (Hl t); auto. left; auto.
          * apply IHl. intros t' c Ht'. apply Hl. right; auto.
        + intros x c Hx Hc. apply in_map_iff in Hx as (t & <- & Ht). apply in_map_iff in Hc as (y & <- & Hy). apply Hg. apply in_concat.
          exists (ileaves t). split; auto. apply in_map; auto.
    Qed.

    Theorem nested_implicit : forall (t : itree U) dt u, (forall c, In c (ileaves t) -> returns_fine st (with_timestep dt c)) ->
      let nested := with_timestep dt (itree_call t) u st in let flat := implicit_composite_call (ileaves t) dt u st in
      forall u', ((exists td, nested = (u', Ok td)) <-> (exists td, flat = (u', Ok td))) /\
        forall tn dn tf df, nested = (u', Ok (tn, dn)) -> flat = (u', Ok (tf, df)) ->
          agree (fun r r' => attrs r = attrs r' /\ same_amounts r r') tn tf /\ forall X, dget X dn = dget X df.
    Proof.
      intros t dt u Hg nested flat u'.
      apply (represents_same (with_timestep dt (itree_call t)) (implicit_composite_call (ileaves t) dt) (map (with_timestep dt) (ileaves t))); [apply represents_itree; auto|].
      change (represents (tendency_composite_call (map (with_timestep dt) (ileaves t))) (map (with_timestep dt) (ileaves t))).
      apply represents_flat. intros c Hc. apply in_map_iff in Hc as (x & <- & Hx). auto.
    Qed.
  End Calls.
End Nested.

(** ** Diagnostics *)

Lemma dupdate_disjoint : forall {V} (d acc : dict V), NoDup (keys (acc ++ d)) -> dupdate acc d = acc ++ d.
Proof.
  intros V d. unfold dupdate. induction d as [|[k v] d IH]; intros acc H; cbn [fold_left fst snd]; [rewrite app_nil_r; auto|].
  assert (Hk : ~ In k (keys acc)).
  { unfold keys in *. rewrite map_app in H. cbn [map fst] in H. apply NoDup_remove_2 in H. intros Hi. apply H. apply in_or_app; auto. }
  rewrite dset_absent by auto. rewrite IH; rewrite <- app_assoc; auto.
Qed.

Lemma keys_app : forall {V} (a b : dict V), keys (a ++ b) = keys a ++ keys b.
Proof. intros. apply map_app. Qed.

Lemma nodup_app_iff : forall {V} (l1 l2 : list V), NoDup (l1 ++ l2) <-> NoDup l1 /\ NoDup l2 /\ forall x, In x l1 -> ~ In x l2.
Proof.
  intros V l1. induction l1 as [|a l1 IH]; intros l2; cbn [app].
  - split; [intros H; repeat split; auto; constructor|]. intros (_ & H & _). auto.
  - split.
    + intros H. inversion H as [|? ? Ha Hl]; subst. apply IH in Hl as (H1 & H2 & H3). rewrite in_app_iff in Ha. split; [constructor; auto|]. split; auto.
      intros x [<-|Hx]; auto.
    + intros (H1 & H2 & H3). inversion H1 as [|? ? Ha Hl]; subst. constructor.
      * rewrite in_app_iff. intros [Hi|Hi]; auto. apply (H3 a); auto. left; auto.
      * apply IH. split; auto. split; auto. intros x Hx. apply H3. right; auto.
Qed.

Section Diagnostics.
  Context {T : Type} {A : Arith T} {U : Type}.
  Variable st : state T.

  Definition drepresents (c : dcaller U) (cs : list (dcaller U)) : Prop :=
    forall u u' d, c u st = (u', Ok d) <-> exists outs, runs st cs u u' outs /\ d = concat outs /\ NoDup (keys d).

  Lemma diagnostic_loop_spec : forall (cs : list (dcaller U)) u u' acc d, NoDup (keys acc) -> (forall c, In c cs -> returns_dict st c) ->
    (diagnostic_loop cs u st acc = (u', Ok d) <-> exists outs, runs st cs u u' outs /\ d = acc ++ concat outs /\ NoDup (keys d)).
  Proof.
    induction cs as [|c cs IH]; intros u u' acc d Hn Hg; cbn [diagnostic_loop].
    - split.
      + intros H. injection H as <- <-. exists []. split; [constructor|]. cbn [concat]. rewrite app_nil_r. auto.
      + intros (outs & H & -> & _). inversion H; subst. cbn [concat]. rewrite app_nil_r. auto.
    - destruct (c u st) as [u1 r] eqn:Ec. destruct r as [d1|e]; cbn [bind].
      + pose proof (Hg c (or_introl eq_refl) _ _ _ Ec) as Hd1. destruct (ensure_iff acc d1) as [[-> Hi]|[-> Hi]]; cbn [bind].
        * assert (Hn1 : NoDup (keys (acc ++ d1))) by (rewrite keys_app; apply nodup_app_iff; auto).
          rewrite dupdate_disjoint by auto. rewrite IH; auto; [|intros; apply Hg; right; auto]. split.
          -- intros (outs & H & E & Hd). exists (d1 :: outs). split; [econstructor; eauto|]. cbn [concat]. rewrite app_assoc. auto.
          -- intros (outs & H & E & Hd). inversion H as [|? ? ? u2 ? td o Hc Hr]; subst. rewrite Ec in Hc. injection Hc as <- <-.
             exists o. split; auto. cbn [concat]. rewrite app_assoc. cbn [concat] in Hd. rewrite app_assoc in Hd. auto.
        * split; [discriminate|]. intros (outs & H & E & Hd). exfalso. inversion H as [|? ? ? u2 ? td o Hc Hr]; subst. rewrite Ec in Hc. injection Hc as <- <-.
          destruct Hi as (k & K1 & K2). cbn [concat] in Hd. rewrite !keys_app in Hd. apply nodup_app_iff in Hd as (_ & _ & Hd).
          apply (Hd k K1). apply in_or_app; auto.
      + split; [discriminate|]. intros (outs & H & _). inversion H as [|? ? ? u2 ? td o Hc Hr]; subst. congruence.
  Qed.

  Lemma dinner : forall cs lss, Forall2 drepresents cs lss -> forall u u' d,
    ((exists nouts, runs st cs u u' nouts /\ d = concat nouts /\ NoDup (keys d)) <->
     (exists outs, runs st (concat lss) u u' outs /\ d = concat outs /\ NoDup (keys d))).
  Proof.
    intros cs lss HR. induction HR as [|c l cs lss Hc HR IH]; intros u u' d; cbn [concat]; [reflexivity|]. split.
    - intros (nouts & H & E & Hn). inversion H as [|? ? ? u1 ? d1 o H1 H2]; subst. apply Hc in H1 as (o1 & R1 & E1 & _).
      cbn [concat] in Hn. rewrite keys_app in Hn. apply nodup_app_iff in Hn as Hn'. destruct Hn' as (_ & Hn2 & _).
      destruct (proj1 (IH u1 u' (concat o)) (ex_intro _ o (conj H2 (conj eq_refl Hn2)))) as (o2 & R2 & E2 & _).
      exists (o1 ++ o2). split; [apply runs_app; exists u1, o1, o2; auto|]. cbn [concat]. rewrite keys_app, concat_app. rewrite E1, E2 in *. auto.
    - intros (outs & H & E & Hn). apply runs_app in H as (u1 & o1 & o2 & -> & R1 & R2). rewrite concat_app in E.
      assert (Hn' := Hn). rewrite E, keys_app in Hn'. apply nodup_app_iff in Hn' as (N1 & N2 & _).
      destruct (proj2 (IH u1 u' (concat o2)) (ex_intro _ o2 (conj R2 (conj eq_refl N2)))) as (no & R3 & E3 & _).
      exists (concat o1 :: no). split; [apply (runs_cons st c cs u u1 u'); [apply Hc; exists o1; auto|auto]|]. cbn [concat]. rewrite <- E3. auto.
  Qed.

  Lemma drepresents_dict : forall c cs, drepresents c cs -> returns_dict st c.
  Proof. intros c cs H u u' d E. apply H in E as (outs & _ & _ & E). auto. Qed.

  Lemma drepresents_node : forall cs lss, Forall2 drepresents cs lss -> drepresents (diagnostic_composite_call cs) (concat lss).
  Proof.
    intros cs lss HR u u' d. unfold diagnostic_composite_call. rewrite diagnostic_loop_spec; [|constructor|].
    - cbn [app]. apply dinner; auto.
    - induction HR as [|c l cs lss Hc HR IH]; intros x Hx; [destruct Hx|]. destruct Hx as [<-|Hx]; auto. eapply drepresents_dict; eauto.
  Qed.

  Lemma drepresents_leaf : forall c, returns_dict st c -> drepresents c [c].
  Proof.
    intros c Hg u u' d. split.
    - intros H. exists [d]. split; [econstructor; eauto; constructor|]. cbn [concat]. rewrite app_nil_r. split; auto. eapply Hg; eauto.
    - intros (outs & H & -> & _). inversion H as [|? ? ? u1 ? d1 o H1 H2]; subst. inversion H2; subst. cbn [concat]. rewrite app_nil_r. auto.
  Qed.

  Lemma drepresents_tree : forall t : dtree U, (forall c, In c (dleaves t) -> returns_dict st c) -> drepresents (dtree_call t) (dleaves t).
  Proof.
    fix IH 1. intros [c|l] Hg; cbn [dtree_call dleaves] in *.
    - apply drepresents_leaf. apply Hg. left; auto.
    - rewrite flat_map_concat_map in *. apply drepresents_node.
      assert (Hl : forall t c, In t l -> In c (dleaves t) -> returns_dict st c).
      { intros t c Ht Hc. apply Hg. apply in_concat. exists (dleaves t). split; auto. apply in_map; auto. }
      clear Hg. induction l as [|t l IHl]; cbn [map]; constructor.
      * apply IH. intros c Hc. apply (Hl t); auto. left; auto.
      * apply IHl. intros t' c Ht'. apply Hl. right; auto.
  Qed.

  Theorem nested_diagnostics : forall (t : dtree U) u u' d, (forall c, In c (dleaves t) -> returns_dict st c) ->
    (dtree_call t u st = (u', Ok d) <-> diagnostic_composite_call (dleaves t) u st = (u', Ok d)).
  Proof.
    intros t u u' d Hg. rewrite (drepresents_tree t Hg u u' d). unfold diagnostic_composite_call. rewrite diagnostic_loop_spec; [reflexivity|constructor|auto].
  Qed.
End Diagnostics.

(** ** Declared properties *)

Section Declared.
  Context {R : Registry}.
  Variable ord : list string -> list string.
  Hypothesis Hord : forall l, NoDup l -> Permutation (ord l) l.

  Lemma entries_app : forall {V} X (l1 l2 : list (string * V)), entries X (l1 ++ l2) = entries X l1 ++ entries X l2.
  Proof. intros. apply flat_map_app. Qed.

  Lemma entries_dict : forall {V} X (d : dict V), NoDup (keys d) -> entries X d = match dget X d with Some v => [v] | None => [] end.
  Proof.
    intros V X d. induction d as [|[k v] d IH]; intros Hn; auto. inversion Hn as [|? ? Hk Hd]; subst.
    unfold entries in *. cbn [flat_map dget fst snd]. destruct (String.eqb X k) eqn:E.
    - apply String.eqb_eq in E as ->. rewrite IH by auto. destruct (dget k d) eqn:Ek; auto. exfalso. apply Hk. eapply dget_In_keys; eauto.
    - cbn [app]. apply IH; auto.
  Qed.

  (** ** Entries that combine in any order *)

  Definition alike (l : list props) : Prop :=
    (forall p, In p l -> exists ds, p_dims p = Some ds) /\
    (forall p q, In p l -> In q l -> p_units p = p_units q \/ units_compatible p q) /\
    ((forall p, In p l -> declares "*" p) \/
     (forall p, In p l -> ~ declares "*" p) /\ forall p q d, In p l -> In q l -> d <> "*" -> declares d p -> declares d q).

  Lemma dims_for_nil : forall X p, dims_for [] X p = p_dims p.
  Proof. intros X p. unfold dims_for. cbn [dget]. destruct (p_dims p); auto. Qed.

  Lemma compatible_sym : forall p q, units_compatible p q -> units_compatible q p.
  Proof. intros p q (s & s0 & u & u0 & H1 & H2 & H3 & H4 & H5). exists s0, s, u0, u. auto 6. Qed.

  Lemma compatible_trans : forall p q r, units_compatible p q -> units_compatible q r -> units_compatible p r.
  Proof.
    intros p q r (s & s0 & u & u0 & H1 & H2 & H3 & H4 & H5) (t & t0 & v & v0 & K1 & K2 & K3 & K4 & K5).
    exists s, t0, u, v0. repeat split; auto. congruence.
  Qed.

  Lemma compatible_known : forall p q, units_known R p -> p_units p = p_units q \/ units_compatible p q -> units_compatible p q.
  Proof. intros p q (s & u & H1 & H2) [E|E]; auto. exists s, s, u, u. repeat split; auto. congruence. Qed.

  (** Declared dims, one list each. *)
  Lemma seen_of : forall X ps seen, Forall2 (fun q d => dims_for [] X q = Some d) ps seen ->
    forall d, (exists ds, In ds seen /\ In d ds) <-> exists p, In p ps /\ declares d p.
  Proof.
    intros X ps seen H. induction H as [|q dq ps seen Hq H IH]; intros d.
    - split; [intros (? & [] & _)|intros (? & [] & _)].
    - rewrite dims_for_nil in Hq. split.
      + intros (ds & [<-|Hi] & Hd); [exists q; split; [left; auto|]; exists dq; auto|].
        destruct (proj1 (IH d) (ex_intro _ ds (conj Hi Hd))) as (p & K1 & K2). exists p. split; [right|]; auto.
      + intros (p & [<-|Hi] & (ds & E & Hd)); [exists ds; split; auto; left; congruence|].
        destruct (proj2 (IH d)) as (ds' & K1 & K2); [exists p; split; auto; exists ds; auto|]. exists ds'. split; [right|]; auto.
  Qed.

  Lemma seen_star : forall X ps seen, Forall2 (fun q d => dims_for [] X q = Some d) ps seen ->
    ((forall s, In s seen -> In "*" s) <-> forall p, In p ps -> declares "*" p).
  Proof.
    intros X ps seen H. induction H as [|q dq ps seen Hq H IH]; [split; intros _ ? []|]. rewrite dims_for_nil in Hq. split; intros K.
    - intros p [<-|Hp]; [exists dq; split; auto; apply K; left; auto|]. apply IH; auto. intros; apply K; right; auto.
    - intros s [<-|Hs]; [destruct (K q (or_introl eq_refl)) as (ds & E & Hd); congruence|]. apply IH; auto. intros; apply K; right; auto.
  Qed.

  Lemma seen_exists : forall X ps, (forall p, In p ps -> exists ds, p_dims p = Some ds) -> exists seen, Forall2 (fun q d => dims_for [] X q = Some d) ps seen.
  Proof.
    intros X ps. induction ps as [|p ps IH]; intros H; [exists []; constructor|].
    destruct IH as (seen & Hs); [intros; apply H; right; auto|]. destruct (H p (or_introl eq_refl)) as (ds & E). exists (ds :: seen).
    constructor; auto. rewrite dims_for_nil. auto.
  Qed.

  Lemma combinable_alike : forall X ps, unmixed ps -> (2 <= length ps -> forall p, In p ps -> units_known R p) ->
    (combinable [] X ps <-> alike ps).
  Proof.
    intros X ps Hm Hk. split.
    - intros [H1 H2].
      assert (Hd : forall p, In p ps -> exists ds, p_dims p = Some ds).
      { intros p Hp. specialize (H1 p Hp). rewrite dims_for_nil in H1. destruct (p_dims p); [eauto|congruence]. }
      split; auto. destruct ps as [|p0 rest]; [split; [intros ? ? []|left; intros ? []]|].
      assert (Hu : forall p, In p rest -> units_compatible p p0).
      { intros p Hp. apply in_split in Hp as (mid & tl & ->). apply (H2 p0 mid p tl eq_refl). }
      split.
      + intros p q [<-|Hp] [<-|Hq]; auto; right.
        * apply compatible_sym; auto.
        * apply (compatible_trans p p0 q); auto. apply compatible_sym; auto.
      + destruct Hm as [Hm|Hm]; [left; auto|]. right. split; auto.
        assert (Hs : forall n mid p tl, length mid <= n -> rest = mid ++ p :: tl -> forall d, d <> "*" -> (declares d p <-> declares d p0)).
        { induction n as [|n IH]; intros mid p tl Hl E d Hne.
          - destruct mid as [|? ?]; [|cbn in Hl; lia]. destruct (seen_exists X [p0]) as (seen & Hs); [intros q [<-|[]]; apply Hd; left; auto|].
            destruct (Hd p) as (ds & Ep); [right; rewrite E; left; auto|]. cbn [app] in E. subst rest.
            destruct (H2 p0 [] p tl eq_refl) as [_ J]. specialize (J seen ds Hs). rewrite dims_for_nil in J. destruct (J Ep) as [J1|J1].
            + exfalso. apply (Hm p0 (or_introl eq_refl)). apply (proj1 (seen_star _ _ _ Hs) J1). left; auto.
            + specialize (J1 d). unfold named_in in J1. split.
              * intros (ds' & E' & Hd'). destruct (proj2 J1) as (_ & K); [split; auto; exists ds; split; [left; auto|congruence]|].
                apply (seen_of _ _ _ Hs) in K as (q & [<-|[]] & K). auto.
              * intros K. destruct (proj1 J1) as (_ & (ds' & [<-|[]] & K')); [split; auto; apply (seen_of _ _ _ Hs); exists p0; split; [left|]; auto|].
                exists ds. auto.
          - assert (Hmid : forall q, In q mid -> forall d, d <> "*" -> (declares d q <-> declares d p0)).
            { intros q Hq. apply in_split in Hq as (m1 & m2 & ->). apply (IH m1 q (m2 ++ p :: tl)); [rewrite app_length in Hl; cbn in Hl; lia|].
              rewrite E, <- app_assoc. auto. }
            destruct (seen_exists X (p0 :: mid)) as (seen & Hs).
            { intros q [<-|Hq]; apply Hd; [left; auto|right]. rewrite E. apply in_or_app; auto. }
            destruct (Hd p) as (ds & Ep); [right; rewrite E; apply in_or_app; right; left; auto|]. subst rest.
            destruct (H2 p0 mid p tl eq_refl) as [_ J]. specialize (J seen ds Hs). rewrite dims_for_nil in J. destruct (J Ep) as [J1|J1].
            + exfalso. apply (Hm p0 (or_introl eq_refl)). apply (proj1 (seen_star _ _ _ Hs) J1). left; auto.
            + specialize (J1 d). unfold named_in in J1. split.
              * intros (ds' & E' & Hd'). destruct (proj2 J1) as (_ & K); [split; auto; exists ds; split; [left; auto|congruence]|].
                apply (seen_of _ _ _ Hs) in K as (q & [<-|Hq] & K); auto. apply (Hmid q Hq d Hne); auto.
              * intros K. destruct (proj1 J1) as (_ & (ds' & [<-|[]] & K')); [split; auto; apply (seen_of _ _ _ Hs); exists p0; split; [left|]; auto|].
                exists ds. auto. }
        assert (Hs' : forall p d, In p (p0 :: rest) -> d <> "*" -> (declares d p <-> declares d p0)).
        { intros p d [<-|Hp] Hne; [reflexivity|]. apply in_split in Hp as (mid & tl & E). eapply (Hs (length mid) mid p tl); eauto. }
        intros p q d Hp Hq Hne Hdp. apply (Hs' q d Hq Hne). apply (Hs' p d Hp Hne). auto.
    - intros (Hd & Hu & Hw). split.
      + intros p Hp. rewrite dims_for_nil. destruct (Hd p Hp) as (ds & ->). discriminate.
      + intros p0 mid p rest E. assert (I0 : In p0 ps) by (rewrite E; left; auto).
        assert (Ip : In p ps) by (rewrite E; right; apply in_or_app; right; left; auto).
        assert (Im : forall q, In q (p0 :: mid) -> In q ps) by (intros q [<-|Hq]; auto; rewrite E; right; apply in_or_app; auto).
        split.
        * apply compatible_known; auto. apply Hk; auto. rewrite E. cbn [length]. rewrite app_length. cbn [length]. lia.
        * intros seen ds Hs Ep. rewrite dims_for_nil in Ep. destruct Hw as [Hw|[Hw1 Hw2]].
          -- left. apply (proj2 (seen_star _ _ _ Hs)). intros q Hq. auto.
          -- right. intros d. unfold named_in. split.
             ++ intros (Hne & K). split; auto. apply (seen_of _ _ _ Hs) in K as (q & Hq & K). destruct (Hw2 q p d (Im q Hq) Ip Hne K) as (ds' & E' & Hi).
                exists ds. split; [left; auto|congruence].
             ++ intros (Hne & (ds' & [<-|[]] & Hi)). split; auto. apply (seen_of _ _ _ Hs). exists p0. split; [left; auto|].
                apply (Hw2 p p0 d Ip I0 Hne). exists ds. auto.
  Qed.

  (** ** Groups of entries *)

  Inductive pgroups : list props -> list props -> Prop :=
  | pgroups_nil : pgroups [] []
  | pgroups_cons : forall p0 rest r l l', combined_entry [] "" p0 rest r -> pgroups l l' -> pgroups ((p0 :: rest) ++ l) (r :: l').

  Lemma combined_nil : forall X Y p0 rest r, combined_entry [] X p0 rest r -> combined_entry [] Y p0 rest r.
  Proof.
    intros X Y p0 rest r (H1 & H2 & H3 & rd & seen & H4 & H5 & H6). split; auto. split; auto. split; auto. exists rd, seen. split; auto.
  Qed.

  Lemma combined_declares : forall X p0 rest r, combined_entry [] X p0 rest r ->
    (exists rd, p_dims r = Some rd) /\ (declares "*" r <-> forall p, In p (p0 :: rest) -> declares "*" p) /\
    forall d, d <> "*" -> (declares d r <-> exists p, In p (p0 :: rest) /\ declares d p).
  Proof.
    intros X p0 rest r (_ & _ & _ & rd & seen & E & Hs & H1 & H2). split; eauto. split.
    - rewrite <- (seen_star _ _ _ Hs), <- H1. unfold declares. split; [intros (ds & K1 & K2); congruence|intros K; exists rd; auto].
    - intros d Hne. rewrite <- (seen_of _ _ _ Hs). specialize (H2 d Hne). unfold named_in in H2. unfold declares. split.
      + intros (ds & K1 & K2). apply H2. congruence.
      + intros K. exists rd. split; auto. apply H2. auto.
  Qed.

  Lemma combined_star : forall X p0 rest r, combined_entry [] X p0 rest r -> (declares "*" r <-> forall p, In p (p0 :: rest) -> declares "*" p).
  Proof. intros X p0 rest r H. apply (combined_declares X p0 rest r H). Qed.

  Lemma combined_named : forall X p0 rest r, combined_entry [] X p0 rest r -> forall d, d <> "*" -> (declares d r <-> exists p, In p (p0 :: rest) /\ declares d p).
  Proof. intros X p0 rest r H. apply (combined_declares X p0 rest r H). Qed.

  Lemma combined_complete : forall p0 rest r X Y r', combined_entry [] X p0 rest r -> combined_entry [] Y p0 rest r' -> same_entry r r'.
  Proof.
    intros p0 rest r X Y r' H H'. destruct (combined_declares _ _ _ _ H) as ((rd & E) & S1 & D1). destruct (combined_declares _ _ _ _ H') as ((rd' & E') & S2 & D2).
    destruct H as (U1 & U2 & U3 & _). destruct H' as (V1 & V2 & V3 & _). split; [congruence|]. split; [congruence|]. split; [congruence|].
    exists rd, rd'. split; auto. split; auto. intros d. assert (K : declares d r <-> declares d r').
    { destruct (string_dec d "*") as [->|Hne]; [rewrite S1, S2; reflexivity|]. rewrite D1, D2 by auto. reflexivity. }
    unfold declares in K. split; intros Hi.
    - destruct (proj1 K) as (ds & E1 & E2); [eauto|]. congruence.
    - destruct (proj2 K) as (ds & E1 & E2); [eauto|]. congruence.
  Qed.

  Lemma pgroups_members : forall l l', pgroups l l' ->
    (forall r, In r l' -> exists p0 rest, combined_entry [] "" p0 rest r /\ forall p, In p (p0 :: rest) -> In p l) /\
    (forall p, In p l -> exists p0 rest r, combined_entry [] "" p0 rest r /\ In p (p0 :: rest) /\ In r l' /\ forall q, In q (p0 :: rest) -> In q l).
  Proof.
    intros l l' H. induction H as [|p0 rest r l l' Hc H (IH1 & IH2)]; [split; intros ? []|]. split.
    - intros x [<-|Hx].
      + exists p0, rest. split; auto. intros p Hp. apply in_or_app; auto.
      + destruct (IH1 x Hx) as (q0 & qr & K1 & K2). exists q0, qr. split; auto. intros p Hp. apply in_or_app; auto.
    - intros p Hp. apply in_app_or in Hp as [Hp|Hp].
      + exists p0, rest, r. split; auto. split; auto. split; [left; auto|]. intros q Hq. apply in_or_app; auto.
      + destruct (IH2 p Hp) as (q0 & qr & x & K1 & K2 & K3 & K4). exists q0, qr, x. split; auto. split; auto. split; [right; auto|].
        intros q Hq. apply in_or_app; auto.
  Qed.

  Lemma pgroups_nonempty : forall p l l', pgroups (p :: l) l' -> exists r tl, l' = r :: tl /\ p_units r = p_units p /\ p_alias r = p_alias p /\ p_tracer r = p_tracer p.
  Proof.
    intros p l l' H. inversion H as [|p0 rest r l0 l0' Hc H0]; subst. exists r, l0'. split; auto.
    destruct Hc as (A1 & A2 & A3 & _). auto.
  Qed.

  Lemma combined_of_groups : forall X p l r0 l' n, pgroups (p :: l) (r0 :: l') -> combined_entry [] X r0 l' n -> combined_entry [] X p l n.
  Proof.
    intros X p l r0 l' n H Hn. destruct (pgroups_members _ _ H) as [M1 M2].
    destruct (pgroups_nonempty _ _ _ H) as (r1 & tl & E & A1 & A2 & A3). injection E as <- <-.
    destruct (combined_declares _ _ _ _ Hn) as ((rd & E) & S1 & D1). destruct Hn as (U1 & U2 & U3 & _).
    split; [congruence|]. split; [congruence|]. split; [congruence|].
    assert (Hd : forall q, In q (p :: l) -> exists ds, p_dims q = Some ds).
    { intros q Hq. destruct (M2 q Hq) as (p0 & rest & r & (_ & _ & _ & rdd & seen & _ & Hs & _) & Hi & _). clear - Hs Hi.
      revert Hi. induction Hs as [|a b la lb Hab Hs IH]; intros Hi; [destruct Hi|]. rewrite dims_for_nil in Hab. destruct Hi as [<-|Hi]; [eauto|]. apply IH; auto. }
    destruct (seen_exists X (p :: l) Hd) as (seen & Hs). exists rd, seen. split; auto. split; auto. split.
    - rewrite (seen_star _ _ _ Hs). transitivity (declares "*" n).
      { unfold declares. split; [intros K; eauto|intros (ds & K1 & K2); congruence]. }
      rewrite S1. split.
      + intros K q Hq. destruct (M2 q Hq) as (p0 & rest & r & Hc & Hi & Hr & _). apply (proj1 (combined_star _ _ _ _ Hc)); auto.
      + intros K r Hr. destruct (M1 r Hr) as (p0 & rest & Hc & Hi). apply (combined_star _ _ _ _ Hc). auto.
    - intros d Hne. unfold named_in. rewrite (seen_of _ _ _ Hs). transitivity (declares d n).
      { unfold declares. split; [intros K; eauto|intros (ds & K1 & K2); congruence]. }
      rewrite (D1 d Hne). split.
      + intros (r & Hr & K). split; auto. destruct (M1 r Hr) as (p0 & rest & Hc & Hi). apply (proj1 (combined_named _ _ _ _ Hc d Hne)) in K; destruct K as (q & Hq & Kq); eauto.
      + intros (_ & q & Hq & K). destruct (M2 q Hq) as (p0 & rest & r & Hc & Hi & Hr & _). exists r. split; auto. apply (combined_named _ _ _ _ Hc); eauto.
  Qed.

  Lemma pgroups_unmixed : forall l l', pgroups l l' -> unmixed l -> unmixed l'.
  Proof.
    intros l l' H Hm. destruct (pgroups_members _ _ H) as [M1 M2]. destruct Hm as [Hm|Hm]; [left|right]; intros r Hr;
      destruct (M1 r Hr) as (p0 & rest & Hc & Hi); pose proof (combined_declares _ _ _ _ Hc) as (_ & S & _).
    - apply S. auto.
    - intros K. apply (Hm p0); [apply Hi; left; auto|]. apply (proj1 S K). left; auto.
  Qed.

  Lemma pgroups_known : forall l l', pgroups l l' -> (2 <= length l -> forall p, In p l -> units_known R p) ->
    2 <= length l' -> forall r, In r l' -> units_known R r.
  Proof.
    intros l l' H Hk Hl r Hr. destruct (pgroups_members _ _ H) as [M1 _]. destruct (M1 r Hr) as (p0 & rest & (E & _) & Hi).
    assert (Hlen : length l' <= length l). { clear - H. induction H as [|p0 rest r l l' Hc H IH]; auto. rewrite app_length. cbn [length]. lia. }
    destruct (Hk ltac:(lia) p0 (Hi p0 (or_introl eq_refl))) as (s & u & K1 & K2). exists s, u. split; congruence.
  Qed.

  Lemma pgroups_alike : forall l l', pgroups l l' -> alike l -> alike l'.
  Proof.
    intros l l' H (Hd & Hu & Hw). destruct (pgroups_members _ _ H) as [M1 M2]. split; [|split].
    - intros r Hr. destruct (M1 r Hr) as (p0 & rest & Hc & Hi). apply (combined_declares _ _ _ _ Hc).
    - intros r q Hr Hq. destruct (M1 r Hr) as (p0 & rest & (E & _) & Hi). destruct (M1 q Hq) as (q0 & rest' & (E' & _) & Hi').
      unfold units_compatible. rewrite E, E'. apply Hu; [apply Hi|apply Hi']; left; auto.
    - assert (Hm' : unmixed l -> unmixed l') by (apply pgroups_unmixed; auto).
      destruct Hw as [Hw|[Hw1 Hw2]]; [left|right].
      + intros r Hr. destruct (M1 r Hr) as (p0 & rest & Hc & Hi). apply (combined_star _ _ _ _ Hc). auto.
      + split.
        * intros r Hr K. destruct (M1 r Hr) as (p0 & rest & Hc & Hi). apply (Hw1 p0); [apply Hi; left; auto|]. apply (proj1 (combined_star _ _ _ _ Hc) K). left; auto.
        * intros r q d Hr Hq Hne K. destruct (M1 r Hr) as (p0 & rest & Hc & Hi). destruct (M1 q Hq) as (q0 & rest' & Hc' & Hi').
          apply (proj1 (combined_named _ _ _ _ Hc d Hne)) in K. destruct K as (x & Hx & K). apply (combined_named _ _ _ _ Hc'); auto.
          exists q0. split; [left; auto|]. apply (Hw2 x q0 d); auto. apply Hi'. left; auto.
  Qed.

  (** Groups alike, and what they combine to alike: all alike. *)
  Lemma alike_pgroups : forall l l', pgroups l l' -> unmixed l ->
    alike l' -> (forall p, In p l -> exists g r, alike g /\ In p g /\ In r l' /\ (exists g0 gr, g = g0 :: gr /\ combined_entry [] "" g0 gr r)) -> alike l.
  Proof.
    intros l l' H Hm (Hd' & Hu' & Hw') Hg. split; [|split].
    - intros p Hp. destruct (Hg p Hp) as (g & r & (Hd & _) & Hi & _). auto.
    - intros p q Hp Hq. destruct (Hg p Hp) as (g & r & (_ & Ug & _) & Hi & Hr & g0 & gr & Eg & (E & _)).
      destruct (Hg q Hq) as (h & s & (_ & Uh & _) & Hi' & Hs & h0 & hr & Eh & (E' & _)).
      assert (I1 : In g0 g) by (rewrite Eg; left; auto). assert (I2 : In h0 h) by (rewrite Eh; left; auto).
      specialize (Ug p g0 Hi I1). specialize (Uh h0 q I2 Hi'). specialize (Hu' r s Hr Hs).
      assert (Hx : forall a b c, (p_units a = p_units b \/ units_compatible a b) -> (p_units b = p_units c \/ units_compatible b c) ->
                                 (p_units a = p_units c \/ units_compatible a c)).
      { intros a b c [F|F] [G|G]; [left; congruence|right; unfold units_compatible in *; rewrite F; auto|right; unfold units_compatible in *; rewrite <- G; auto|].
        right. eapply compatible_trans; eauto. }
      apply (Hx p g0 q Ug). apply (Hx g0 h0 q); auto. unfold units_compatible in *. rewrite E, E' in Hu'. exact Hu'.
    - destruct Hm as [Hm|Hm]; [left; auto|]. right. split; auto. intros p q d Hp Hq Hne K.
      destruct (Hg p Hp) as (g & r & _ & Hi & Hr & g0 & gr & Eg & Hc). destruct (Hg q Hq) as (h & s & (_ & _ & Wh) & Hi' & Hs & h0 & hr & Eh & Hc').
      assert (Dr : declares d r) by (apply (combined_named _ _ _ _ Hc); auto; exists p; rewrite <- Eg; auto).
      assert (Ds : declares d s).
      { destruct Hw' as [Hw'|[_ Hw']]; [|apply (Hw' r s d); auto]. exfalso. apply (Hm q Hq). specialize (Hw' s Hs).
        apply (proj1 (combined_star _ _ _ _ Hc') Hw'). rewrite <- Eh; auto. }
      apply (proj1 (combined_named _ _ _ _ Hc' d Hne)) in Ds. destruct Ds as (x & Hx & Dx). rewrite <- Eh in Hx.
      destruct Wh as [Wh|[_ Wh]]; [exfalso; apply (Hm q Hq); auto|]. apply (Wh x q d); auto.
  Qed.

  (** ** Combining combinations *)

  Lemma mapM_forall2 : forall {B C} (f : B -> res C) l rs, mapM f l = Ok rs <-> Forall2 (fun x y => f x = Ok y) l rs.
  Proof.
    intros B C f l. induction l as [|x l IH]; intros rs; cbn [mapM].
    - split; [intros H; injection H as <-; constructor|intros H; inversion H; auto].
    - split.
      + intros H. apply bind_ok in H as (y & Hy & H). apply bind_ok in H as (ys & Hys & H). injection H as <-. constructor; auto. apply IH; auto.
      + intros H. inversion H as [|? y ? ys Hy Hys]; subst. rewrite Hy. cbn [bind]. apply IH in Hys. rewrite Hys. auto.
  Qed.

  Lemma known_sub : forall l1 l2 l3, known (l1 ++ l2 ++ l3) -> known l2.
  Proof.
    intros l1 l2 l3 H X Hl p Hp. apply (H X).
    - rewrite !entries_app, !app_length. lia.
    - rewrite !entries_app. apply in_or_app. right. apply in_or_app. auto.
  Qed.

  Lemma known_left : forall l1 l2, known (l1 ++ l2) -> known l1.
  Proof. intros l1 l2 H. apply (known_sub [] l1 l2). auto. Qed.

  Lemma known_right : forall l1 l2, known (l1 ++ l2) -> known l2.
  Proof. intros l1 l2 H. apply (known_sub l1 l2 []). rewrite app_nil_r. auto. Qed.

  Lemma inner_groups : forall pdss rs, Forall2 (fun pds r => combine_properties ord pds [] = Ok r) pdss rs -> known (concat (concat pdss)) ->
    forall X, pgroups (entries X (concat (concat pdss))) (entries X (concat rs)) /\
      forall p, In p (entries X (concat (concat pdss))) -> unmixed (entries X (concat (concat pdss))) ->
        exists g r, alike g /\ In p g /\ In r (entries X (concat rs)) /\ exists g0 gr, g = g0 :: gr /\ combined_entry [] "" g0 gr r.
  Proof.
    intros pdss rs H. induction H as [|pds r pdss rs Hr H IH]; intros Hk X; cbn [concat] in *; [split; [constructor|intros ? []]|].
    rewrite concat_app in *. pose proof (known_left _ _ Hk) as K1. pose proof (known_right _ _ Hk) as K2. destruct (IH K2 X) as [G M].
    pose proof (combine_properties_spec ord Hord [] pds K1) as S. rewrite Hr in S. destruct S as (Sc & Sk & Se).
    rewrite !entries_app. rewrite (entries_dict X r) by (rewrite Sk; apply dedup_NoDup).
    specialize (Se X). specialize (Sc X). destruct (entries X (concat pds)) as [|p0 rest] eqn:E.
    - rewrite Se. cbn [app]. auto.
    - destruct Se as (q & -> & Hc). split.
      + apply (pgroups_cons p0 rest q); auto.
      + intros p Hp Hm. apply in_app_or in Hp as [Hp|Hp].
        * exists (p0 :: rest), q. split; [|split; [auto|split; [left; auto|exists p0, rest; split; auto; eapply combined_nil; eauto]]].
          apply (combinable_alike X); auto.
          -- destruct Hm as [Hm|Hm]; [left|right]; intros x Hx; apply Hm; apply in_or_app; auto.
          -- intros Hl x Hx. apply (K1 X); rewrite E; auto.
        * destruct (M p Hp) as (g & r1 & A1 & A2 & A3 & A4).
          { destruct Hm as [Hm|Hm]; [left|right]; intros x Hx; apply Hm; apply in_or_app; auto. }
          exists g, r1. split; auto. split; auto. split; [right; auto|auto].
  Qed.

  Lemma groups_known : forall pdss rs, Forall2 (fun pds r => combine_properties ord pds [] = Ok r) pdss rs -> known (concat (concat pdss)) -> known (concat rs).
  Proof. intros pdss rs H Hk X. destruct (inner_groups _ _ H Hk X) as [G _]. apply (pgroups_known _ _ G). apply Hk. Qed.

  Theorem nested_properties : forall pdss n f, known (concat (concat pdss)) ->
    (let* rs := mapM (fun pds => combine_properties ord pds []) pdss in combine_properties ord rs []) = Ok n ->
    combine_properties ord (concat pdss) [] = Ok f -> agree same_entry n f.
  Proof.
    intros pdss n f Hk Hn Hf. apply bind_ok in Hn as (rs & Hrs & Hn). apply mapM_forall2 in Hrs. pose proof (groups_known _ _ Hrs Hk) as Hk'.
    pose proof (combine_properties_spec ord Hord [] _ Hk) as Sf. rewrite Hf in Sf. destruct Sf as (_ & _ & Sf).
    pose proof (combine_properties_spec ord Hord [] _ Hk') as Sn. rewrite Hn in Sn. destruct Sn as (_ & _ & Sn).
    intros X. specialize (Sf X). specialize (Sn X). destruct (inner_groups _ _ Hrs Hk X) as [G _].
    destruct (entries X (concat (concat pdss))) as [|p0 rest] eqn:Ef.
    - assert (G' : pgroups [] (entries X (concat rs))) by (rewrite <- Ef; exact G).
      assert (E : entries X (concat rs) = []) by (inversion G'; auto). rewrite E in Sn. rewrite Sn, Sf. exact I.
    - assert (G' : pgroups (p0 :: rest) (entries X (concat rs))) by (rewrite <- Ef; exact G).
      destruct (pgroups_nonempty _ _ _ G') as (r0 & tl & E & _). rewrite E in *. destruct Sn as (x & -> & Sn). destruct Sf as (y & -> & Sf).
      eapply combined_complete; [|exact Sf]. eapply combined_of_groups; eauto.
  Qed.

  Theorem nested_accepted : forall pdss, known (concat (concat pdss)) -> (forall X, unmixed (entries X (concat (concat pdss)))) ->
    ((exists n, (let* rs := mapM (fun pds => combine_properties ord pds []) pdss in combine_properties ord rs []) = Ok n) <->
     exists f, combine_properties ord (concat pdss) [] = Ok f).
  Proof.
    intros pdss Hk Hm. split.
    - intros (n & Hn). apply bind_ok in Hn as (rs & Hrs & Hn). apply mapM_forall2 in Hrs. pose proof (groups_known _ _ Hrs Hk) as Hk'.
      pose proof (combine_properties_spec ord Hord [] _ Hk') as Sn. rewrite Hn in Sn. destruct Sn as (Sn & _).
      pose proof (combine_properties_spec ord Hord [] _ Hk) as Sf. destruct (combine_properties ord (concat pdss) []) as [f|e]; [eauto|].
      destruct Sf as (_ & X & Sf). exfalso. apply Sf. destruct (inner_groups _ _ Hrs Hk X) as [G M]. apply combinable_alike; [auto|apply Hk|].
      apply (alike_pgroups _ _ G); auto. apply (combinable_alike X); [apply (pgroups_unmixed _ _ G); auto|apply Hk'|auto].
    - intros (f & Hf). pose proof (combine_properties_spec ord Hord [] _ Hk) as Sf. rewrite Hf in Sf. destruct Sf as (Sf & _).
      assert (Hr : exists rs, Forall2 (fun pds r => combine_properties ord pds [] = Ok r) pdss rs).
      { assert (Hin : forall pds, In pds pdss -> exists r, combine_properties ord pds [] = Ok r).
        { intros pds Hp. apply in_split in Hp as (l1 & l2 & ->). rewrite !concat_app in *. cbn [concat] in *. rewrite !concat_app in *.
          pose proof (known_sub _ _ _ Hk) as K. pose proof (combine_properties_spec ord Hord [] _ K) as S.
          destruct (combine_properties ord pds []) as [r|e]; [eauto|]. destruct S as (_ & X & S). exfalso. apply S.
          specialize (Sf X). specialize (Hm X). assert (Sub : forall p, In p (entries X (concat pds)) -> In p (entries X (concat (concat l1) ++ concat pds ++ concat (concat l2)))).
          { intros p Hp. rewrite !entries_app. apply in_or_app. right. apply in_or_app. auto. }
          apply combinable_alike in Sf as (S1 & S2 & S3); [|auto|apply Hk]. apply combinable_alike.
          - destruct Hm as [Hm|Hm]; [left|right]; auto.
          - apply K.
          - split; auto. split; auto. destruct S3 as [S3|[S3 S4]]; [left; auto|right; split; auto]. intros p q d Hp Hq. apply S4; auto. }
        clear - Hin. induction pdss as [|pds pdss IH]; [exists []; constructor|]. destruct IH as (rs & Hrs); [intros; apply Hin; right; auto|].
        destruct (Hin pds (or_introl eq_refl)) as (r & Hr). exists (r :: rs). constructor; auto. }
      destruct Hr as (rs & Hrs). pose proof (proj2 (mapM_forall2 _ _ _) Hrs) as E. rewrite E. cbn [bind]. pose proof (groups_known _ _ Hrs Hk) as Hk'.
      pose proof (combine_properties_spec ord Hord [] _ Hk') as Sn. destruct (combine_properties ord rs []) as [n|e]; [eauto|].
      destruct Sn as (_ & X & Sn). exfalso. apply Sn. destruct (inner_groups _ _ Hrs Hk X) as [G M]. apply combinable_alike.
      + apply (pgroups_unmixed _ _ G); auto.
      + apply Hk'.
      + apply (pgroups_alike _ _ G). apply (combinable_alike X); [auto|apply Hk|auto].
  Qed.
  (** ** Composites *)

  Lemma input_dicts_app : forall g cs1 cs2, input_dicts g (cs1 ++ cs2) = let* l1 := input_dicts g cs1 in let* l2 := input_dicts g cs2 in Ok (l1 ++ l2).
  Proof.
    intros g cs1 cs2. unfold input_dicts. induction cs1 as [|c cs1 IH]; cbn [app mapM bind concat].
    - destruct (mapM _ cs2); cbn [bind]; auto.
    - destruct (match cp_tracers c with None => _ | Some _ => _ end) as [l|e]; cbn [bind]; auto.
      match type of IH with (bind (mapM ?f (cs1 ++ cs2)) _) = _ => set (F := f) in * end.
      destruct (mapM F (cs1 ++ cs2)) as [x|e]; destruct (mapM F cs1) as [y|e']; destruct (mapM F cs2) as [z|e'']; cbn [bind concat] in *; try congruence.
      injection IH as IH. f_equal. rewrite IH, app_assoc. auto.
  Qed.

  Lemma input_dicts_concat : forall g css, input_dicts g (concat css) = let* ls := mapM (input_dicts g) css in Ok (concat ls).
  Proof.
    intros g css. induction css as [|cs css IH]; cbn [concat mapM bind]; auto.
    rewrite input_dicts_app, IH. destruct (input_dicts g cs); cbn [bind]; auto. destruct (mapM (input_dicts g) css); cbn [bind concat]; auto.
  Qed.

  Lemma input_dicts_plain : forall g cs, (forall c, In c cs -> cp_tracers c = None) -> input_dicts g cs = Ok (map cp_inp cs).
  Proof.
    intros g cs H. unfold input_dicts. induction cs as [|c cs IH]; auto. cbn [mapM]. rewrite (H c (or_introl eq_refl)). cbn [bind].
    specialize (IH (fun c' Hc => H c' (or_intror Hc))).
    destruct (mapM _ cs) as [l|e]; cbn [bind concat map] in *; [injection IH as ->; auto|discriminate].
  Qed.

  Lemma inputs_mapM : forall g css pdss, mapM (input_dicts g) css = Ok pdss ->
    mapM (composite_inputs ord g) css = mapM (fun pds => combine_properties ord pds []) pdss.
  Proof.
    intros g css. induction css as [|cs css IH]; intros pdss H; cbn [mapM] in *; [injection H as <-; auto|].
    apply bind_ok in H as (pds & Hp & H). apply bind_ok in H as (l & Hl & H). injection H as <-. cbn [mapM].
    unfold composite_inputs at 1. rewrite Hp. cbn [bind]. rewrite (IH _ Hl). auto.
  Qed.

  Lemma inputs_only_inp : forall inps, map cp_inp (map inputs_only inps) = inps.
  Proof. intros. rewrite map_map. apply map_id. Qed.

  (** Whether the inputs can be combined. *)
  Theorem nested_inputs_accepted : forall g css pds, input_dicts g (concat css) = Ok pds ->
    known (concat pds) -> (forall X, unmixed (entries X (concat pds))) ->
    ((exists n, (let* inps := mapM (composite_inputs ord g) css in composite_inputs ord g (map inputs_only inps)) = Ok n) <->
     exists f, composite_inputs ord g (concat css) = Ok f).
  Proof.
    intros g css pds H Hk Hm. rewrite input_dicts_concat in H. apply bind_ok in H as (pdss & Hp & H). injection H as <-.
    rewrite (inputs_mapM _ _ _ Hp). unfold composite_inputs at 2. rewrite input_dicts_concat, Hp. cbn [bind]. rewrite <- nested_accepted by auto.
    destruct (mapM (fun pds => combine_properties ord pds []) pdss) as [rs|e]; cbn [bind]; [|reflexivity].
    unfold composite_inputs. rewrite input_dicts_plain. { cbn [bind]. rewrite inputs_only_inp. reflexivity. }
    intros c Hc. apply in_map_iff in Hc as (x & <- & _). auto.
  Qed.

  Lemma made_inputs : forall implicit g cs c, make_tendency_composite ord implicit g cs = Ok c -> composite_inputs ord g (map snd cs) = Ok (t_inp c) /\
    combine_properties ord (map cp_tend (map snd cs)) (t_inp c) = Ok (t_tend c).
  Proof.
    intros implicit g cs c H. unfold make_tendency_composite in H. apply bind_ok in H as (_ & _ & H). apply bind_ok in H as (inp & Hi & H).
    apply bind_ok in H as (diag & Hd & H). apply bind_ok in H as (_ & _ & H). apply bind_ok in H as (tend & Ht & H). injection H as <-. cbn [t_inp t_tend].
    split; auto. assert (E : composite_tendencies ord g (map snd cs) = Ok tend).
    { destruct implicit.
      - apply bind_ok in Ht as (_ & _ & Ht). apply bind_ok in Ht as (t & Et & Ht). apply bind_ok in Ht as (_ & _ & Ht). congruence.
      - apply bind_ok in Ht as (t & Et & Ht). apply bind_ok in Ht as (_ & _ & Ht). apply bind_ok in Ht as (_ & _ & Ht). congruence. }
    unfold composite_tendencies in E. rewrite Hi in E. auto.
  Qed.

  Lemma combine_declared : forall pds inp, (forall np, In np (concat pds) -> p_dims (snd np) <> None) ->
    combine_properties ord pds inp = combine_properties ord pds [].
  Proof.
    intros pds inp H. unfold combine_properties. assert (G : forall l acc, (forall np, In np l -> p_dims (snd np) <> None) ->
      foldM (combine_step ord inp) l acc = foldM (combine_step ord []) l acc); [|apply G; exact H].
    clear H. induction l as [|[k p] l IH]; intros acc H; cbn [foldM]; auto.
    assert (E : combine_step ord inp acc (k, p) = combine_step ord [] acc (k, p)).
    { unfold combine_step, resolve_dims. specialize (H (k, p) (or_introl eq_refl)). cbn [snd] in H. destruct (p_dims p); congruence. }
    rewrite E. destruct (combine_step ord [] acc (k, p)); cbn [bind]; auto. apply IH. intros np Hn. apply H. right; auto.
  Qed.

  Lemma dims_resolved : forall pds inp r, combine_properties ord pds inp = Ok r -> forall np, In np r -> p_dims (snd np) <> None.
  Proof.
    intros pds inp r. unfold combine_properties. assert (G : forall l acc, (forall np, In np acc -> p_dims (snd np) <> None) ->
      foldM (combine_step ord inp) l acc = Ok r -> forall np, In np r -> p_dims (snd np) <> None); [|apply G; intros ? []].
    assert (Hset : forall k v (acc : pdict), p_dims v <> None -> (forall np, In np acc -> p_dims (snd np) <> None) -> forall np, In np (dset k v acc) -> p_dims (snd np) <> None).
    { intros k v acc Hv. induction acc as [|[k' v'] acc IHa]; intros Ha np Hn; cbn [dset] in Hn.
      - destruct Hn as [<-|[]]. auto.
      - destruct (String.eqb k k').
        + destruct Hn as [<-|Hn]; auto. apply Ha. right; auto.
        + destruct Hn as [<-|Hn]; [apply Ha; left; auto|]. apply IHa; auto. intros x Hx. apply Ha. right; auto. }
    induction l as [|[k p] l IH]; intros acc Ha H; cbn [foldM] in H; [injection H as <-; exact Ha|]. apply bind_ok in H as (acc' & Hs & H). apply (IH acc'); auto.
    unfold combine_step in Hs. destruct (dget k acc) as [q|].
    - destruct (p_units p); [|discriminate]. destruct (p_units q); [|discriminate]. apply bind_ok in Hs as (b & _ & Hs). destruct (negb b); [discriminate|].
      apply bind_ok in Hs as (x & _ & Hs). apply bind_ok in Hs as (y & _ & Hs). apply bind_ok in Hs as (z & _ & Hs). injection Hs as <-. apply Hset; auto. discriminate.
    - apply bind_ok in Hs as (x & _ & Hs). injection Hs as <-. apply Hset; auto. discriminate.
  Qed.

  Theorem nested_composite : forall implicit implicit' g css ics n f,
    Forall2 (fun cs c => exists i, make_tendency_composite ord i g cs = Ok c) css ics ->
    make_tendency_composite ord implicit g (map seen_as ics) = Ok n ->
    make_tendency_composite ord implicit' g (concat css) = Ok f ->
    (forall pds, input_dicts g (map snd (concat css)) = Ok pds -> known (concat pds)) ->
    known (concat (map cp_tend (map snd (concat css)))) ->
    (forall c np, In c (concat css) -> In np (cp_tend (snd c)) -> p_dims (snd np) <> None) ->
    (forall c, In c (concat css) -> NoDup (keys (cp_diag (snd c)))) ->
    agree same_entry (t_inp n) (t_inp f) /\ agree same_entry (t_tend n) (t_tend f) /\ forall X, dget X (t_diag n) = dget X (t_diag f).
  Proof.
    intros implicit implicit' g css ics n f Hin Hn Hf Hki Hkt Hdt Hnd.
    destruct (made_inputs _ _ _ _ Hn) as [In1 In2]. destruct (made_inputs _ _ _ _ Hf) as [If1 If2].
    assert (Hseen : map snd (map seen_as ics) = map (fun c => mkcprops (t_inp c) (t_tend c) (t_diag c) None) ics) by (rewrite map_map; auto).
    rewrite Hseen in In1, In2. split; [|split].
    - unfold composite_inputs in In1, If1. apply bind_ok in If1 as (pds & Hp & If1). specialize (Hki pds Hp).
      rewrite concat_map, input_dicts_concat in Hp. apply bind_ok in Hp as (pdss & Hp & E). injection E as <-.
      rewrite input_dicts_plain in In1 by (intros c Hc; apply in_map_iff in Hc as (x & <- & _); auto). cbn [bind] in In1. rewrite map_map in In1. cbn [cp_inp] in In1.
      eapply nested_properties; eauto. rewrite <- (inputs_mapM _ _ _ Hp).
      assert (E : mapM (composite_inputs ord g) (map (map snd) css) = Ok (map t_inp ics)).
      { clear - Hin. induction Hin as [|cs c css ics (i & Hc) Hin IH]; auto. cbn [map mapM]. destruct (made_inputs _ _ _ _ Hc) as [-> _]. cbn [bind]. rewrite IH. auto. }
      rewrite E. exact In1.
    - rewrite map_map in In2. cbn [cp_tend] in In2. rewrite combine_declared in In2, If2.
      + rewrite !concat_map in If2, Hkt. eapply nested_properties; eauto.
        assert (E : mapM (fun pds => combine_properties ord pds []) (map (map cp_tend) (map (map snd) css)) = Ok (map t_tend ics)).
        { clear - Hin Hdt. induction Hin as [|cs c css ics (i & Hc) Hin IH]; auto. cbn [map mapM]. destruct (made_inputs _ _ _ _ Hc) as [_ Ht].
          rewrite combine_declared in Ht; [rewrite Ht; cbn [bind]; rewrite IH; auto|].
          - intros x np Hx. apply Hdt. cbn [concat]. apply in_or_app; auto.
          - intros np Hnp. apply in_concat in Hnp as (l & Hl & Hi). apply in_map_iff in Hl as (x & <- & Hx). apply in_map_iff in Hx as (y & <- & Hy).
            apply (Hdt y); auto. cbn [concat]. apply in_or_app; auto. }
        rewrite E. exact In2.
      + intros np Hnp. apply in_concat in Hnp as (l & Hl & Hi). apply in_map_iff in Hl as (x & <- & Hx). apply in_map_iff in Hx as (y & <- & Hy). apply (Hdt y); auto.
      + intros np Hnp. apply in_concat in Hnp as (l & Hl & Hi). apply in_map_iff in Hl as (x & <- & Hx).
        assert (Hm : exists cs i, make_tendency_composite ord i g cs = Ok x).
        { clear - Hin Hx. induction Hin as [|cs c css ics (i & Hc) Hin IH]; [destruct Hx|]. destruct Hx as [<-|Hx]; eauto. }
        destruct Hm as (cs & i & Hm). destruct (made_inputs _ _ _ _ Hm) as [_ Ht]. eapply dims_resolved; eauto.
    - assert (Hinner : Forall2 (fun cs c => union_of (map cp_diag (map snd cs)) (t_diag c)) css ics).
      { clear - Hin Hnd Hord. induction Hin as [|cs c css ics (i & Hc) Hin IH]; constructor.
        - apply (tendency_construction_union ord i g cs c); auto. intros x Hx. apply Hnd. cbn [concat]. apply in_or_app; auto.
        - apply IH. intros x Hx. apply Hnd. cbn [concat]. apply in_or_app; auto. }
      assert (Hidk : forall c, In c (map seen_as ics) -> NoDup (keys (cp_diag (snd c)))).
      { intros c Hc. apply in_map_iff in Hc as (x & <- & Hx). cbn [seen_as snd cp_diag].
        assert (Hm : exists cs i, make_tendency_composite ord i g cs = Ok x).
        { clear - Hin Hx. induction Hin as [|cs c css ics (i & Hc) Hin IH]; [destruct Hx|]. destruct Hx as [<-|Hx]; eauto. }
        destruct Hm as (cs & i & Hm). unfold make_tendency_composite in Hm. apply bind_ok in Hm as (_ & _ & Hm). apply bind_ok in Hm as (inp & _ & Hm).
        apply bind_ok in Hm as (diag & Hd & Hm). apply bind_ok in Hm as (_ & _ & Hm). apply bind_ok in Hm as (tend & _ & Hm). injection Hm as <-. cbn [t_diag].
        unfold composite_diagnostics in Hd. apply bind_ok in Hd as (d & Hd & E). apply bind_ok in E as (_ & _ & E). injection E as <-.
        unfold merged_diagnostics in Hd. revert Hd. assert (N0 : NoDup (keys (@nil (string * props)))) by constructor. revert N0.
        generalize (@nil (string * props)). induction (map snd cs) as [|c l IHl]; intros acc Ha Hd; cbn [foldM] in Hd; [congruence|].
        apply bind_ok in Hd as (acc' & Hs & Hd). unfold merge_step in Hs. apply bind_ok in Hs as (_ & _ & Hs). injection Hs as <-. eapply IHl; [|exact Hd]. apply nodup_dupdate; auto. }
      destruct (tendency_construction_union ord _ _ _ _ Hidk Hn) as [_ Un]. destruct (tendency_construction_union ord _ _ _ _ Hnd Hf) as [_ Uf].
      rewrite Hseen, map_map in Un. cbn [cp_diag] in Un.
      assert (Hiff : forall X v, dget X (t_diag n) = Some v <-> dget X (t_diag f) = Some v).
      { intros X v. rewrite (Un X v), (Uf X v). rewrite !concat_map. clear - Hinner. split.
        - intros (e & He & Hd). apply in_map_iff in He as (c & <- & Hc). induction Hinner as [|cs c' css ics Hu Hi IH]; [destruct Hc|]. cbn [map concat].
          destruct Hc as [<-|Hc].
          + apply (Hu X v) in Hd as (e & He & Hd). exists e. split; auto. apply in_or_app; auto.
          + destruct (IH Hc) as (e & He & Hde). exists e. split; auto. apply in_or_app; auto.
        - intros (e & He & Hd). induction Hinner as [|cs c' css ics Hu Hi IH]; [destruct He|]. cbn [map concat] in *. apply in_app_or in He as [He|He].
          + exists (t_diag c'). split; [left; auto|]. apply (Hu X v). eauto.
          + destruct (IH He) as (e' & He' & Hde). exists e'. split; auto. right; auto. }
      intros X. destruct (dget X (t_diag n)) as [v|] eqn:E1; [symmetry; apply Hiff; auto|].
      destruct (dget X (t_diag f)) as [v|] eqn:E2; auto. apply Hiff in E2. congruence.
  Qed.
End Declared.
