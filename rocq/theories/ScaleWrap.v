(** C103: Steppers under TimeDifferencingWrapper on rescaled states. *)
From Coq Require Import String List Bool Arith ZArith QArith Qcanon.
From Verif Require Import Prelude PreludeFacts ArithM NdArray NdFacts Units UnitsFacts DataArrayM SpecDa DaFacts
  SpecArrays Tracers Components Composite Steppers Basic MainLoop RegionFacts RunFacts SpecScale ScaleMain ScaleRuns SpecScaleSteps SpecScaleWrap.
Import ListNotations.
Open Scope string_scope.
Open Scope nat_scope.
Open Scope list_scope.

Section Wrap.
  Context {R : Registry} (f : string -> Qc).

  (** Units that can be converted to units without offset are without offset. *)
  Lemma linear_back c (t : da Qc) w x : to_units t w = Ok x -> linear_units c (Some w) -> linear_units c (dget "units" (attrs t)).
  Proof.
    intros Hx [Hn | Hn]; [left; exact Hn | right]. unfold to_units in Hx. destruct (dget "units" (attrs t)) as [own | ] eqn:Eo; [ | discriminate Hx].
    unfold parseE in Hx. destruct (parse own) as [u1 | ] eqn:E1; [ | discriminate Hx]. destruct (parse w) as [u2 | ] eqn:E2; [ | discriminate Hx]. cbn [bind] in Hx.
    assert (Ed : u_dim u1 = u_dim u2).
    { destruct (one_eqb u1 u2) eqn:E; [apply one_eqb_eq in E; apply E | ]. cbn [negb] in Hx. destruct (udim_eqb u1 u2) eqn:D; [apply udim_eqb_eq, D | discriminate Hx]. }
    intros own' v1 s v2 X X1 X2 X3. injection X as <-. rewrite E1 in X1. injection X1 as <-. exact (Hn w u2 s v2 eq_refl E2 X2 (eq_trans (eq_sym Ed) X3)).
  Qed.

  Lemma linear_forth c (t : da Qc) w x : to_units t w = Ok x -> linear_units c (dget "units" (attrs t)) -> linear_units c (dget "units" (attrs x)).
  Proof. intros Hx Hn. exact (proj2 (sc_units (fun _ => c) "" t _ w (conj eq_refl Hn) x _ Hx (eq_trans (times_units c t w Hn) (f_equal (result_map (times_da c)) Hx)))). Qed.

  Lemma difference_scaled outp dt st (nv : string * pval Qc) tend x y :
    linear_changes f outp -> linear_state f st -> (forall a, snd nv = VDA a -> linear_units (f (fst nv)) (dget "units" (attrs a))) -> linear_rates f tend ->
    difference_step outp dt st tend nv = Ok x ->
    difference_step outp dt (by_name times_value f st) (by_name times_da f tend) (fst nv, times_value (f (fst nv)) (snd nv)) = Ok y ->
    y = by_name times_da f x /\ linear_rates f x.
  Proof.
    intros Hc Hl Hn Ht Hx Hy. destruct nv as [k v]. unfold difference_step in *. cbn [fst snd] in *. destruct v as [new | t]; cbn [times_value] in Hy.
    2: { destruct (String.eqb k "time"); [ | discriminate Hx]. injection Hx as <-. injection Hy as <-. split; [reflexivity | exact Ht]. }
    specialize (Hn new eq_refl). destruct (dget k outp) as [p | ] eqn:Ep; [ | injection Hx as <-; injection Hy as <-; split; [reflexivity | exact Ht]].
    rewrite by_name_get in Hy. destruct (dget k st) as [[old | t] | ] eqn:Es; cbn [option_map times_value bind] in Hx, Hy; try discriminate Hx.
    assert (Ho : linear_units (f k) (dget "units" (attrs old))) by exact (Hl k old (dget_In _ _ _ Es)).
    change (attrs (times_da (f k) new)) with (attrs new) in Hy.
    apply bind_ok in Hx as (u & Hu & Hx). rewrite Hu in Hy. cbn [bind] in Hy.
    rewrite (times_units _ old u Ho) in Hy. apply bind_ok in Hx as (o1 & Ho1 & Hx). rewrite Ho1 in Hy. cbn [result_map bind] in Hy.
    apply bind_ok in Hx as (d & Hd & Hx). apply bind_ok in Hy as (d' & Hd' & Hy).
    assert (Kd : d' = times_da (f k) d).
    { unfold da_sub in Hd, Hd'. exact (proj1 (sc_bin f k asub new _ o1 _ (or_intror eq_refl) (conj eq_refl Hn) (conj eq_refl (linear_forth _ _ _ _ Ho1 Ho)) d d' Hd Hd')). }
    subst d'. apply bind_ok in Hx as (ou & Hou & Hx). rewrite Hou in Hy. cbn [bind] in Hy.
    apply bind_ok in Hx as (t & Htu & Hx). injection Hx as <-.
    set (q := mkda (dims (da_divs d (total_seconds dt))) (arr (da_divs d (total_seconds dt))) (dset "units" (per_second u) (attrs (da_divs d (total_seconds dt))))) in *.
    assert (Eq : mkda (dims (da_divs (times_da (f k) d) (total_seconds dt))) (arr (da_divs (times_da (f k) d) (total_seconds dt))) (dset "units" (per_second u) (attrs (da_divs (times_da (f k) d) (total_seconds dt)))) = times_da (f k) q).
    { unfold q, da_divs, da_map, times_da, nd_map, times; cbn [dims arr attrs shape data]. f_equal. f_equal. rewrite !map_map. apply map_ext. intro z. cbn [adiv ArithQc]. unfold Qcdiv. ring. }
    rewrite Eq in Hy. clear Eq.
    assert (Hq : linear_units (f k) (dget "units" (attrs q))).
    { apply (linear_back _ _ _ _ Htu). destruct (p_units p) as [ou' | ] eqn:E; [ | discriminate Hou]. injection Hou as ->. exact (Hc k p ou Ep E). }
    rewrite (times_units _ q _ Hq), Htu in Hy. cbn [result_map bind] in Hy. injection Hy as <-. split; [apply by_name_set | ].
    intros name a Hin. apply in_dset_or in Hin as [(-> & ->) | Hin]; [exact (linear_forth _ _ _ _ Htu Hq) | exact (Ht name a Hin)].
  Qed.

  Theorem scale_differencing {U} outp (p : U -> state Qc -> Z -> U * res (stepped Qc)) :
    scales_step f eq p p -> linear_changes f outp -> scales f (differencing_call outp p).
  Proof.
    intros Hp Hc u st dt u' v' t d t' d' Hl Hx Hy. unfold differencing_call in Hx, Hy.
    destruct (p u st dt) as [u1 r] eqn:E1. destruct (p u (by_name times_value f st) dt) as [u2 r'] eqn:E2.
    injection Hx as <- Hx. injection Hy as <- Hy. apply bind_ok in Hx as ([d1 n1] & -> & Hx). apply bind_ok in Hy as ([d2 n2] & -> & Hy).
    destruct (Hp u u st dt u1 u2 d1 n1 d2 n2 eq_refl Hl E1 E2) as (<- & -> & -> & Hn). cbn [fst snd] in Hx, Hy.
    apply bind_ok in Hx as (t1 & Hf & Hx). injection Hx as <- <-. apply bind_ok in Hy as (t2 & Hf' & Hy). injection Hy as <- <-.
    split; [reflexivity | ]. enough (K : t2 = by_name times_da f t1 /\ linear_rates f t1) by (split; [apply K | split; [reflexivity | apply K]]).
    assert (G : forall l tend, linear_state f l -> linear_rates f tend -> foldM (difference_step outp dt st) l tend = Ok t1 ->
      foldM (difference_step outp dt (by_name times_value f st)) (by_name times_value f l) (by_name times_da f tend) = Ok t2 -> t2 = by_name times_da f t1 /\ linear_rates f t1).
    { clear - Hc Hl. induction l as [ | nv l IH]; intros tend Hll Ht Hx Hy; cbn [foldM by_name map] in Hx, Hy.
      - injection Hx as <-. injection Hy as <-. split; [reflexivity | exact Ht].
      - apply bind_ok in Hx as (a & Ha & Hx). apply bind_ok in Hy as (b & Hb & Hy).
        destruct (difference_scaled outp dt st nv tend a b Hc Hl) as [-> K]; try assumption.
        + intros v Hv. apply (Hll (fst nv) v). left. destruct nv; cbn in *; congruence.
        + apply (IH a); try assumption. intros name v Hin. apply (Hll name v). right. exact Hin. }
    refine (G n1 [] Hn _ Hf Hf'). intros name a [].
  Qed.
End Wrap.
