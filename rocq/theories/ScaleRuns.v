(** C103: runs from rescaled states. *)
From Coq Require Import String List Bool Arith ZArith QArith Qcanon Lia.
From Verif Require Import Prelude PreludeFacts ArithM NdArray NdFacts Units UnitsFacts DataArrayM SpecDa DaFacts
  Wildcard GetNp SpecArrays Restore RestoreFacts CallFacts TidFacts Tracers Components Composite Steppers Basic MainLoop LeapLoop RegionFacts RunFacts SpecScale ScaleMain.
Import ListNotations.
Open Scope string_scope.
Open Scope nat_scope.
Open Scope list_scope.

Lemma in_dset_or {V} k (v : V) d j x : In (j, x) (dset k v d) -> (j = k /\ x = v) \/ In (j, x) d.
Proof.
  induction d as [ | [i y] d IH]; cbn [dset]; [intros [E | []]; injection E as <- <-; auto | ].
  destruct (String.eqb_spec k i) as [-> | N]; intros [E | H]; [injection E as <- <-; auto | right; right; exact H | right; left; exact E | ].
  destruct (IH H) as [H' | H']; [auto | right; right; exact H'].
Qed.

Section Runs.
  Context {R : Registry} (f : string -> Qc).
  Let P0 (k : string) (a b : da Qc) : Prop := b = times_da (f k) a.
  Let P (k : string) (a b : da Qc) : Prop := P0 k a b /\ linear_units (f k) (dget "units" (attrs a)).

  Lemma sc_any : forall k a b, P k a b -> P0 k a b.
  Proof. intros k a b H. apply H. Qed.
  Lemma sc_attrs : forall k a b, P k a b -> attrs a = attrs b.
  Proof. intros k a b (-> & _). reflexivity. Qed.

  Lemma sc_units : forall k a b u, P k a b -> oks (P k) (to_units a u) (to_units b u).
  Proof.
    intros k a b u (-> & Hn) x y Hx Hy. rewrite (times_units _ a u Hn), Hx in Hy. injection Hy as <-. split; [reflexivity | ].
    destruct Hn as [Hn | Hn]; [left; exact Hn | ]. unfold to_units in Hx. destruct (dget "units" (attrs a)) as [own | ] eqn:Eo; [ | discriminate Hx].
    unfold parseE in Hx. destruct (parse own) as [u1 | ] eqn:E1; [ | discriminate Hx]. destruct (parse u) as [u2 | ] eqn:E2; [ | discriminate Hx]. cbn [bind] in Hx.
    destruct (negb (one_eqb u1 u2)); [ | injection Hx as <-; right; rewrite Eo; exact Hn]. destruct (udim_eqb u1 u2) eqn:Ed; [ | discriminate Hx]. apply udim_eqb_eq in Ed.
    injection Hx as <-. right. cbn [da_map attrs]. intros own' v1 s v2 X X1 X2 X3. rewrite dget_dset_eq in X. injection X as <-. rewrite E2 in X1. injection X1 as <-.
    exact (Hn own u1 s v2 eq_refl E1 X2 (eq_trans Ed X3)).
  Qed.

  Lemma sc_map : forall k h at' a b, by_scalar h -> at' = [] \/ at' = attrs a -> P k a b -> P k (da_map h at' a) (da_map h at' b).
  Proof.
    intros k h at' a b Hf Ha (-> & Hn). split.
    - unfold P0, da_map, times_da, nd_map, times; cbn [dims arr attrs shape data]. f_equal. f_equal. rewrite !map_map. apply map_ext. intro x.
      destruct Hf as [y | y | y]; cbn [amul adiv ArithQc]; unfold Qcdiv; ring.
    - destruct Hn as [Hn | Hn]; [left; exact Hn | right]. destruct Ha as [-> | ->]; cbn [da_map attrs]; [ | exact Hn]. intros own u1 s u2 X. discriminate X.
  Qed.

  Lemma sc_bin : forall k (op : Qc -> Qc -> Qc) a b a' b', op = aadd \/ op = asub -> P k a b -> P k a' b' -> oks (P k) (da_binop op (attrs a) a a') (da_binop op (attrs a) b b').
  Proof.
    intros k op a b a' b' Ho (-> & Hn) (-> & _) x y Hx Hy. unfold da_binop in *.
    change (sizes_agree (times_da (f k) a) (times_da (f k) a')) with (sizes_agree a a') in Hy. destruct (sizes_agree a a'); [ | discriminate Hx].
    injection Hx as <-. injection Hy as <-. split; [ | cbn [attrs]; exact Hn].
    set (ds := bin_dims a a'). set (sh := map (bin_len a a') ds).
    change (mkda ds (build sh (fun idx => op (at_ (times (f k) (arr a)) (map (coord ds idx) (dims a))) (at_ (times (f k) (arr a')) (map (coord ds idx) (dims a'))))) (attrs a)
      = mkda ds (times (f k) (build sh (fun idx => op (at_ (arr a) (map (coord ds idx) (dims a))) (at_ (arr a') (map (coord ds idx) (dims a')))))) (attrs a)).
    f_equal. apply times_build. intro idx. rewrite !at_times. destruct Ho as [-> | ->]; cbn [aadd asub ArithQc]; ring.
  Qed.

  Lemma sc_rates cfg : rates_fit f cfg -> named_rates P P0 cfg.
  Proof. intros Hf Ht k at' a b (-> & _). unfold P0, times_da; cbn [dims arr attrs]. rewrite (Hf Ht k). reflexivity. Qed.

  Notation PS := (Forall2 (fun x y : string * pval Qc => fst x = fst y /\ match snd x, snd y with VDA a, VDA b => P (fst x) a b | VTime s, VTime t => s = t | _, _ => False end)).
  Notation PS0 := (Forall2 (fun x y : string * pval Qc => fst x = fst y /\ match snd x, snd y with VDA a, VDA b => P0 (fst x) a b | VTime s, VTime t => s = t | _, _ => False end)).

  Lemma sc_state st : linear_state f st -> PS st (by_name times_value f st).
  Proof.
    unfold linear_state, by_name. induction st as [ | [k v] st IH]; intros H; cbn [map]; constructor; [ | apply IH; intros; apply (H name a); right; assumption].
    split; [reflexivity | ]. cbn [fst snd]. destruct v as [a | t]; cbn [times_value]; [ | reflexivity]. split; [reflexivity | apply (H k a); left; reflexivity].
  Qed.

  Lemma sc_state0 st st' : PS0 st st' -> st' = by_name times_value f st.
  Proof.
    intros H. unfold by_name. induction H as [ | [k v] [k' v'] st st' (E & H) _ IH]; cbn [map]; [reflexivity | ]. cbn [fst snd] in *. subst k'. rewrite IH. f_equal. f_equal.
    destruct v, v'; try contradiction; cbn [times_value]; unfold P0 in H; congruence.
  Qed.

  Lemma sc_linear st st' : PS st st' -> linear_state f st /\ st' = by_name times_value f st.
  Proof.
    intros H. split.
    - intros name a Hin. induction H as [ | [k v] [k' v'] st st' (E & H) _ IH]; [destruct Hin | ]. destruct Hin as [Hin | Hin]; [ | auto]. injection Hin as -> ->. cbn [fst snd] in H.
      destruct v'; [apply H | contradiction].
    - apply sc_state0. induction H as [ | [k v] [k' v'] st st' (E & H) _ IH]; constructor; [ | exact IH]. split; [exact E | ]. cbn [fst snd] in *. destruct v, v'; try assumption. apply H.
  Qed.

  Lemma sc_rates_dict t : linear_rates f t -> Forall2 (fun x y => fst x = fst y /\ P (fst x) (snd x) (snd y)) t (by_name times_da f t).
  Proof.
    unfold linear_rates, by_name. induction t as [ | [k a] t IH]; intros H; cbn [map]; constructor; [ | apply IH; intros; apply (H name a0); right; assumption].
    split; [reflexivity | ]. split; [reflexivity | apply (H k a); left; reflexivity].
  Qed.

  Lemma sc_diags d : Forall2 (fun x y => fst x = fst y /\ P0 (fst x) (snd x) (snd y)) d (by_name times_da f d).
  Proof. unfold by_name. induction d as [ | [k a] d IH]; cbn [map]; constructor; [split; reflexivity | exact IH]. Qed.

  Lemma sc_loc {U} (p : icaller (T:=Qc) U) : scales f p -> loc P P0 eq p p.
  Proof.
    intros H u v st st' dt u' v' t d t' d' <- Hs E E'. apply sc_linear in Hs as [Hl ->].
    destruct (H u st dt u' v' t d t' d' Hl E E') as (-> & -> & -> & Ht). split; [reflexivity | ]. split; [apply sc_rates_dict, Ht | apply sc_diags].
  Qed.

  Theorem scale_composite {U} (cs : list (icaller (T:=Qc) U + caller (T:=Qc) U)) :
    Forall (fun c => match c with inl p => scales f p | inr p => scales f (fun u st _ => p u st) end) cs ->
    scales f (fun u st dt => implicit_composite_call cs dt u st).
  Proof.
    intros H u st dt u' v' t d t' d' Hl Hx Hy.
    assert (K : u' = v' /\ Forall2 (fun x y => fst x = fst y /\ P (fst x) (snd x) (snd y)) t t' /\ Forall2 (fun x y => fst x = fst y /\ P0 (fst x) (snd x) (snd y)) d d').
    { unfold implicit_composite_call, tendency_composite_call in *.
      refine (par_composite P P0 sc_attrs sc_units sc_bin eq _ _ _ _ _ _ _ _ _ _ _ _ _ _ _ eq_refl (sc_state st Hl) _ _ Hx Hy); [ | constructor | constructor].
      clear - H. induction H as [ | c cs Hc H IH]; cbn; constructor; [ | exact IH]. destruct c as [p | p]; [ | exact (sc_loc _ Hc)].
      intros u v st st' dt' u' v' t d t' d'. apply (sc_loc _ Hc). }
    destruct K as (<- & K1 & K2). split; [reflexivity | ]. clear - K1 K2. split; [ | split].
    - unfold by_name. induction K1 as [ | [k a] [k' b] t t' (E & K & _) _ IH]; cbn [map]; [reflexivity | ]. cbn [fst snd] in *. subst k'. rewrite IH, K. reflexivity.
    - unfold by_name. clear K1. induction K2 as [ | [k a] [k' b] t0 t0' (E & K) _ IH]; cbn [map]; [reflexivity | ]. cbn [fst snd] in *. subst k'. rewrite IH, K. reflexivity.
    - intros name a Hin. clear K2. induction K1 as [ | [k x] [k' y] t t' (E & _ & K) _ IH]; [destruct Hin | ]. destruct Hin as [Hin | Hin]; [injection Hin as -> ->; exact K | auto].
  Qed.

  Lemma sc_log (log log' : list (state Qc)) : Forall2 PS0 log log' -> log' = map (by_name times_value f) log.
  Proof. intros H. induction H as [ | x y l l' H _ IH]; cbn [map]; [reflexivity | ]. rewrite IH, (sc_state0 _ _ H). reflexivity. Qed.

  Section Loops.
    Context {U : Type} (p : icaller (T:=Qc) U) (Hp : scales f p).

    Theorem scale_adams_bashforth {M N} (mon : M -> state Qc -> M * res unit) (mon' : N -> state Qc -> N * res unit) cfg o a0 u :
      rates_fit f cfg -> new_ab (T:=Qc) o = Ok a0 ->
      forall n stop dt m m' st w w' log log' e e', linear_state f st ->
      main_loop n [beside (adams_bashforth cfg p)] (fun w st => let (m1, r) := mon (fst w) st in ((m1, snd w), r)) stop dt (m, (a0, u)) st = ((w, log), Some (Ok e)) ->
      main_loop n [beside (adams_bashforth cfg p)] (fun w st => let (m1, r) := mon' (fst w) st in ((m1, snd w), r)) stop dt (m', (a0, u)) (by_name times_value f st) = ((w', log'), Some (Ok e')) ->
      log' = map (by_name times_value f) log /\ e' = by_name times_value f e.
    Proof.
      intros Hf Ho n stop dt m m' st w w' log log' e e' Hs Hx Hy.
      destruct (run_ab_loop P P0 sc_any sc_attrs sc_units sc_map sc_bin eq p p (sc_loc p Hp) mon mon' cfg (sc_rates cfg Hf) o a0 u u Ho eq_refl n stop dt m m' st _ w w' log log' e e' (sc_state st Hs) Hx Hy) as [K1 K2].
      split; [exact (sc_log _ _ K1) | exact (proj2 (sc_linear _ _ K2))].
    Qed.

    Theorem scale_runge_kutta {M N} (mon : M -> state Qc -> M * res unit) (mon' : N -> state Qc -> N * res unit) cfg z k0 u :
      rates_fit f cfg -> new_rk (T:=Qc) z = Ok k0 ->
      forall n stop dt m m' st w w' log log' e e', linear_state f st ->
      main_loop n [beside (ssp_rk cfg p)] (fun w st => let (m1, r) := mon (fst w) st in ((m1, snd w), r)) stop dt (m, (k0, u)) st = ((w, log), Some (Ok e)) ->
      main_loop n [beside (ssp_rk cfg p)] (fun w st => let (m1, r) := mon' (fst w) st in ((m1, snd w), r)) stop dt (m', (k0, u)) (by_name times_value f st) = ((w', log'), Some (Ok e')) ->
      log' = map (by_name times_value f) log /\ e' = by_name times_value f e.
    Proof.
      intros Hf Ho n stop dt m m' st w w' log log' e e' Hs Hx Hy.
      destruct (run_rk_loop P P0 sc_any sc_attrs sc_units sc_map sc_bin eq p p (sc_loc p Hp) mon mon' cfg (sc_rates cfg Hf) z k0 u u Ho eq_refl n stop dt m m' st _ w w' log log' e e' (sc_state st Hs) Hx Hy) as [K1 K2].
      split; [exact (sc_log _ _ K1) | exact (proj2 (sc_linear _ _ K2))].
    Qed.

    Theorem scale_leapfrog {M N} (mon : M -> state Qc -> M * res unit) (mon' : N -> state Qc -> N * res unit) cfg nu alpha u :
      rates_fit f cfg ->
      forall n stop dt m m' st s1 s1' w w' log log' e e', linear_state f st ->
      leap_main_loop n cfg p [] mon stop dt (new_leap nu alpha, u) m st = ((s1, w, log), Some (Ok e)) ->
      leap_main_loop n cfg p [] mon' stop dt (new_leap nu alpha, u) m' (by_name times_value f st) = ((s1', w', log'), Some (Ok e')) ->
      log' = map (by_name times_value f) log /\ e' = by_name times_value f e.
    Proof.
      intros Hf n stop dt m m' st s1 s1' w w' log log' e e' Hs Hx Hy.
      destruct (run_leap_loop P P0 sc_any sc_attrs sc_units sc_map sc_bin eq (fun _ _ => True) p p [] [] mon mon' cfg nu alpha (sc_rates cfg Hf) (sc_loc p Hp) (Forall2_nil _) (fun _ _ _ _ _ _ _ _ _ _ => I)
        n stop dt u u m m' st _ s1 s1' w w' log log' e e' eq_refl I (sc_state st Hs) Hx Hy) as [K1 K2].
      split; [exact (sc_log _ _ K1) | exact (proj2 (sc_linear _ _ K2))].
    Qed.
  End Loops.

  Lemma restored_units outp inp ign (st : state Qc) ra out : restore_data_arrays_with_properties ra outp st inp ign false = Ok out ->
    forall name a, In (name, a) out -> exists p, dget name outp = Some p /\ dget "units" (attrs a) = p_units p.
  Proof.
    unfold restore_data_arrays_with_properties. intros H. apply bind_ok in H as ([wn dl] & _ & H). apply bind_ok in H as (dd & _ & H). apply bind_ok in H as ([dl' o] & H & E). injection E as <-.
    assert (K : forall dd dl acc x, foldM (restore_step ra outp inp wn ign) dd (dl, acc) = Ok x ->
      (forall name a, In (name, a) acc -> exists p, dget name outp = Some p /\ dget "units" (attrs a) = p_units p) ->
      forall name a, In (name, a) (snd x) -> exists p, dget name outp = Some p /\ dget "units" (attrs a) = p_units p).
    { clear. induction dd as [ | [k ds] dd IH]; intros dl acc x Hx Ha; cbn [foldM] in Hx; [injection Hx as <-; exact Ha | ].
      apply bind_ok in Hx as ([dl1 acc1] & Hs & Hx). apply (IH dl1 acc1 x Hx). clear IH Hx.
      unfold restore_step in Hs. destruct (mem k ign); [injection Hs as <- <-; exact Ha | ].
      apply bind_ok in Hs as (rn & _ & Hs). apply bind_ok in Hs as ([[dl2 ds2] oa] & _ & Hs). apply bind_ok in Hs as (p & Hp & Hs). apply dgetE_ok in Hp.
      apply bind_ok in Hs as (un & Hu & Hs). apply bind_ok in Hs as (q & Hq & Hs). injection Hs as <- <-.
      intros name a Hin. apply in_dset_or in Hin as [(-> & ->) | Hin]; [ | auto]. exists p. split; [exact Hp | ].
      unfold create_quantity in Hq. destruct (_ =? _); [ | discriminate Hq]. injection Hq as <-. cbn [attrs dget]. rewrite String.eqb_refl.
      destruct (p_units p); [injection Hu as <-; reflexivity | discriminate Hu]. }
    exact (K dd dl [] (dl', o) H (fun _ _ F => match F with end)).
  Qed.

  Theorem scale_component {U} tg (fi f1 f2 : string -> Qc) c (ac : U -> dict (rval Qc) -> Z -> U * res (dict (nd Qc) * dict (nd Qc))) :
    t_packer c = None -> homogeneous fi f1 f2 ac -> input_factors f fi (t_inp c) -> output_factors f f1 (t_tend c) (t_inp c) -> output_factors f f2 (t_diag c) (t_inp c) ->
    (t_tid c = true -> forall name, f (tendency_name (t_name c) name) = f name) -> linear_props f (t_tend c) ->
    scales f (fun u st dt => tendency_call tg c (fun u raw => ac u raw dt) u st).
  Proof.
    intros Hpk Hh Hi Ho1 Ho2 Ht Hlp u st dt u' v' t d t' d' Hl Hx Hy.
    assert (Hn : no_offsets f (t_inp c) st) by (intros name a _ X; apply (Hl name a), dget_In, X).
    rewrite (scale_tendency tg f fi f f f1 f2 c ac Hpk Hh Hi Ho1 Ho2 Ht u st dt Hn), Hx in Hy. cbn [fst snd result_map] in Hy. injection Hy as <- <- <-.
    split; [reflexivity | split; [reflexivity | split; [reflexivity | ]]].
    unfold tendency_call in Hx. rewrite Hpk in Hx. destruct (let* _ := raise_if _ _ in _) as [raw | e]; [ | discriminate Hx].
    destruct (ac u raw dt) as [u1 r]. injection Hx as _ Hx. apply bind_ok in Hx as ([o1 o2] & _ & Hx). unfold tendency_finish in Hx. rewrite Hpk in Hx. cbn [unpack_tracers bind fst snd] in Hx.
    apply bind_ok in Hx as ([] & _ & Hx). apply bind_ok in Hx as ([] & _ & Hx). apply bind_ok in Hx as (t0 & Hr & Hx). apply bind_ok in Hx as (d0 & _ & Hx).
    pose proof (restore_NoDup _ _ _ _ _ _ _ Hr) as Hnd. rewrite dupdate_nil in Hx by exact Hnd. injection Hx as <- _.
    intros name a Hin. destruct (restored_units _ _ _ _ _ _ Hr name a Hin) as (p & Hp & ->). apply (Hlp name p Hp).
  Qed.
End Runs.
