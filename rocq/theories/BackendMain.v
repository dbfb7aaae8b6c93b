(** Proofs about component calls with any backend. *)
From Coq Require Import String List Bool Arith ZArith Lia.
From Verif Require Import Prelude PreludeFacts ArithM NdArray NdFacts Units DataArrayM Wildcard GetNp Restore InitNp Tracers Components WildcardFacts GetNpFacts ExtractFacts RestoreFacts ComponentFacts CallFacts Backend SpecBackend.
Import ListNotations.
Open Scope string_scope.
Open Scope nat_scope.
Open Scope list_scope.

(** ** Related computations *)

Section Rel.
  Lemma bind_rel : forall {A A' B B'} (P : A -> A' -> Prop) (Q : B -> B' -> Prop)
      (x : res A) (x' : res A') (f : A -> res B) (f' : A' -> res B'),
    same_outcome P x x' -> (forall a a', P a a' -> same_outcome Q (f a) (f' a')) ->
    same_outcome Q (let* a := x in f a) (let* a := x' in f' a).
  Proof.
    intros A A' B B' P Q x x' f f' H Hf. destruct x as [a|e], x' as [a'|e']; cbn in *; try contradiction; auto.
  Qed.

  Lemma rel_refl : forall {A} (x : res A), same_outcome eq x x.
  Proof. intros A x. destruct x; cbn; auto. Qed.

  Lemma rel_eq : forall {A} (x y : res A), same_outcome eq x y <-> x = y.
  Proof.
    intros A x y. split.
    - destruct x, y; cbn; intros; try contradiction; congruence.
    - intros ->. apply rel_refl.
  Qed.

  Lemma rel_mono : forall {A B} (P Q : A -> B -> Prop) x y,
    (forall a b, P a b -> Q a b) -> same_outcome P x y -> same_outcome Q x y.
  Proof. intros A B P Q x y H. destruct x, y; cbn; auto. Qed.

  Lemma foldM_rel : forall {A S S'} (P : S -> S' -> Prop) (f : S -> A -> res S) (f' : S' -> A -> res S') l s s',
    P s s' -> (forall s s' a, In a l -> P s s' -> same_outcome P (f s a) (f' s' a)) ->
    same_outcome P (foldM f l s) (foldM f' l s').
  Proof.
    intros A S S' P f f' l. induction l as [|a l IH]; intros s s' H Hf; cbn.
    - exact H.
    - apply (bind_rel P); [apply Hf; [left; reflexivity|exact H]|].
      intros b b' Hb. apply IH; [exact Hb|]. intros s0 s0' a0 Ha0. apply Hf. right. exact Ha0.
  Qed.

  Context {X Y : Type} (P : X -> Y -> Prop).

  Lemma rel_dget : forall k (d : dict X) (e : dict Y), same_dict P d e ->
    match dget k d, dget k e with
    | Some x, Some y => P x y
    | None, None => True
    | _, _ => False
    end.
  Proof.
    intros k d e H. induction H as [|[k1 x] [k2 y] d e [Hk Hv] H IH]; cbn in *; auto.
    subst k2. destruct (String.eqb k k1); auto.
  Qed.

  Lemma rel_dgetE : forall k (d : dict X) (e : dict Y), same_dict P d e ->
    same_outcome P (dgetE k d) (dgetE k e).
  Proof.
    intros k d e H. pose proof (rel_dget k d e H) as G. unfold dgetE.
    destruct (dget k d), (dget k e); cbn; auto; contradiction.
  Qed.

  Lemma rel_dmem : forall k (d : dict X) (e : dict Y), same_dict P d e -> dmem k d = dmem k e.
  Proof.
    intros k d e H. pose proof (rel_dget k d e H) as G. unfold dmem.
    destruct (dget k d), (dget k e); auto; contradiction.
  Qed.

  Lemma rel_dset : forall k x y (d : dict X) (e : dict Y), P x y -> same_dict P d e ->
    same_dict P (dset k x d) (dset k y e).
  Proof.
    intros k x y d e Hx H. induction H as [|[k1 a] [k2 b] d e [Hk Hv] H IH]; cbn in *.
    - constructor; [split; [reflexivity|exact Hx]|constructor].
    - subst k2. destruct (String.eqb k k1); constructor; cbn; auto.
  Qed.

  Lemma rel_dupdate : forall (d2 : dict X) (e2 : dict Y), same_dict P d2 e2 -> forall d1 e1,
    same_dict P d1 e1 -> same_dict P (dupdate d1 d2) (dupdate e1 e2).
  Proof.
    unfold dupdate. intros d2 e2 H. induction H as [|[k1 a] [k2 b] d e [Hk Hv] H IH]; intros d1 e1 H1; cbn in *; auto.
    subst k2. apply IH. apply rel_dset; auto.
  Qed.
End Rel.

(** ** Representation independence *)

Section Two.
  Context {T V W : Type} {A : Arith T}.
  Variables (B1 : backend T V) (B2 : backend T W) (Rel : V -> W -> Prop).
  Hypothesis HR : represents Rel B1 B2.

  Lemma rel_wildcard : forall st1 st2 pd, same_dict Rel st1 st2 ->
    gb_wildcard_matches B1 st1 pd = gb_wildcard_matches B2 st2 pd.
  Proof.
    intros st1 st2 pd Hst. apply rel_eq. unfold gb_wildcard_matches.
    apply (bind_rel eq).
    - apply foldM_rel; [reflexivity|]. intros s s' np _ <-. unfold gb_wildcard_step.
      apply (bind_rel eq); [apply rel_refl|]. intros [pd' u] a' <-.
      apply (bind_rel Rel); [apply rel_dgetE; exact Hst|]. intros v w Hv.
      rewrite (rep_dims _ _ _ HR v w Hv), (rep_shape _ _ _ HR v w Hv). apply rel_refl.
    - intros a a' <-. apply rel_refl.
  Qed.

  Lemma rel_get_arrays : forall st1 st2 pd, same_dict Rel st1 st2 ->
    gb_get_arrays B1 st1 pd = gb_get_arrays B2 st2 pd.
  Proof.
    intros st1 st2 pd Hst. unfold gb_get_arrays. rewrite (rel_wildcard st1 st2 pd Hst). apply rel_eq.
    apply (bind_rel eq); [apply rel_refl|]. intros [wn dl] a' <-.
    apply foldM_rel; [reflexivity|]. intros s s' np _ <-. unfold gb_extract_step.
    apply (bind_rel eq); [apply rel_refl|]. intros [pd' u] b' <-.
    apply (bind_rel Rel); [apply rel_dgetE; exact Hst|]. intros v w Hv.
    apply (bind_rel eq).
    - apply rel_eq. destruct (index_of "*" pd') as [i|]; [|apply (rep_get _ _ _ HR); exact Hv].
      destruct wn as [names|]; [|reflexivity].
      rewrite (rep_get _ _ _ HR v w _ _ _ _ Hv). reflexivity.
    - intros a a' <-. apply rel_refl.
  Qed.

  Lemma rel_restore : forall raw outp st1 st2 inp ign, same_dict Rel st1 st2 ->
    same_outcome (same_dict Rel) (gb_restore B1 raw outp st1 inp ign) (gb_restore B2 raw outp st2 inp ign).
  Proof.
    intros raw outp st1 st2 inp ign Hst. unfold gb_restore. rewrite (rel_wildcard st1 st2 inp Hst).
    apply (bind_rel eq); [apply rel_refl|]. intros [wn dl] a' <-.
    apply (bind_rel eq); [apply rel_refl|]. intros dd dd' <-.
    apply (bind_rel (fun x y => fst x = fst y /\ same_dict Rel (snd x) (snd y))).
    - apply foldM_rel; [split; [reflexivity|constructor]|].
      intros [d1 o1] [d2 o2] [name ods] _ [Hd Ho]. cbn in Hd, Ho. subst d2. unfold gb_restore_step.
      destruct (mem name ign); [split; [reflexivity|exact Ho]|].
      apply (bind_rel eq); [apply rel_refl|]. intros rn rn' <-.
      apply (bind_rel eq); [apply rel_refl|]. intros [[dl' ds] oa] r' <-.
      apply (bind_rel eq); [apply rel_refl|]. intros p p' <-.
      apply (bind_rel eq); [apply rel_refl|]. intros u u' <-.
      apply (bind_rel Rel); [apply (rep_create _ _ _ HR); exact Hst|]. intros q q' Hq.
      split; [reflexivity|]. apply rel_dset; auto.
    - intros [d1 o1] [d2 o2] [_ Ho]. exact Ho.
  Qed.

  Lemma rel_pack : forall g p st1 st2, same_dict Rel st1 st2 -> gb_pack B1 g p st1 = gb_pack B2 g p st2.
  Proof. intros g p st1 st2 H. unfold gb_pack. rewrite (rel_get_arrays st1 st2 _ H). reflexivity. Qed.

  Lemma rel_unpack : forall g p a st1 st2 mult, same_dict Rel st1 st2 ->
    same_outcome (same_dict Rel) (gb_unpack B1 g p a st1 mult) (gb_unpack B2 g p a st2 mult).
  Proof.
    intros g p a st1 st2 mult H. unfold gb_unpack. apply (bind_rel eq); [apply rel_refl|].
    intros r r' <-. apply rel_restore; exact H.
  Qed.

  Lemma rel_check_inputs : forall inp (st1 : dict V) (st2 : dict W), same_dict Rel st1 st2 ->
    check_inputs inp st1 = check_inputs inp st2.
  Proof.
    intros inp st1 st2 H. unfold check_inputs. apply rel_eq. apply foldM_rel; [reflexivity|].
    intros s s' np _ _. rewrite (rel_dmem Rel _ _ _ H). apply rel_refl.
  Qed.

  Lemma rel_arrays_raw : forall (d : dict (nd T)),
    same_raw Rel (map (fun kv => (fst kv, GArr (snd kv))) d) (map (fun kv => (fst kv, GArr (snd kv))) d).
  Proof. intros d. induction d as [|[k a] d IH]; cbn; constructor; cbn; auto. Qed.

  Lemma rel_raw_state : forall g inp pk st1 st2, same_dict Rel st1 st2 ->
    same_outcome (same_raw Rel) (gb_raw_state B1 g inp pk st1) (gb_raw_state B2 g inp pk st2).
  Proof.
    intros g inp pk st1 st2 H. unfold gb_raw_state.
    rewrite (rel_check_inputs inp st1 st2 H), (rel_get_arrays st1 st2 inp H).
    apply (bind_rel eq); [apply rel_refl|]. intros _ _ _.
    apply (bind_rel eq); [apply rel_refl|]. intros d d' <-.
    apply (bind_rel (same_raw Rel)).
    - destruct pk as [p|]; [|apply rel_arrays_raw].
      rewrite (rel_pack g p st1 st2 H). apply (bind_rel eq); [apply rel_refl|]. intros t t' <-.
      apply rel_dset; [reflexivity|apply rel_arrays_raw].
    - intros r r' Hr. apply (bind_rel Rel); [apply rel_dgetE; exact H|]. intros t t' Ht.
      apply rel_dset; [exact Ht|exact Hr].
  Qed.

  Lemma rel_unpack_tracers : forall g pk mult raw st1 st2, same_dict Rel st1 st2 ->
    same_outcome (fun x y => same_dict Rel (fst x) (fst y) /\ snd x = snd y)
      (gb_unpack_tracers B1 g pk mult raw st1) (gb_unpack_tracers B2 g pk mult raw st2).
  Proof.
    intros g pk mult raw st1 st2 H. unfold gb_unpack_tracers. destruct pk as [p|].
    - apply (bind_rel eq); [apply rel_refl|]. intros t t' <-.
      apply (bind_rel (same_dict Rel)); [apply rel_unpack; exact H|]. intros o o' Ho. split; [exact Ho|reflexivity].
    - split; [constructor|reflexivity].
  Qed.

  Lemma rel_insert : forall comp tend1 tend2, same_dict Rel tend1 tend2 -> forall diag1 diag2, same_dict Rel diag1 diag2 ->
    same_dict Rel (gb_insert_tendencies comp tend1 diag1) (gb_insert_tendencies comp tend2 diag2).
  Proof.
    unfold gb_insert_tendencies. intros comp t1 t2 H. induction H as [|[k a] [k' b] t1 t2 [Hk Hv] H IH]; intros d1 d2 Hd; cbn in *; auto.
    subst k'. apply IH. apply rel_dset; auto.
  Qed.

  Lemma rel_tendency_finish : forall g c st1 st2 out, same_dict Rel st1 st2 ->
    same_outcome (same_pair Rel) (gb_tendency_finish B1 g c st1 out) (gb_tendency_finish B2 g c st2 out).
  Proof.
    intros g c st1 st2 out H. unfold gb_tendency_finish.
    apply (bind_rel _ _ _ _ _ _ (rel_unpack_tracers g (t_packer c) (t_tunit c) (fst out) st1 st2 H)).
    intros [tr1 raw] [tr2 raw'] [Htr Hraw]. cbn in Htr, Hraw. subst raw'.
    apply (bind_rel eq); [apply rel_refl|]. intros _ _ _.
    apply (bind_rel eq); [apply rel_refl|]. intros _ _ _.
    apply (bind_rel (same_dict Rel)); [apply rel_restore; exact H|]. intros t1 t2 Ht.
    apply (bind_rel (same_dict Rel)); [apply rel_restore; exact H|]. intros d1 d2 Hd.
    assert (Hu : same_dict Rel (dupdate tr1 t1) (dupdate tr2 t2)) by (apply rel_dupdate; assumption).
    split; cbn; [exact Hu|]. destruct (t_tid c); [apply rel_insert; assumption|exact Hd].
  Qed.

  Theorem main_backend_tendency : forall {U} g c
      (ac1 : U -> dict (grval T V) -> U * res (dict (nd T) * dict (nd T)))
      (ac2 : U -> dict (grval T W) -> U * res (dict (nd T) * dict (nd T))) u st1 st2,
    (forall u r1 r2, same_raw Rel r1 r2 -> ac1 u r1 = ac2 u r2) ->
    same_dict Rel st1 st2 ->
    fst (gb_tendency_call B1 g c ac1 u st1) = fst (gb_tendency_call B2 g c ac2 u st2) /\
    same_outcome (same_pair Rel) (snd (gb_tendency_call B1 g c ac1 u st1)) (snd (gb_tendency_call B2 g c ac2 u st2)).
  Proof.
    intros U g c ac1 ac2 u st1 st2 Hac H. unfold gb_tendency_call.
    destruct (negb (t_init c)); cbn [raise_if bind]; [split; reflexivity|].
    pose proof (rel_raw_state g (t_inp c) (t_packer c) st1 st2 H) as HRw.
    destruct (gb_raw_state B1 g (t_inp c) (t_packer c) st1) as [r1|e1],
             (gb_raw_state B2 g (t_inp c) (t_packer c) st2) as [r2|e2]; cbn in HRw; try contradiction.
    - rewrite (Hac u r1 r2 HRw). destruct (ac2 u r2) as [u' r]. split; [reflexivity|]. cbn [snd].
      apply (bind_rel eq); [apply rel_refl|]. intros o o' <-. apply rel_tendency_finish; exact H.
    - split; [reflexivity|exact HRw].
  Qed.

  Theorem main_backend_diagnostic : forall {U} c
      (ac1 : U -> dict (grval T V) -> U * res (dict (nd T)))
      (ac2 : U -> dict (grval T W) -> U * res (dict (nd T))) u st1 st2,
    (forall u r1 r2, same_raw Rel r1 r2 -> ac1 u r1 = ac2 u r2) ->
    same_dict Rel st1 st2 ->
    fst (gb_diagnostic_call B1 c ac1 u st1) = fst (gb_diagnostic_call B2 c ac2 u st2) /\
    same_outcome (same_dict Rel) (snd (gb_diagnostic_call B1 c ac1 u st1)) (snd (gb_diagnostic_call B2 c ac2 u st2)).
  Proof.
    intros U c ac1 ac2 u st1 st2 Hac H. unfold gb_diagnostic_call.
    destruct (negb (d_init c)); cbn [raise_if bind]; [split; reflexivity|].
    pose proof (rel_raw_state empty_treg (d_inp c) None st1 st2 H) as HRw.
    destruct (gb_raw_state B1 empty_treg (d_inp c) None st1) as [r1|e1],
             (gb_raw_state B2 empty_treg (d_inp c) None st2) as [r2|e2]; cbn in HRw; try contradiction.
    - rewrite (Hac u r1 r2 HRw). destruct (ac2 u r2) as [u' r]. split; [reflexivity|]. cbn [snd].
      apply (bind_rel eq); [apply rel_refl|]. intros o o' <-. unfold gb_diagnostic_finish.
      apply (bind_rel eq); [apply rel_refl|]. intros _ _ _. apply rel_restore; exact H.
    - split; [reflexivity|exact HRw].
  Qed.

  Lemma rel_stepper_insert : forall c dt r1 r2 raw_new raw_diag, same_raw Rel r1 r2 ->
    gb_stepper_insert c dt r1 raw_new raw_diag = gb_stepper_insert c dt r2 raw_new raw_diag.
  Proof.
    intros c dt r1 r2 rn rd H. unfold gb_stepper_insert. apply rel_eq. apply foldM_rel; [reflexivity|].
    intros s s' np _ <-. apply (bind_rel eq); [apply rel_refl|]. intros n n' <-.
    apply (bind_rel eq).
    - apply rel_eq. unfold gb_raw_array. pose proof (rel_dgetE _ (fst np) _ _ H) as G.
      destruct (dgetE (fst np) r1) as [[a|t]|e], (dgetE (fst np) r2) as [[b|s0]|e']; cbn in *; try contradiction; congruence.
    - intros o o' <-. apply rel_refl.
  Qed.

  Theorem main_backend_stepper : forall {U} g c
      (ac1 : U -> dict (grval T V) -> Z -> U * res (dict (nd T) * dict (nd T)))
      (ac2 : U -> dict (grval T W) -> Z -> U * res (dict (nd T) * dict (nd T))) u st1 st2 dt,
    (forall u r1 r2 dt, same_raw Rel r1 r2 -> ac1 u r1 dt = ac2 u r2 dt) ->
    same_dict Rel st1 st2 ->
    fst (gb_stepper_call B1 g c ac1 u st1 dt) = fst (gb_stepper_call B2 g c ac2 u st2 dt) /\
    same_outcome (same_pair Rel) (snd (gb_stepper_call B1 g c ac1 u st1 dt)) (snd (gb_stepper_call B2 g c ac2 u st2 dt)).
  Proof.
    intros U g c ac1 ac2 u st1 st2 dt Hac H. unfold gb_stepper_call.
    destruct (negb (s_init c)); cbn [raise_if bind]; [split; reflexivity|].
    pose proof (rel_raw_state g (s_inp c) (s_packer c) st1 st2 H) as HRw.
    destruct (gb_raw_state B1 g (s_inp c) (s_packer c) st1) as [r1|e1],
             (gb_raw_state B2 g (s_inp c) (s_packer c) st2) as [r2|e2]; cbn in HRw; try contradiction.
    - rewrite (Hac u r1 r2 dt HRw). destruct (ac2 u r2 dt) as [u' r]. split; [reflexivity|]. cbn [snd].
      apply (bind_rel eq); [apply rel_refl|]. intros [rd rn] o' <-. unfold gb_stepper_finish.
      apply (bind_rel _ _ _ _ _ _ (rel_unpack_tracers g (s_packer c) "" rn st1 st2 H)).
      intros [tr1 raw] [tr2 raw'] [Htr Hraw]. cbn in Htr, Hraw. subst raw'.
      apply (bind_rel eq); [apply rel_refl|]. intros _ _ _.
      apply (bind_rel eq); [apply rel_refl|]. intros _ _ _.
      rewrite (rel_stepper_insert c dt r1 r2 raw rd HRw).
      apply (bind_rel eq); [apply rel_refl|]. intros rd' rd'' <-.
      apply (bind_rel (same_dict Rel)); [apply rel_restore; exact H|]. intros d1 d2 Hd.
      apply (bind_rel (same_dict Rel)); [apply rel_restore; exact H|]. intros n1 n2 Hn.
      split; cbn; [exact Hd|]. apply rel_dupdate; assumption.
    - split; [reflexivity|exact HRw].
  Qed.
End Two.

(** ** The default backend *)

Section DefaultFacts.
  Context {T : Type} {A : Arith T} {R : Registry}.
  Notation DB := (da_backend (T := T)).
  Definition is_da (v : pval T) (q : da T) : Prop := v = VDA q.

  Lemma default_wildcard : forall (st : state T) pd,
    gb_wildcard_matches DB st pd = get_wildcard_matches_and_dim_lengths st pd.
  Proof.
    intros st pd. unfold gb_wildcard_matches, get_wildcard_matches_and_dim_lengths. apply rel_eq.
    apply (bind_rel eq); [|intros a a' <-; apply rel_refl].
    apply foldM_rel; [reflexivity|]. intros s s' np _ <-. unfold gb_wildcard_step, wildcard_step.
    apply (bind_rel eq); [apply rel_refl|]. intros [pd' u] b' <-.
    apply (bind_rel eq); [apply rel_refl|]. intros v v' <-.
    destruct v as [a|t]; apply rel_refl.
  Qed.

  Lemma default_get : forall (st : state T) pd,
    gb_get_arrays DB st pd = get_numpy_arrays_with_properties st pd.
  Proof.
    intros st pd. unfold gb_get_arrays, get_numpy_arrays_with_properties. rewrite default_wildcard. reflexivity.
  Qed.

  Lemma default_restore : forall raw outp (st : state T) inp ign,
    same_outcome (same_dict is_da) (gb_restore DB raw outp st inp ign)
      (restore_data_arrays_with_properties raw outp st inp ign false).
  Proof.
    intros raw outp st inp ign. unfold gb_restore, restore_data_arrays_with_properties. rewrite default_wildcard.
    apply (bind_rel eq); [apply rel_refl|]. intros [wn dl] a' <-.
    apply (bind_rel eq); [apply rel_refl|]. intros dd dd' <-.
    apply (bind_rel (fun x y => fst x = fst y /\ same_dict is_da (snd x) (snd y))).
    - apply foldM_rel; [split; [reflexivity|constructor]|].
      intros [d1 o1] [d2 o2] [name ods] _ [Hd Ho]. cbn in Hd, Ho. subst d2. unfold gb_restore_step, restore_step.
      destruct (mem name ign); [split; [reflexivity|exact Ho]|].
      apply (bind_rel eq); [apply rel_refl|]. intros rn rn' <-.
      apply (bind_rel eq); [apply rel_refl|]. intros [[dl' ds] oa] r' <-.
      apply (bind_rel eq); [apply rel_refl|]. intros p p' <-.
      apply (bind_rel eq); [apply rel_refl|]. intros u u' <-.
      apply (bind_rel is_da); [|intros q q' Hq; split; [reflexivity|apply rel_dset; auto]].
      cbn. destruct (create_quantity oa u ds); cbn; reflexivity.
    - intros [d1 o1] [d2 o2] [_ Ho]. exact Ho.
  Qed.

  Lemma default_pack : forall g p (st : state T), gb_pack DB g p st = pack g p st.
  Proof. intros g p st. unfold gb_pack, pack. rewrite default_get. reflexivity. Qed.

  Lemma default_unpack_tracers : forall g pk mult raw (st : state T),
    same_outcome (fun x y => same_dict is_da (fst x) (fst y) /\ snd x = snd y)
      (gb_unpack_tracers DB g pk mult raw st) (unpack_tracers g pk mult raw st).
  Proof.
    intros g pk mult raw st. unfold gb_unpack_tracers, unpack_tracers. destruct pk as [p|].
    - apply (bind_rel eq); [apply rel_refl|]. intros t t' <-.
      apply (bind_rel (same_dict is_da)); [|intros o o' Ho; split; [exact Ho|reflexivity]].
      unfold gb_unpack, unpack. apply (bind_rel eq); [apply rel_refl|]. intros r r' <-. apply default_restore.
    - split; [constructor|reflexivity].
  Qed.

  Lemma default_insert : forall comp t1 (t2 : dict (da T)), same_dict is_da t1 t2 -> forall d1 d2, same_dict is_da d1 d2 ->
    same_dict is_da (gb_insert_tendencies comp t1 d1) (insert_tendencies comp t2 d2).
  Proof.
    unfold gb_insert_tendencies, insert_tendencies. intros comp t1 t2 H.
    induction H as [|[k a] [k' b] t1 t2 [Hk Hv] H IH]; intros d1 d2 Hd; cbn in *; auto.
    subst k'. apply IH. apply rel_dset; auto.
  Qed.

  Lemma is_da_dict : forall d (e : dict (da T)), same_dict is_da d e -> d = as_values e.
  Proof.
    intros d e H. induction H as [|[k a] [k' b] d e [Hk Hv] H IH]; cbn in *; auto.
    unfold is_da in Hv. subst. reflexivity.
  Qed.

  Definition raw_rel (x : grval T (pval T)) (y : rval T) : Prop :=
    y = match x with GArr a => RArr a | GTime t => RTime t end.

  Lemma default_raw_rel : forall r r', same_dict raw_rel r r' <-> r' = default_raw r.
  Proof.
    intros r r'. split.
    - intros H. induction H as [|[k a] [k' b] d e [Hk Hv] H IH]; cbn in *; auto.
      unfold raw_rel in Hv. subst. reflexivity.
    - intros ->. induction r as [|[k x] r IH]; cbn; constructor; cbn; auto. split; reflexivity.
  Qed.

  Lemma default_raw_state : forall g inp pk (st : state T),
    same_outcome (same_dict raw_rel) (gb_raw_state DB g inp pk st) (raw_state g inp pk st).
  Proof.
    intros g inp pk st. unfold gb_raw_state, raw_state. rewrite default_get.
    apply (bind_rel eq); [apply rel_refl|]. intros _ _ _.
    apply (bind_rel eq); [apply rel_refl|]. intros d d' <-.
    assert (Ha : forall d : dict (nd T), same_dict raw_rel (map (fun kv => (fst kv, GArr (snd kv))) d) (map (fun kv => (fst kv, RArr (snd kv))) d)).
    { intros d0. induction d0 as [|[k a] d0 IH]; cbn; constructor; cbn; auto. split; reflexivity. }
    apply (bind_rel (same_dict raw_rel)).
    - destruct pk as [p|]; [|apply Ha]. rewrite default_pack.
      apply (bind_rel eq); [apply rel_refl|]. intros t t' <-. apply rel_dset; [reflexivity|apply Ha].
    - intros r r' Hr. apply (bind_rel eq); [apply rel_refl|]. intros t t' <-. apply rel_dset; [reflexivity|exact Hr].
  Qed.

  Theorem main_default_tendency : forall {U} g c
      (ac : U -> dict (rval T) -> U * res (dict (nd T) * dict (nd T))) u (st : state T),
    fst (gb_tendency_call DB g c (fun u raw => ac u (default_raw raw)) u st) = fst (tendency_call g c ac u st) /\
    snd (gb_tendency_call DB g c (fun u raw => ac u (default_raw raw)) u st) =
      (let* (tend, diag) := snd (tendency_call g c ac u st) in Ok (as_values tend, as_values diag)).
  Proof.
    intros U g c ac u st. unfold gb_tendency_call, tendency_call.
    destruct (negb (t_init c)); cbn [raise_if bind]; [split; reflexivity|].
    pose proof (default_raw_state g (t_inp c) (t_packer c) st) as HRw.
    destruct (gb_raw_state DB g (t_inp c) (t_packer c) st) as [r1|e1],
             (raw_state g (t_inp c) (t_packer c) st) as [r2|e2]; cbn in HRw; try contradiction.
    - apply default_raw_rel in HRw. subst r2. destruct (ac u (default_raw r1)) as [u' r]. split; [reflexivity|]. cbn [snd].
      apply rel_eq. destruct r as [o|e]; [|reflexivity]. cbn [bind].
      unfold gb_tendency_finish, tendency_finish.
      pose proof (default_unpack_tracers g (t_packer c) (t_tunit c) (fst o) st) as HU.
      destruct (gb_unpack_tracers DB g (t_packer c) (t_tunit c) (fst o) st) as [[tr1 raw]|e],
               (unpack_tracers g (t_packer c) (t_tunit c) (fst o) st) as [[tr2 raw']|e']; cbn in HU; try contradiction; cbn [bind];
        [|cbn; assumption].
      destruct HU as [Htr <-].
      destruct (check_outputs (t_tend c) (t_inp c) [] raw) as [[]|e]; cbn [bind]; [|reflexivity].
      destruct (check_outputs (t_diag c) (t_inp c) (t_added c) (snd o)) as [[]|e]; cbn [bind]; [|reflexivity].
      pose proof (default_restore raw (t_tend c) st (t_inp c) []) as H1.
      destruct (gb_restore DB raw (t_tend c) st (t_inp c) []) as [t1|e1],
               (restore_data_arrays_with_properties raw (t_tend c) st (t_inp c) [] false) as [t2|e2]; cbn in H1; try contradiction; cbn [bind];
        [|cbn; assumption].
      pose proof (default_restore (snd o) (t_diag c) st (t_inp c) (t_added c)) as H2.
      destruct (gb_restore DB (snd o) (t_diag c) st (t_inp c) (t_added c)) as [d1|e1],
               (restore_data_arrays_with_properties (snd o) (t_diag c) st (t_inp c) (t_added c) false) as [d2|e2]; cbn in H2; try contradiction; cbn [bind];
        [|cbn; assumption].
      assert (Hu : same_dict is_da (dupdate tr1 t1) (dupdate tr2 t2)) by (apply rel_dupdate; assumption).
      cbn. f_equal; [apply is_da_dict; exact Hu|].
      destruct (t_tid c); apply is_da_dict; [apply default_insert; assumption|assumption].
    - subst e2. split; reflexivity.
  Qed.

  Theorem main_default_diagnostic : forall {U} c
      (ac : U -> dict (rval T) -> U * res (dict (nd T))) u (st : state T),
    fst (gb_diagnostic_call DB c (fun u raw => ac u (default_raw raw)) u st) = fst (diagnostic_call c ac u st) /\
    snd (gb_diagnostic_call DB c (fun u raw => ac u (default_raw raw)) u st) =
      (let* diag := snd (diagnostic_call c ac u st) in Ok (as_values diag)).
  Proof.
    intros U c ac u st. unfold gb_diagnostic_call, diagnostic_call.
    destruct (negb (d_init c)); cbn [raise_if bind]; [split; reflexivity|].
    pose proof (default_raw_state empty_treg (d_inp c) None st) as HRw.
    destruct (gb_raw_state DB empty_treg (d_inp c) None st) as [r1|e1],
             (raw_state empty_treg (d_inp c) None st) as [r2|e2]; cbn in HRw; try contradiction.
    - apply default_raw_rel in HRw. subst r2. destruct (ac u (default_raw r1)) as [u' r]. split; [reflexivity|]. cbn [snd].
      apply rel_eq. destruct r as [o|e]; [|reflexivity]. cbn [bind].
      unfold gb_diagnostic_finish, diagnostic_finish.
      destruct (check_outputs (d_diag c) (d_inp c) [] o) as [[]|e]; cbn [bind]; [|reflexivity].
      pose proof (default_restore o (d_diag c) st (d_inp c) []) as H1.
      destruct (gb_restore DB o (d_diag c) st (d_inp c) []) as [t1|e1],
               (restore_data_arrays_with_properties o (d_diag c) st (d_inp c) [] false) as [t2|e2]; cbn in H1; try contradiction; cbn [bind];
        cbn; [apply is_da_dict; exact H1|assumption].
    - subst e2. split; reflexivity.
  Qed.

  Theorem main_default_stepper : forall {U} g c
      (ac : U -> dict (rval T) -> Z -> U * res (dict (nd T) * dict (nd T))) u (st : state T) dt,
    fst (gb_stepper_call DB g c (fun u raw dt => ac u (default_raw raw) dt) u st dt) = fst (stepper_call g c ac u st dt) /\
    snd (gb_stepper_call DB g c (fun u raw dt => ac u (default_raw raw) dt) u st dt) =
      (let* (diag, new) := snd (stepper_call g c ac u st dt) in Ok (as_values diag, as_values new)).
  Proof.
    intros U g c ac u st dt. unfold gb_stepper_call, stepper_call.
    destruct (negb (s_init c)); cbn [raise_if bind]; [split; reflexivity|].
    pose proof (default_raw_state g (s_inp c) (s_packer c) st) as HRw.
    destruct (gb_raw_state DB g (s_inp c) (s_packer c) st) as [r1|e1],
             (raw_state g (s_inp c) (s_packer c) st) as [r2|e2]; cbn in HRw; try contradiction.
    - pose proof HRw as Hrr. apply default_raw_rel in HRw. subst r2.
      destruct (ac u (default_raw r1) dt) as [u' r]. split; [reflexivity|]. cbn [snd].
      apply rel_eq. destruct r as [[rd rn]|e]; [|reflexivity]. cbn [bind].
      unfold gb_stepper_finish, stepper_finish.
      pose proof (default_unpack_tracers g (s_packer c) "" rn st) as HU.
      destruct (gb_unpack_tracers DB g (s_packer c) "" rn st) as [[tr1 raw]|e],
               (unpack_tracers g (s_packer c) "" rn st) as [[tr2 raw']|e']; cbn in HU; try contradiction; cbn [bind];
        [|cbn; assumption].
      destruct HU as [Htr <-].
      destruct (check_outputs (s_diag c) (s_inp c) (s_ign c) rd) as [[]|e]; cbn [bind]; [|reflexivity].
      destruct (check_outputs (s_out c) (s_inp c) [] raw) as [[]|e]; cbn [bind]; [|reflexivity].
      assert (Hi : gb_stepper_insert c dt r1 raw rd = stepper_insert c dt (default_raw r1) raw rd).
      { unfold gb_stepper_insert, stepper_insert. apply rel_eq. apply foldM_rel; [reflexivity|].
        intros s s' np _ <-. apply (bind_rel eq); [apply rel_refl|]. intros n n' <-.
        apply (bind_rel eq); [|intros o o' <-; apply rel_refl].
        apply rel_eq. unfold gb_raw_array, get_raw_array. pose proof (rel_dgetE _ (fst np) _ _ Hrr) as G.
        destruct (dgetE (fst np) r1) as [[a|t]|e], (dgetE (fst np) (default_raw r1)) as [b|e'];
          cbn in G |- *; try contradiction; unfold raw_rel in G; subst; reflexivity. }
      rewrite Hi. clear Hi.
      destruct (if s_tid c then stepper_insert c dt (default_raw r1) raw rd else Ok rd) as [rd'|e]; cbn [bind]; [|reflexivity].
      pose proof (default_restore rd' (s_diag c) st (s_inp c) []) as H1.
      destruct (gb_restore DB rd' (s_diag c) st (s_inp c) []) as [t1|e1],
               (restore_data_arrays_with_properties rd' (s_diag c) st (s_inp c) [] false) as [t2|e2]; cbn in H1; try contradiction; cbn [bind];
        [|cbn; assumption].
      pose proof (default_restore raw (s_out c) st (s_inp c) []) as H2.
      destruct (gb_restore DB raw (s_out c) st (s_inp c) []) as [d1|e1],
               (restore_data_arrays_with_properties raw (s_out c) st (s_inp c) [] false) as [d2|e2]; cbn in H2; try contradiction; cbn [bind];
        [|cbn; assumption].
      cbn. f_equal; apply is_da_dict; [exact H1|apply rel_dupdate; assumption].
    - subst e2. split; reflexivity.
  Qed.
End DefaultFacts.

(** ** What any backend is asked *)

Section Any.
  Context {T V : Type} {A : Arith T}.
  Variable B : backend T V.

  Lemma gb_scan_ok : forall st pd wn0 dl0 wn dl,
    foldM (gb_wildcard_step B st) pd (wn0, dl0) = Ok (wn, dl) ->
    (forall d, In d wn <-> In d wn0 \/ undeclared_dim B st pd d) /\
    (forall d l, dget d dl = Some l <-> dget d dl0 = Some l \/ (input_length B st pd d l)).
  Proof.
    intros st pd. induction pd as [|[name p] pd IH]; intros wn0 dl0 wn dl H; cbn [foldM] in H.
    - injection H as <- <-. split; intros; (split; [auto|intros [H|H]; [exact H|]]).
      + destruct H as (? & ? & ? & ? & ? & [] & _).
      + destruct H as (? & ? & ? & ? & ? & [] & _).
    - apply bind_ok in H as ([wn1 dl1] & H1 & H). apply IH in H as (Hw & Hl).
      unfold gb_wildcard_step in H1. cbn [fst snd] in H1.
      apply bind_ok in H1 as ([ds u] & Hdu & H1).
      unfold dims_and_units in Hdu. destruct (p_dims p) as [ds'|] eqn:Hds; [|discriminate].
      destruct (p_units p) as [u'|]; [|discriminate]. injection Hdu as -> ->.
      apply bind_ok in H1 as (v & Hv & H1). apply dgetE_ok in Hv.
      apply bind_ok in H1 as (vd & Hvd & H1). apply bind_ok in H1 as (vs & Hvs & H1).
      apply bind_ok in H1 as (dl2 & Hdl & H1).
      match type of H1 with (if ?b then _ else _) = _ => destruct b; [discriminate|] end.
      injection H1 as <- <-. apply check_dims_ok in Hdl as (He & Ha & Hk).
      split.
      + intros d. rewrite Hw, in_app_iff, filter_In, filter_In. split.
        * intros [[G|[[G1 G2] _]]|G].
          -- left; exact G.
          -- right. exists name, p, ds, v, vd. apply negb_true_iff, mem_false in G2.
             repeat split; auto. left; reflexivity.
          -- right. destruct G as (n & q & qd & w & wd & Hi & R). exists n, q, qd, w, wd. split; [right; exact Hi|exact R].
        * intros [G|(n & q & qd & w & wd & [E|Hi] & R1 & R2 & R3 & R4 & R5)].
          -- left; left; exact G.
          -- injection E as <- <-. rewrite Hds in R1. injection R1 as <-. rewrite Hv in R2. injection R2 as <-.
             rewrite Hvd in R3. injection R3 as <-. left.
             destruct (mem d wn0) eqn:Em; [left; apply mem_In; exact Em|right].
             repeat split; auto. apply negb_true_iff, mem_false; exact R5.
          -- right. exists n, q, qd, w, wd. repeat split; auto.
      + intros d l. rewrite Hl. split.
        * intros [G|G].
          -- apply Hk in G as [G|G]; [left; exact G|right]. exists name, p, v, vd, vs. repeat split; auto. left; reflexivity.
          -- right. destruct G as (n & q & w & wd & ws & Hi & R). exists n, q, w, wd, ws. split; [right; exact Hi|exact R].
        * intros [G|(n & q & w & wd & ws & [E|Hi] & R2 & R3 & R4 & R5)].
          -- left. apply He; exact G.
          -- injection E as <- <-. rewrite Hv in R2. injection R2 as <-.
             rewrite Hvd in R3. injection R3 as <-. rewrite Hvs in R4. injection R4 as <-. left. apply Ha; exact R5.
          -- right. exists n, q, w, wd, ws. repeat split; auto.
  Qed.

  Lemma gb_matches_ok : forall st pd wn dl, gb_wildcard_matches B st pd = Ok (wn, dl) ->
    (forall names, wn = Some names -> forall d, In d names <-> undeclared_dim B st pd d) /\
    (forall d l, dget d dl = Some l <-> input_length B st pd d l).
  Proof.
    intros st pd wn dl H. unfold gb_wildcard_matches in H. apply bind_ok in H as ([w l0] & H1 & H).
    apply gb_scan_ok in H1 as (Hw & Hl).
    assert (E : l0 = dl /\ (wn = Some w \/ wn = None)) by (destruct (existsb _ pd); injection H as <- <-; auto).
    destruct E as (-> & Ew). split.
    - intros names ->. destruct Ew as [Ew|Ew]; [|discriminate]. injection Ew as ->.
      intros d. rewrite Hw. split; [intros [[]|G]; exact G|auto].
    - intros d l. rewrite Hl. split; [intros [G|G]; [discriminate|exact G]|auto].
  Qed.

  Lemma index_no_star : forall pd, index_of "*" pd = None -> ~ In "*" pd.
  Proof. intros pd. apply index_of_none. Qed.

  Lemma mem_star : forall pd, In "*" pd -> exists pre post, pd = pre ++ "*" :: post /\ ~ In "*" pre.
  Proof.
    induction pd as [|d pd IH]; intros H; [destruct H|].
    destruct (String.eqb d "*") eqn:E.
    - apply String.eqb_eq in E. subst d. exists [], pd. split; [reflexivity|intros []].
    - apply String.eqb_neq in E. destruct H as [H|H]; [contradiction|].
      destruct (IH H) as (pre & post & -> & Hn). exists (d :: pre), post. split; [reflexivity|].
      intros [G|G]; [exact (E G)|exact (Hn G)].
  Qed.

  Lemma index_star : forall pd i, index_of "*" pd = Some i ->
    exists pre post, pd = pre ++ "*" :: post /\ ~ In "*" pre.
  Proof.
    intros pd i H. apply mem_star. destruct (in_dec string_dec "*" pd) as [G|G]; [exact G|].
    apply index_of_none in G. congruence.
  Qed.

  Lemma flatten_data : forall (a b : nd T) i j, flatten_wildcard_dims a i j = Ok b -> data b = data a.
  Proof.
    intros a b i j H. unfold flatten_wildcard_dims, reshape in H.
    repeat match type of H with (if ?c then _ else _) = _ => destruct c; try discriminate end;
      injection H as <-; reflexivity.
  Qed.

  Lemma gb_get_ok : forall st pd arrs, gb_get_arrays B st pd = Ok arrs ->
    forall k a, dget k arrs = Some a -> asked_input B st pd k a.
  Proof.
    intros st pd arrs H. unfold gb_get_arrays in H. apply bind_ok in H as ([wn dl] & Hm & H).
    apply gb_matches_ok in Hm as (Hw & Hl).
    assert (G : forall l, incl l pd -> forall acc out,
      (forall k a, dget k acc = Some a -> asked_input B st pd k a) ->
      foldM (gb_extract_step B st wn dl) l acc = Ok out ->
      forall k a, dget k out = Some a -> asked_input B st pd k a).
    2:{ apply (G pd (incl_refl _) [] arrs); [intros ? ? E; discriminate|exact H]. }
    induction l as [|[n p] l IH]; intros Hin acc out Hacc Hf; cbn [foldM] in Hf.
    - injection Hf as <-. exact Hacc.
    - apply bind_ok in Hf as (acc1 & H1 & Hf). apply (IH (fun x Hx => Hin x (or_intror Hx)) acc1 out); [|exact Hf].
      intros k a Hk. unfold gb_extract_step in H1. cbn [fst snd] in H1.
      apply bind_ok in H1 as ([ds u] & Hdu & H1).
      unfold dims_and_units in Hdu. destruct (p_dims p) as [ds'|] eqn:Hds; [|discriminate].
      destruct (p_units p) as [u'|] eqn:Hu; [|discriminate]. injection Hdu as -> ->.
      apply bind_ok in H1 as (v & Hv & H1). apply dgetE_ok in Hv.
      apply bind_ok in H1 as (x & Hx & H1). injection H1 as <-.
      rewrite dget_dset in Hk. destruct (String.eqb k (raw_name n p)) eqn:Ek; [|apply Hacc; exact Hk].
      injection Hk as ->. apply String.eqb_eq in Ek. subst k.
      destruct (index_of "*" ds) as [i|] eqn:Ei.
      + destruct wn as [names|]; [|discriminate]. apply bind_ok in Hx as (b & Hb & Hx).
        destruct (index_star ds i Ei) as (pre & post & E & Hn).
        exists n, p, ds, u, v, (splice_wildcard names ds), dl, b.
        split; [apply Hin; left; reflexivity|]. split; [reflexivity|]. split; [exact Hds|]. split; [exact Hu|]. split; [exact Hv|].
        split; [right; exists pre, post, names|].
        { split; [exact E|]. split; [exact Hn|]. split; [rewrite E; apply splice_one; exact Hn|]. apply Hw; reflexivity. }
        split; [exact Hl|]. split; [exact Hb|]. split; [eapply flatten_data; exact Hx|].
        intros Hs. exfalso. apply Hs. rewrite E, in_app_iff. right; left; reflexivity.
      + apply index_no_star in Ei.
        exists n, p, ds, u, v, ds, dl, a.
        split; [apply Hin; left; reflexivity|]. split; [reflexivity|]. split; [exact Hds|]. split; [exact Hu|]. split; [exact Hv|].
        split; [left; split; [exact Ei|reflexivity]|]. split; [exact Hl|]. split; [exact Hx|]. split; [reflexivity|]. reflexivity.
  Qed.

  Lemma fill_dims_len : forall out_dims dl wn seen ds sh, fill_dims out_dims dl wn seen = Ok (ds, sh) -> length sh = length ds.
  Proof.
    induction out_dims as [|d r IH]; intros dl wn seen ds sh H; cbn [fill_dims] in H.
    - injection H as <- <-. reflexivity.
    - destruct (String.eqb d "*" && negb seen).
      + destruct wn as [names|]; [|discriminate]. apply bind_ok in H as (ls & Hls & H).
        apply bind_ok in H as ([ds1 sh1] & H1 & H). injection H as <- <-. rewrite !app_length.
        apply IH in H1. apply mapM_Forall2 in Hls. apply Forall2_len in Hls. lia.
      + apply bind_ok in H as (l & Hl & H). apply bind_ok in H as ([ds1 sh1] & H1 & H). injection H as <- <-.
        cbn. f_equal. eapply IH; exact H1.
  Qed.

  Lemma fill_dims_seen : forall out_dims dl wn ds sh, fill_dims out_dims dl wn true = Ok (ds, sh) -> ds = out_dims.
  Proof.
    induction out_dims as [|d r IH]; intros dl wn ds sh H; cbn [fill_dims] in H.
    - injection H as <- <-. reflexivity.
    - rewrite andb_false_r in H. apply bind_ok in H as (l & Hl & H). apply bind_ok in H as ([ds1 sh1] & H1 & H).
      injection H as <- <-. f_equal. eapply IH; exact H1.
  Qed.

  Lemma fill_dims_star : forall pre post dl wn ds sh, ~ In "*" pre ->
    fill_dims (pre ++ "*" :: post) dl wn false = Ok (ds, sh) ->
    exists names, wn = Some names /\ ds = pre ++ names ++ post.
  Proof.
    induction pre as [|d pre IH]; intros post dl wn ds sh Hn H.
    - cbn in H. destruct wn as [names|]; [|discriminate]. apply bind_ok in H as (ls & Hls & H).
      apply bind_ok in H as ([ds1 sh1] & H1 & H). injection H as <- <-.
      apply fill_dims_seen in H1. subst ds1. exists names. split; reflexivity.
    - cbn [app fill_dims] in H. destruct (String.eqb d "*") eqn:E.
      + apply String.eqb_eq in E. exfalso. apply Hn. left; exact E.
      + cbn [andb] in H. apply bind_ok in H as (l & Hl & H). apply bind_ok in H as ([ds1 sh1] & H1 & H).
        injection H as <- <-. apply IH in H1 as (names & -> & ->); [|intros G; apply Hn; right; exact G].
        exists names. split; reflexivity.
  Qed.

  Lemma gb_restore_step_ok : forall raw outp inp st wn ign dl0 out0 n pd dl1 out1,
    (forall names, wn = Some names -> forall d, In d names <-> undeclared_dim B st inp d) ->
    (forall p, dget n outp = Some p ->
       match p_dims p with Some l => Some l | None => match dget n inp with Some i => p_dims i | None => None end end = Some pd) ->
    gb_restore_step B raw outp inp st wn ign (dl0, out0) (n, pd) = Ok (dl1, out1) -> ~ In n ign ->
    exists q, out1 = dset n q out0 /\ made_output B raw outp inp st n q.
  Proof.
    intros raw outp inp st wn ign dl0 out0 n pd dl1 out1 Hw Hpd H Hn. unfold gb_restore_step in H.
    apply mem_false in Hn. rewrite Hn in H.
    apply bind_ok in H as (rn & Hrn & H). apply bind_ok in H as ([[dl' ds] oa] & Hr & H).
    apply bind_ok in H as (p & Hp & H). apply bind_ok in H as (u & Hu & H). apply bind_ok in H as (q & Hq & H).
    injection H as <- <-. exists q. split; [reflexivity|].
    apply dgetE_ok in Hp. destruct (p_units p) as [u'|] eqn:Epu; [|discriminate]. injection Hu as ->.
    unfold get_alias_or_name in Hrn. apply bind_ok in Hrn as (p' & Hp' & Hrn). apply dgetE_ok in Hp'.
    rewrite Hp in Hp'. injection Hp' as <-.
    assert (Ern : rn = match p_alias p with
            | Some al => al
            | None => match dget n inp with Some i => match p_alias i with Some al => al | None => n end | None => n end
            end).
    { destruct (p_alias p); [congruence|]. destruct (dget n inp) as [i|]; [|congruence]. destruct (p_alias i); congruence. }
    specialize (Hpd p Hp). destruct (mem "*" pd) eqn:Em.
    - apply mem_In in Em. apply bind_ok in Hr as (ra & Hra & Hr). apply dgetE_ok in Hra. cbn zeta in Hr.
      apply bind_ok in Hr as ([ds0 target] & Hf & Hr). apply bind_ok in Hr as (oa' & Hoa & Hr). injection Hr as <- <- <-.
      unfold expand_array_wildcard_dims, reshape in Hoa.
      destruct (Nat.eqb (prod target) (prod (shape ra))); [|discriminate]. injection Hoa as <-.
      unfold fill_dims_wildcard in Hf. destruct (index_of "*" pd); [|discriminate].
      destruct (mem_star pd Em) as (pre & post & E & Hns).
      exists p, u, pd, ds0, ra, (mknd target (data ra)).
      split; [exact Hp|]. split; [exact Epu|]. split; [exact Hpd|]. split; [|rewrite <- Ern].
      + right. rewrite E in Hf. destruct (fill_dims_star _ _ _ _ _ _ Hns Hf) as (names & Ew & Eds).
        exists pre, post, names. repeat split; auto; apply (Hw names Ew).
      + split; [exact Hra|]. split; [reflexivity|]. split; [eapply fill_dims_len; exact Hf|]. split; [|exact Hq].
        intros G. exfalso. exact (G Em).
    - apply mem_false in Em. apply bind_ok in Hr as (ra & Hra & Hr). apply dgetE_ok in Hra.
      apply bind_ok in Hr as ([] & Hc & Hr). injection Hr as <- <- <-.
      exists p, u, pd, pd, ra, ra.
      split; [exact Hp|]. split; [exact Epu|]. split; [exact Hpd|]. split; [|rewrite <- Ern].
      + left. split; [exact Em|reflexivity].
      + split; [exact Hra|]. split; [reflexivity|]. split; [|split; [reflexivity|exact Hq]].
        unfold check_array_shape in Hc. destruct (Nat.eqb (length pd) (length (shape ra))) eqn:El; [|discriminate].
        apply Nat.eqb_eq in El. symmetry. exact El.
  Qed.

  Lemma gb_restore_ok : forall raw outp st inp ign out, NoDup (keys outp) ->
    gb_restore B raw outp st inp ign = Ok out ->
    NoDup (keys out) /\
    (forall n, In n (keys out) <-> In n (keys outp) /\ ~ In n ign) /\
    (forall n q, dget n out = Some q -> made_output B raw outp inp st n q).
  Proof.
    intros raw outp st inp ign out Hnd H. unfold gb_restore in H.
    apply bind_ok in H as ([wn dl] & Hm & H). apply gb_matches_ok in Hm as (Hw & _).
    apply bind_ok in H as (dd & Hdd & H). unfold extract_output_dims_properties in Hdd.
    apply extract_dims_ok in Hdd as (Hk & _ & Hd); [|cbn; apply NoDup_filter; exact Hnd]. cbn [keys map app] in Hk.
    assert (Hkd : forall n, In n (keys dd) <-> In n (keys outp) /\ ~ In n ign).
    { intros n. change (keys dd = filter (fun n => negb (mem n ign)) (keys outp)) in Hk. rewrite Hk, filter_In, negb_true_iff, mem_false. reflexivity. }
    apply bind_ok in H as ([dl2 out2] & Hf & H). injection H as <-.
    assert (Hdim : forall n pd, In (n, pd) dd -> forall p, dget n outp = Some p ->
       match p_dims p with Some l => Some l | None => match dget n inp with Some i => p_dims i | None => None end end = Some pd).
    { intros n pd Hi p Hp. assert (Hin : In n (keys dd)) by (unfold keys; apply in_map_iff; exists (n, pd); auto).
      apply Hkd in Hin as (_ & Hni). destruct (Hd n p (dget_In _ _ _ Hp) Hni) as (ds & E & Hor).
      assert (Hnk : NoDup (keys dd)).
      { change (keys dd = filter (fun n => negb (mem n ign)) (keys outp)) in Hk. rewrite Hk. apply NoDup_filter; exact Hnd. }
      apply (dget_NoDup_In _ _ _ Hnk) in Hi. rewrite E in Hi. injection Hi as ->.
      destruct Hor as [->|(-> & i & Hi & Ei)]; [reflexivity|]. rewrite Hi. exact Ei. }
    assert (G : forall l, incl l dd -> forall dl0 out0 dl1 out1,
      NoDup (keys out0) ->
      (forall n q, dget n out0 = Some q -> made_output B raw outp inp st n q) ->
      foldM (gb_restore_step B raw outp inp st wn ign) l (dl0, out0) = Ok (dl1, out1) ->
      NoDup (keys out1) /\
      (forall n, In n (keys out1) <-> In n (keys out0) \/ In n (keys l)) /\
      (forall n q, dget n out1 = Some q -> made_output B raw outp inp st n q)).
    { induction l as [|[n pd] l IH]; intros Hin dl0 out0 dl1 out1 Hn0 H0 HF; cbn [foldM] in HF.
      - injection HF as <- <-. split; [exact Hn0|]. split; [intros n; cbn; tauto|exact H0].
      - apply bind_ok in HF as ([dlm outm] & H1 & HF).
        assert (Hni : ~ In n ign).
        { apply Hkd. unfold keys. apply in_map_iff. exists (n, pd). split; [reflexivity|]. apply Hin; left; reflexivity. }
        destruct (gb_restore_step_ok _ _ _ _ _ _ _ _ _ _ _ _ Hw (Hdim n pd (Hin _ (or_introl eq_refl))) H1 Hni) as (q & -> & Hq).
        destruct (IH (fun x Hx => Hin x (or_intror Hx)) dlm (dset n q out0) dl1 out1) as (Kn & Ka & Kb); [apply NoDup_dset; exact Hn0| |exact HF|].
        + intros m q' Hm. rewrite dget_dset in Hm. destruct (String.eqb m n) eqn:E; [|apply H0; exact Hm].
          apply String.eqb_eq in E. subst m. injection Hm as <-. exact Hq.
        + split; [exact Kn|]. split; [|exact Kb]. intros m. rewrite Ka, In_keys_dset. cbn. intuition. }
    destruct (G dd (incl_refl _) dl [] dl2 out2) as (Kn & Ka & Kb); [constructor|intros ? ? E; discriminate|exact Hf|].
    split; [exact Kn|]. split; [|exact Kb]. intros n. rewrite Ka, Hkd. cbn. intuition.
  Qed.

  (** ** The calls *)

  Lemma gb_raw_ok : forall g inp pk st raw, gb_raw_state B g inp pk st = Ok raw ->
    (forall k a, dget k raw = Some (GArr a) -> asked_input B st inp k a \/ (pk <> None /\ k = "tracers")) /\
    (exists t, dget "time" st = Some t /\ dget "time" raw = Some (GTime t)).
  Proof.
    intros g inp pk st raw H. unfold gb_raw_state in H.
    apply bind_ok in H as (u & _ & H). apply bind_ok in H as (arrs & Ha & H).
    pose proof (gb_get_ok st inp arrs Ha) as Hg. cbn zeta in H.
    apply bind_ok in H as (r & Hr & H). apply bind_ok in H as (t & Ht & H). injection H as <-. apply dgetE_ok in Ht.
    split; [|exists t; split; [exact Ht|apply dget_dset_eq]].
    assert (Hm : forall k a, dget k (map (fun kv => (fst kv, GArr (V := V) (snd kv))) arrs) = Some (GArr a) -> asked_input B st inp k a).
    { intros k a Hk. rewrite (dget_map_snd (fun x => GArr x)) in Hk. destruct (dget k arrs) as [x|] eqn:E; [|discriminate].
      injection Hk as ->. apply Hg; exact E. }
    intros k a Hk. rewrite dget_dset in Hk. destruct (String.eqb k "time"); [discriminate|].
    destruct pk as [p|].
    - apply bind_ok in Hr as (tt_ & _ & Hr). injection Hr as <-. rewrite dget_dset in Hk.
      destruct (String.eqb k "tracers") eqn:E; [right; split; [discriminate|apply String.eqb_eq; exact E]|left; apply Hm; exact Hk].
    - injection Hr as <-. left. apply Hm; exact Hk.
  Qed.

  Theorem main_backend_diagnostic_asks : forall {U} c (ac : U -> dict (grval T V) -> U * res (dict (nd T))) u st u' diag,
    NoDup (keys (d_diag c)) ->
    gb_diagnostic_call B c ac u st = (u', Ok diag) ->
    exists raw rd, ac u raw = (u', Ok rd) /\
      (forall k a, dget k raw = Some (GArr a) -> asked_input B st (d_inp c) k a) /\
      (exists t, dget "time" st = Some t /\ dget "time" raw = Some (GTime t)) /\
      (forall n, In n (keys diag) <-> In n (keys (d_diag c))) /\
      (forall n q, dget n diag = Some q -> made_output B rd (d_diag c) (d_inp c) st n q).
  Proof.
    intros U c ac u st u' diag Hnd H. unfold gb_diagnostic_call in H.
    destruct (negb (d_init c)); cbn [raise_if bind] in H; [discriminate|].
    destruct (gb_raw_state B empty_treg (d_inp c) None st) as [raw|e] eqn:Hraw; [|discriminate].
    apply gb_raw_ok in Hraw as (Hi & Ht).
    destruct (ac u raw) as [u1 r] eqn:Eac. injection H as -> H. apply bind_ok in H as (rd & -> & H).
    unfold gb_diagnostic_finish in H. apply bind_ok in H as (x & _ & H).
    apply gb_restore_ok in H as (_ & Hk & Hq); [|exact Hnd].
    exists raw, rd. split; [exact Eac|]. split; [|split; [exact Ht|split; [|exact Hq]]].
    - intros k a Hka. destruct (Hi k a Hka) as [G|[G _]]; [exact G|congruence].
    - intros n. rewrite Hk. cbn. tauto.
  Qed.

  Lemma gb_insert_get : forall comp (tend diag : dict V), NoDup (keys tend) ->
    (forall X q, dget X tend = Some q -> dget (tendency_name comp X) (gb_insert_tendencies comp tend diag) = Some q) /\
    (forall k, (forall X, In X (keys tend) -> k <> tendency_name comp X) ->
       dget k (gb_insert_tendencies comp tend diag) = dget k diag) /\
    (forall k, In k (keys (gb_insert_tendencies comp tend diag)) <->
       In k (keys diag) \/ exists X, In X (keys tend) /\ k = tendency_name comp X).
  Proof.
    intros comp. unfold gb_insert_tendencies.
    induction tend as [|[X q] tend IH]; intros diag Hnd; simpl.
    - repeat split; auto; try discriminate. intros [|(X & [] & _)]; auto.
    - simpl in Hnd. inversion Hnd as [|? ? Hni Hnd']; subst.
      destruct (IH (dset (tendency_name comp X) q diag) Hnd') as (H1 & H2 & H3). repeat split.
      + intros Y r HY. destruct (String.eqb Y X) eqn:E.
        * apply String.eqb_eq in E; subst. injection HY as <-.
          rewrite H2; [apply dget_dset_eq|]. intros Z HZ Heq. apply tendency_name_inj in Heq; subst; auto.
        * apply H1; auto.
      + intros k Hk. rewrite H2 by (intros; apply Hk; auto). apply dget_dset_neq. apply Hk; auto.
      + intros Hin. apply H3 in Hin as [Hin|(Y & HY & ->)]; [|right; exists Y; auto].
        apply In_keys_dset in Hin as [-> |Hin]; auto. right; exists X; auto.
      + intros Hin. apply H3. destruct Hin as [Hin|(Y & [<-|HY] & ->)].
        * left. apply In_keys_dset; auto.
        * left. apply In_keys_dset; auto.
        * right. exists Y; auto.
  Qed.

  Lemma gb_unpack_tracers_ok : forall g pk mult raw st tr raw', gb_unpack_tracers B g pk mult raw st = Ok (tr, raw') ->
    (forall k, k <> "tracers" \/ pk = None -> dget k raw' = dget k raw) /\
    (pk = None -> tr = []) /\
    (forall n q, dget n tr = Some q -> exists a u ds, b_create B a n u ds st = Ok q).
  Proof.
    intros g pk mult raw st tr raw' H. unfold gb_unpack_tracers in H. destruct pk as [p|].
    - apply bind_ok in H as (t & _ & H). apply bind_ok in H as (o & Ho & H). injection H as <- <-.
      split; [|split; [discriminate|]].
      + intros k [Hk|Hk]; [|discriminate]. rewrite dget_ddel. apply String.eqb_neq in Hk. rewrite Hk. reflexivity.
      + unfold gb_unpack in Ho. apply bind_ok in Ho as (r & _ & Ho).
        intros n q Hq. unfold gb_restore in Ho. apply bind_ok in Ho as ([wn dl] & _ & Ho).
        apply bind_ok in Ho as (dd & _ & Ho). apply bind_ok in Ho as ([dl2 o2] & Ho & E). injection E as <-.
        assert (G : forall n q, dget n (snd (dl2, o2)) = Some q -> exists a u ds, b_create B a n u ds st = Ok q).
        2:{ exact (G n q Hq). }
        revert Ho. apply (foldM_inv (fun s => forall n q, dget n (snd s) = Some q -> exists a u ds, b_create B a n u ds st = Ok q)).
        2:{ intros ? ? E; discriminate. }
        * intros [dl0 o0] [n0 d0] [dl1 o1] _ H0 Hs. cbn [snd] in *. unfold gb_restore_step in Hs. cbn [mem existsb] in Hs.
          apply bind_ok in Hs as (rn & _ & Hs). apply bind_ok in Hs as ([[dl' ds] oa] & _ & Hs).
          apply bind_ok in Hs as (pp & _ & Hs). apply bind_ok in Hs as (u & _ & Hs). apply bind_ok in Hs as (q0 & Hc & Hs).
          injection Hs as <- <-. intros m q1 Hm. rewrite dget_dset in Hm. destruct (String.eqb m n0) eqn:E; [|exact (H0 m q1 Hm)].
          apply String.eqb_eq in E. injection Hm as <-. subst m. exists oa, u, ds. exact Hc.
    - injection H as <- <-. split; [auto|]. split; [reflexivity|]. intros ? ? E; discriminate.
  Qed.

  Lemma gb_restore_NoDup : forall raw outp st inp ign out, gb_restore B raw outp st inp ign = Ok out -> NoDup (keys out).
  Proof.
    intros raw outp st inp ign out H. unfold gb_restore in H. apply bind_ok in H as ([wn dl] & _ & H).
    apply bind_ok in H as (dd & _ & H). apply bind_ok in H as ([dl2 o2] & H & E). injection E as <-.
    change (NoDup (keys (snd (dl2, o2)))). revert H. apply (foldM_inv (fun s => NoDup (keys (snd s)))); [|constructor].
    intros [dl0 o0] [n0 d0] [dl1 o1] _ H0 Hs. cbn [snd] in *. unfold gb_restore_step in Hs.
    destruct (mem n0 ign); [injection Hs as <- <-; exact H0|].
    apply bind_ok in Hs as (rn & _ & Hs). apply bind_ok in Hs as ([[dl' ds] oa] & _ & Hs).
    apply bind_ok in Hs as (pp & _ & Hs). apply bind_ok in Hs as (u & _ & Hs). apply bind_ok in Hs as (q0 & Hc & Hs).
    injection Hs as <- <-. apply NoDup_dset; exact H0.
  Qed.

  Lemma gb_unpack_tracers_NoDup : forall g pk mult raw st tr raw', gb_unpack_tracers B g pk mult raw st = Ok (tr, raw') -> NoDup (keys tr).
  Proof.
    intros g pk mult raw st tr raw' H. unfold gb_unpack_tracers in H. destruct pk as [p|].
    - apply bind_ok in H as (t & _ & H). apply bind_ok in H as (o & Ho & H). injection H as <- <-.
      unfold gb_unpack in Ho. apply bind_ok in Ho as (r & _ & Ho). eapply gb_restore_NoDup; exact Ho.
    - injection H as <- <-. constructor.
  Qed.

  (** declared outputs with those of the tracers *)
  Lemma gb_joined : forall g pk mult raw st tr raw' outp inp t1, NoDup (keys outp) ->
    gb_unpack_tracers B g pk mult raw st = Ok (tr, raw') ->
    gb_restore B raw' outp st inp [] = Ok t1 ->
    NoDup (keys t1) /\
    (forall n, In n (keys outp) -> In n (keys (dupdate tr t1))) /\
    (forall n q, dget n (dupdate tr t1) = Some q ->
      (In n (keys outp) /\ made_output B raw' outp inp st n q) \/
      (~ In n (keys outp) /\ pk <> None /\ exists a u ds, b_create B a n u ds st = Ok q)).
  Proof.
    intros g pk mult raw st tr raw' outp inp t1 Hnd Hu Hr.
    apply gb_unpack_tracers_ok in Hu as (_ & Hnone & Htr).
    apply gb_restore_ok in Hr as (Hn & Hk & Hq); [|exact Hnd].
    split; [exact Hn|]. split.
    - intros n Hin. apply In_keys_dupdate. right. apply Hk. split; [exact Hin|intros []].
    - intros n q H. rewrite dget_dupdate in H by exact Hn. destruct (dget n t1) as [v|] eqn:E.
      + injection H as ->. left. split; [|apply Hq; exact E]. apply (Hk n). eapply dget_In_keys; exact E.
      + right. split; [|split; [|exact (Htr n q H)]].
        * intros Hin. assert (G : In n (keys t1)) by (apply Hk; split; [exact Hin|intros []]).
          apply In_keys_dget in G as (v & G). congruence.
        * intros ->. rewrite (Hnone eq_refl) in H. discriminate.
  Qed.

  Theorem main_backend_tendency_asks : forall {U} g c
      (ac : U -> dict (grval T V) -> U * res (dict (nd T) * dict (nd T))) u st u' tend diag,
    NoDup (keys (t_tend c)) -> NoDup (keys (t_diag c)) ->
    gb_tendency_call B g c ac u st = (u', Ok (tend, diag)) ->
    exists raw rt rt' rd, ac u raw = (u', Ok (rt, rd)) /\
      (forall k, k <> "tracers" \/ t_packer c = None -> dget k rt' = dget k rt) /\
      (forall k a, dget k raw = Some (GArr a) ->
         asked_input B st (t_inp c) k a \/ (t_packer c <> None /\ k = "tracers")) /\
      (exists t, dget "time" st = Some t /\ dget "time" raw = Some (GTime t)) /\
      (forall n, In n (keys (t_tend c)) -> In n (keys tend)) /\
      (forall n q, dget n tend = Some q ->
        (In n (keys (t_tend c)) /\ made_output B rt' (t_tend c) (t_inp c) st n q) \/
        (~ In n (keys (t_tend c)) /\ t_packer c <> None /\ exists a un ds, b_create B a n un ds st = Ok q)) /\
      (forall n, In n (keys (t_diag c)) -> ~ In n (t_added c) -> In n (keys diag)) /\
      (t_tid c = true -> forall n q, dget n tend = Some q -> dget (tendency_name (t_name c) n) diag = Some q) /\
      (forall n q, dget n diag = Some q -> made_output B rd (t_diag c) (t_inp c) st n q \/
        (t_tid c = true /\ exists m, n = tendency_name (t_name c) m /\ dget m tend = Some q)).
  Proof.
    intros U g c ac u st u' tend diag Hn1 Hn2 H. unfold gb_tendency_call in H.
    destruct (negb (t_init c)); cbn [raise_if bind] in H; [discriminate|].
    destruct (gb_raw_state B g (t_inp c) (t_packer c) st) as [raw|e] eqn:Hraw; [|discriminate].
    apply gb_raw_ok in Hraw as (Hi & Ht).
    destruct (ac u raw) as [u1 r] eqn:Eac. injection H as -> H. apply bind_ok in H as ([rt rd] & -> & H).
    unfold gb_tendency_finish in H. cbn [fst snd] in H.
    apply bind_ok in H as ([tr rt'] & Hut & H).
    apply bind_ok in H as (x & _ & H). apply bind_ok in H as (y & _ & H).
    apply bind_ok in H as (t1 & H1 & H). cbn zeta in H. apply bind_ok in H as (d1 & H2 & H). injection H as E1 E2.
    destruct (gb_joined _ _ _ _ _ _ _ _ _ _ Hn1 Hut H1) as (Hnt & Hkt & Hqt).
    pose proof (gb_unpack_tracers_NoDup _ _ _ _ _ _ _ Hut) as Htrn.
    apply gb_unpack_tracers_ok in Hut as (Hrt & Hnone & _).
    apply gb_restore_ok in H2 as (Hnd & Hk2 & Hq2); [|exact Hn2].
    rewrite E1 in *.
    assert (Hntr : NoDup (keys tend)).
    { rewrite <- E1. apply NoDup_dupdate. exact Htrn. }
    exists raw, rt, rt', rd. split; [exact Eac|]. split; [exact Hrt|]. split; [exact Hi|]. split; [exact Ht|].
    split; [exact Hkt|]. split; [exact Hqt|]. rewrite <- E2. destruct (t_tid c).
    - destruct (gb_insert_get (t_name c) tend d1 Hntr) as (G1 & G2 & G3). split; [|split].
      + intros n Ha Hb. apply G3. left. apply Hk2. auto.
      + intros _. exact G1.
      + intros n q Hq. destruct (in_dec string_dec n (map (tendency_name (t_name c)) (keys tend))) as [Hin|Hin].
        * right. split; [reflexivity|]. apply in_map_iff in Hin as (m & <- & Hm). exists m. split; [reflexivity|].
          apply In_keys_dget in Hm as (v & Hv). rewrite (G1 m v Hv) in Hq. congruence.
        * left. rewrite G2 in Hq; [apply Hq2; exact Hq|]. intros X HX ->. apply Hin. apply in_map; exact HX.
    - split; [|split].
      + intros n Ha Hb. apply Hk2. auto.
      + discriminate.
      + intros n q Hq. left. apply Hq2; exact Hq.
  Qed.

  Lemma gb_stepper_insert_other : forall c dt (raw : dict (grval T V)) rn rd rd', gb_stepper_insert c dt raw rn rd = Ok rd' ->
    forall k, (forall m, In m (keys (s_out c)) -> k <> tendency_name (s_name c) m) -> dget k rd' = dget k rd.
  Proof.
    intros c dt raw rn rd rd' H k Hk. unfold gb_stepper_insert in H.
    revert H. apply (foldM_inv (fun d => dget k d = dget k rd)); [|reflexivity].
    intros d [m p] d' Hin Hd Hs. cbn [fst] in Hs.
    apply bind_ok in Hs as (a & _ & Hs). apply bind_ok in Hs as (b & _ & Hs). apply bind_ok in Hs as (x & _ & Hs).
    injection Hs as <-. rewrite dget_dset_neq; [exact Hd|]. apply Hk. unfold keys. apply in_map_iff. exists (m, p). auto.
  Qed.

  Theorem main_backend_stepper_asks : forall {U} g c
      (ac : U -> dict (grval T V) -> Z -> U * res (dict (nd T) * dict (nd T))) u st dt u' diag new,
    NoDup (keys (s_out c)) -> NoDup (keys (s_diag c)) ->
    gb_stepper_call B g c ac u st dt = (u', Ok (diag, new)) ->
    exists raw rd rd' rn rn', ac u raw dt = (u', Ok (rd, rn)) /\
      (forall k, k <> "tracers" \/ s_packer c = None -> dget k rn' = dget k rn) /\
      (forall k, s_tid c = false \/ (forall m, In m (keys (s_out c)) -> k <> tendency_name (s_name c) m) -> dget k rd' = dget k rd) /\
      (forall k a, dget k raw = Some (GArr a) ->
         asked_input B st (s_inp c) k a \/ (s_packer c <> None /\ k = "tracers")) /\
      (exists t, dget "time" st = Some t /\ dget "time" raw = Some (GTime t)) /\
      (forall n, In n (keys diag) <-> In n (keys (s_diag c))) /\
      (forall n q, dget n diag = Some q -> made_output B rd' (s_diag c) (s_inp c) st n q) /\
      (forall n, In n (keys (s_out c)) -> In n (keys new)) /\
      (forall n q, dget n new = Some q ->
        (In n (keys (s_out c)) /\ made_output B rn' (s_out c) (s_inp c) st n q) \/
        (~ In n (keys (s_out c)) /\ s_packer c <> None /\ exists a un ds, b_create B a n un ds st = Ok q)).
  Proof.
    intros U g c ac u st dt u' diag new Hn1 Hn2 H. unfold gb_stepper_call in H.
    destruct (negb (s_init c)); cbn [raise_if bind] in H; [discriminate|].
    destruct (gb_raw_state B g (s_inp c) (s_packer c) st) as [raw|e] eqn:Hraw; [|discriminate].
    apply gb_raw_ok in Hraw as (Hi & Ht).
    destruct (ac u raw dt) as [u1 r] eqn:Eac. injection H as -> H. apply bind_ok in H as ([rd rn] & -> & H).
    unfold gb_stepper_finish in H.
    apply bind_ok in H as ([tr rn'] & Hut & H).
    apply bind_ok in H as (x & _ & H). apply bind_ok in H as (y & _ & H). apply bind_ok in H as (rd' & Hrd & H).
    apply bind_ok in H as (d1 & H2 & H). apply bind_ok in H as (t1 & H1 & H). injection H as E1 E2. subst d1.
    destruct (gb_joined _ _ _ _ _ _ _ _ _ _ Hn1 Hut H1) as (Hnt & Hkt & Hqt).
    apply gb_unpack_tracers_ok in Hut as (Hrt & _ & _).
    apply gb_restore_ok in H2 as (_ & Hk2 & Hq2); [|exact Hn2].
    rewrite E2 in *.
    exists raw, rd, rd', rn, rn'. split; [exact Eac|]. split; [exact Hrt|]. split.
    { intros k Hk. destruct (s_tid c); [|congruence]. destruct Hk as [Hk|Hk]; [discriminate|].
      eapply gb_stepper_insert_other; [exact Hrd|exact Hk]. }
    split; [exact Hi|]. split; [exact Ht|]. split; [|split; [exact Hq2|split; [exact Hkt|exact Hqt]]].
    intros n. rewrite Hk2. cbn. tauto.
  Qed.
End Any.

(** ** Backends that represent DataArrays *)

Section Inherit.
  Context {T V : Type} {A : Arith T} {R : Registry}.
  Variables (B : backend T V) (Rel : V -> pval T -> Prop).
  Hypothesis HR : represents Rel B da_backend.

  Theorem main_inherit_tendency : forall {U} g c
      (ac1 : U -> dict (grval T V) -> U * res (dict (nd T) * dict (nd T)))
      (ac : U -> dict (rval T) -> U * res (dict (nd T) * dict (nd T))) u st1 (st : state T),
    (forall u r1 r2, same_raw Rel r1 r2 -> ac1 u r1 = ac u (default_raw r2)) ->
    same_dict Rel st1 st ->
    fst (gb_tendency_call B g c ac1 u st1) = fst (tendency_call g c ac u st) /\
    same_outcome (fun x y => same_dict Rel (fst x) (as_values (fst y)) /\ same_dict Rel (snd x) (as_values (snd y)))
      (snd (gb_tendency_call B g c ac1 u st1)) (snd (tendency_call g c ac u st)).
  Proof.
    intros U g c ac1 ac u st1 st Hac H.
    destruct (main_backend_tendency B da_backend Rel HR g c ac1 (fun u r => ac u (default_raw r)) u st1 st Hac H) as (E1 & E2).
    destruct (main_default_tendency g c ac u st) as (E3 & E4). rewrite E3 in E1. rewrite E4 in E2. split; [exact E1|].
    destruct (snd (tendency_call g c ac u st)) as [[t d]|e]; cbn [bind] in E2; exact E2.
  Qed.

  Theorem main_inherit_diagnostic : forall {U} c
      (ac1 : U -> dict (grval T V) -> U * res (dict (nd T)))
      (ac : U -> dict (rval T) -> U * res (dict (nd T))) u st1 (st : state T),
    (forall u r1 r2, same_raw Rel r1 r2 -> ac1 u r1 = ac u (default_raw r2)) ->
    same_dict Rel st1 st ->
    fst (gb_diagnostic_call B c ac1 u st1) = fst (diagnostic_call c ac u st) /\
    same_outcome (fun x y => same_dict Rel x (as_values y))
      (snd (gb_diagnostic_call B c ac1 u st1)) (snd (diagnostic_call c ac u st)).
  Proof.
    intros U c ac1 ac u st1 st Hac H.
    destruct (main_backend_diagnostic B da_backend Rel HR c ac1 (fun u r => ac u (default_raw r)) u st1 st Hac H) as (E1 & E2).
    destruct (main_default_diagnostic c ac u st) as (E3 & E4). rewrite E3 in E1. rewrite E4 in E2. split; [exact E1|].
    destruct (snd (diagnostic_call c ac u st)) as [d|e]; cbn [bind] in E2; exact E2.
  Qed.

  Theorem main_inherit_stepper : forall {U} g c
      (ac1 : U -> dict (grval T V) -> Z -> U * res (dict (nd T) * dict (nd T)))
      (ac : U -> dict (rval T) -> Z -> U * res (dict (nd T) * dict (nd T))) u st1 (st : state T) dt,
    (forall u r1 r2 dt, same_raw Rel r1 r2 -> ac1 u r1 dt = ac u (default_raw r2) dt) ->
    same_dict Rel st1 st ->
    fst (gb_stepper_call B g c ac1 u st1 dt) = fst (stepper_call g c ac u st dt) /\
    same_outcome (fun x y => same_dict Rel (fst x) (as_values (fst y)) /\ same_dict Rel (snd x) (as_values (snd y)))
      (snd (gb_stepper_call B g c ac1 u st1 dt)) (snd (stepper_call g c ac u st dt)).
  Proof.
    intros U g c ac1 ac u st1 st dt Hac H.
    destruct (main_backend_stepper B da_backend Rel HR g c ac1 (fun u raw dt => ac u (default_raw raw) dt) u st1 st dt Hac H) as (E1 & E2).
    destruct (main_default_stepper g c ac u st dt) as (E3 & E4). rewrite E3 in E1. rewrite E4 in E2. split; [exact E1|].
    destruct (snd (stepper_call g c ac u st dt)) as [[t d]|e]; cbn [bind] in E2; exact E2.
  Qed.
End Inherit.

Theorem main_set_backend : forall {O} (valid : O -> bool) (tried : list O) (start : O),
  fold_left (fun cur b => fst (set_backend valid cur b)) tried start = last_accepted valid start tried /\
  (forall cur b, snd (set_backend valid cur b) = if valid b then Ok tt else Err EType).
Proof.
  intros O valid tried start. split.
  - unfold last_accepted. revert start. induction tried as [|b l IH]; intros start; [reflexivity|].
    cbn [fold_left filter]. rewrite IH. unfold set_backend. destruct (valid b); cbn [fst]; [|reflexivity].
    destruct (filter valid l) as [|x r] eqn:E; [reflexivity|].
    clear. cbn [last]. revert x. induction r as [|y r IH]; intros x; [reflexivity|]. cbn [last] in *. apply IH.
  - intros cur b. unfold set_backend. destruct (valid b); reflexivity.
Qed.
