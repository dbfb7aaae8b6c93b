(** Concrete cases for C77. *)
From Coq Require Import String List Bool Arith ZArith QArith Qcanon Lia Permutation.
From Verif Require Import Prelude PreludeFacts ArithM NdArray NdFacts Units DataArrayM GetNp SpecUnits ExampleRegistry Checks
  SpecDa Tracers Components Composite SpecComposite CompositeFacts CombineFacts CompositeMain Ex_Components Ex_Composite SpecNested NestedFacts.
Import ListNotations.
Open Scope string_scope.
Open Scope nat_scope.
Open Scope list_scope.

#[local] Existing Instance ex_registry | 5.

Definition in_t (ds : list string) : bool * cprops := (true, mkcprops [("T", qprops ds "K")] [("T", qprops ds "K s^-1")] [] None).

(** Declarations refused when listed are accepted when the last two are put into a composite first, *)
Lemma nested_accepts_more : exists a b c, forall ord, (forall l, NoDup l -> Permutation (ord l) l) ->
  make_tendency_composite ord false empty_treg [a; b; c] = Err EInvalidProps /\
  exists i n, make_tendency_composite ord false empty_treg [b; c] = Ok i /\ make_tendency_composite ord false empty_treg [a; seen_as i] = Ok n.
Proof.
  exists (in_t ["z"]), (in_t ["*"]), (in_t ["*"; "z"]). intros ord Hord.
  assert (Hz : ord ["z"] = ["z"]). { apply Permutation_length_1_inv. apply Permutation_sym. apply Hord. repeat constructor. intros []. }
  cbv in Hz. split; [reflexivity|]. eexists. eexists. split.
  - cbv. repeat (rewrite Hz; cbv). reflexivity.
  - cbv. repeat (rewrite Hz; cbv). reflexivity.
Qed.

(** and the other way round. *)
Lemma nested_accepts_less : exists a b c, forall ord, (forall l, NoDup l -> Permutation (ord l) l) ->
  make_tendency_composite ord false empty_treg [b; c] = Err EInvalidProps /\
  exists n, make_tendency_composite ord false empty_treg [a; b; c] = Ok n.
Proof.
  exists (in_t ["*"; "z"]), (in_t ["y"]), (in_t ["y"; "z"]). intros ord Hord.
  assert (H1 : ord ["z"; "y"] = ["z"; "y"] \/ ord ["z"; "y"] = ["y"; "z"]).
  { apply Permutation_length_2_inv. apply Permutation_sym. apply Hord. repeat constructor; cbn; intuition discriminate. }
  assert (H2 : ord ["y"; "z"] = ["y"; "z"] \/ ord ["y"; "z"] = ["z"; "y"]).
  { apply Permutation_length_2_inv. apply Permutation_sym. apply Hord. repeat constructor; cbn; intuition discriminate. }
  cbv in H1, H2. split; [reflexivity|]. destruct H1 as [H1|H1], H2 as [H2|H2]; (eexists; cbv; repeat (progress (rewrite ?H1, ?H2); cbv)); reflexivity.
Qed.

(** ** Calls *)

Definition tree_ex : ctree unit :=
  CompositeOf [Component (stateless f_b); CompositeOf [Component (stateless f_a); CompositeOf [Component (stateless f_b); Component (stateless f_a)]]; CompositeOf []].

Lemma fine_ab : forall f, In f [f_a; f_b] -> returns_fine st_c (stateless f).
Proof.
  intros f Hf u u' [t d] H. unfold stateless in H. injection H as _ H. destruct ex_sum as (_ & _ & Hs). destruct (Hs f t d Hf H) as [Hp Hu]. split; auto. split; auto.
  destruct Hf as [<-|[<-|[]]]; injection H as _ <-; repeat constructor; intros [].
Qed.

Lemma ex_tree : (forall c, In c (leaves tree_ex) -> returns_fine st_c c) /\ length (leaves tree_ex) = 4 /\
  exists td, tree_call tree_ex tt st_c = (tt, Ok td) /\ keys (fst td) = ["w"; "T"; "q"].
Proof.
  split; [|split; [reflexivity|]].
  - intros c Hc. cbn in Hc. destruct Hc as [<-|[<-|[<-|[<-|[]]]]]; apply fine_ab; cbn; auto.
  - destruct (tree_call tree_ex tt st_c) as [[] r] eqn:E. assert (K : match snd (tree_call tree_ex tt st_c) with Ok td => keys (fst td) | Err _ => [] end = ["w"; "T"; "q"])
      by (vm_compute; reflexivity). rewrite E in K. cbn [snd] in K. destruct r as [td|e]; [eauto|discriminate].
Qed.

Definition scaled (f : state Qc -> res (dict (da Qc) * dict (da Qc))) : icaller (T:=Qc) unit := fun u st dt => if (dt <? 0)%Z then (u, Err EValue) else (u, f st).
Definition itree_ex : itree unit :=
  ICompositeOf [IComponent (inl (scaled f_b)); ICompositeOf [IComponent (inr (stateless f_a)); ICompositeOf [IComponent (inl (scaled f_a))]]].

Lemma ex_itree : (forall c, In c (ileaves itree_ex) -> returns_fine st_c (with_timestep 10%Z c)) /\
  exists td, with_timestep 10%Z (itree_call itree_ex) tt st_c = (tt, Ok td) /\ keys (fst td) = ["w"; "T"; "q"].
Proof.
  split.
  - intros c Hc. cbn in Hc. destruct Hc as [<-|[<-|[<-|[]]]]; [apply (fine_ab f_b)|apply (fine_ab f_a)|apply (fine_ab f_a)]; cbn; auto.
  - destruct (with_timestep 10%Z (itree_call itree_ex) tt st_c) as [[] r] eqn:E.
    assert (K : match snd (with_timestep 10%Z (itree_call itree_ex) tt st_c) with Ok td => keys (fst td) | Err _ => [] end = ["w"; "T"; "q"])
      by (vm_compute; reflexivity). rewrite E in K. cbn [snd] in K. destruct r as [td|e]; [eauto|discriminate].
Qed.

Definition diag_of (X : string) : dcaller (T:=Qc) unit := fun u st => (u, Ok [(X, mkda [] (cramp []) [("units", "K")])]).
Definition dtree_ex : dtree (T:=Qc) unit := DCompositeOf [DCompositeOf [DComponent (diag_of "a")]; DComponent (diag_of "b"); DCompositeOf [DComponent (diag_of "c"); DCompositeOf []]].
Definition dtree_bad : dtree (T:=Qc) unit := DCompositeOf [DComponent (diag_of "a"); DCompositeOf [DComponent (diag_of "c"); DComponent (diag_of "a")]].

Lemma ex_dtree : (forall c, In c (dleaves dtree_ex ++ dleaves dtree_bad) -> returns_dict st_c c) /\
  (exists d, dtree_call dtree_ex tt st_c = (tt, Ok d) /\ keys d = ["a"; "b"; "c"]) /\
  dtree_call dtree_bad tt st_c = (tt, Err ESharedKey).
Proof.
  split; [|split; [eexists; split; reflexivity|reflexivity]]. intros c Hc.
  assert (G : exists X, c = diag_of X). { cbn in Hc. destruct Hc as [<-|[<-|[<-|[<-|[<-|[<-|[]]]]]]]; eexists; reflexivity. }
  destruct G as (X & ->). intros u u' d H. injection H as _ <-. repeat constructor. intros [].
Qed.

(** ** Declarations *)

Definition ex_knownb (l : list (string * props)) : bool := all_knownb [l].

Lemma ex_knownb_ok : forall l, ex_knownb l = true -> known l.
Proof. intros l H X _ p Hp. apply (all_knownb_ok [l] X); auto. cbn [concat]. rewrite app_nil_r. auto. Qed.

Definition tend_z : pdict := [("T", qprops ["z"; "*"] "K s^-1")].
Definition css_ex : list (list (bool * cprops)) :=
  [[(true, mkcprops inp_c tend_z [("da", qprops [] "K")] None)]; [(true, mkcprops inp_c tend_z [("db", qprops ["x"] "m")] None); (true, mkcprops [("q", qprops ["x"] "g"); ("n", qprops ["*"] "m")] [] [] None)]; []].

Definition seen_all (css : list (list (bool * cprops))) : list (bool * cprops) :=
  flat_map (fun cs => match make_tendency_composite (fun l => l) false empty_treg cs with Ok c => [seen_as c] | Err _ => [] end) css.

Lemma ex_nested_composite : exists ics n f,
  Forall2 (fun cs c => exists i, make_tendency_composite (fun l => l) i empty_treg cs = Ok c) css_ex ics /\
  make_tendency_composite (fun l => l) false empty_treg (map seen_as ics) = Ok n /\
  make_tendency_composite (fun l => l) true empty_treg (concat css_ex) = Ok f /\
  keys (t_inp n) = keys (t_inp f) /\ length (keys (t_inp n)) >= 3 /\ length (keys (t_diag n)) = 2 /\
  (forall pds, input_dicts empty_treg (map snd (concat css_ex)) = Ok pds -> known (concat pds)) /\
  known (concat (map cp_tend (map snd (concat css_ex)))) /\
  (forall c np, In c (concat css_ex) -> In np (cp_tend (snd c)) -> p_dims (snd np) <> None) /\
  (forall c, In c (concat css_ex) -> NoDup (keys (cp_diag (snd c)))).
Proof.
  destruct (make_tendency_composite (fun l => l) false empty_treg (nth 0 css_ex [])) as [c1|] eqn:E1; [|vm_compute in E1; discriminate].
  destruct (make_tendency_composite (fun l => l) false empty_treg (nth 1 css_ex [])) as [c2|] eqn:E2; [|vm_compute in E2; discriminate].
  destruct (make_tendency_composite (fun l => l) false empty_treg (nth 2 css_ex [])) as [c3|] eqn:E3; [|vm_compute in E3; discriminate].
  assert (Hs : seen_all css_ex = map seen_as [c1; c2; c3]).
  { unfold seen_all, css_ex. cbn [flat_map]. cbn [nth css_ex] in E1, E2, E3. rewrite E1, E2, E3. reflexivity. }
  destruct (make_tendency_composite (fun l => l) false empty_treg (seen_all css_ex)) as [n|] eqn:En; [|vm_compute in En; discriminate].
  destruct (make_tendency_composite (fun l => l) true empty_treg (concat css_ex)) as [f|] eqn:Ef; [|vm_compute in Ef; discriminate].
  exists [c1; c2; c3], n, f. split; [constructor; [eauto|constructor; [eauto|constructor; [eauto|constructor]]]|].
  split; [rewrite <- Hs; auto|]. split; [reflexivity|].
  assert (K : (keys (t_inp n) = keys (t_inp f)) /\ length (keys (t_inp n)) >= 3 /\ length (keys (t_diag n)) = 2).
  { vm_compute in En, Ef. injection En as <-. injection Ef as <-. cbn. repeat split; lia. }
  split; [apply K|]. split; [apply K|]. split; [apply K|]. split; [|split; [|split]].
  - intros pds H. apply ex_knownb_ok. injection H as <-. vm_compute. reflexivity.
  - apply ex_knownb_ok. vm_compute. reflexivity.
  - assert (F : forallb (fun c => forallb (fun np => match p_dims (snd np) with Some _ => true | None => false end) (cp_tend (snd c))) (concat css_ex) = true) by (vm_compute; reflexivity).
    intros c np Hc Hn. rewrite forallb_forall in F. specialize (F c Hc). rewrite forallb_forall in F. specialize (F np Hn). destruct (p_dims (snd np)); congruence.
  - intros c Hc. apply nodupb_ok. assert (F : forallb (fun c => nodupb (keys (cp_diag (snd c)))) (concat css_ex) = true) by (vm_compute; reflexivity).
    rewrite forallb_forall in F. auto.
Qed.

Definition css_un : list (list cprops) :=
  [[mkcprops [("T", qprops ["*"; "z"] "K"); ("q", qprops ["x"] "kg")] [] [] None];
   [mkcprops [("T", qprops ["*"; "x"] "K")] [] [] None; mkcprops [("q", qprops ["x"] "g")] [] [] None]].

Lemma ex_inputs : exists pds, input_dicts empty_treg (concat css_un) = Ok pds /\ known (concat pds) /\
  (forall X, unmixed (entries X (concat pds))) /\ exists f, composite_inputs (fun l => l) empty_treg (concat css_un) = Ok f /\ keys f = ["T"; "q"].
Proof.
  eexists. split; [reflexivity|]. split; [apply ex_knownb_ok; vm_compute; reflexivity|]. split; [|eexists; split; vm_compute; reflexivity].
  intros X. cbn [concat app map cp_inp css_un]. unfold entries. cbn [flat_map fst snd].
  destruct (String.eqb X "T") eqn:E1.
  - apply String.eqb_eq in E1 as ->. left. cbn [String.eqb Ascii.eqb Bool.eqb app]. intros p [<-|[<-|[]]]; eexists; (split; [reflexivity|cbn; auto]).
  - destruct (String.eqb X "q") eqn:E2; cbn [app].
    + right. intros p Hp (ds & H1 & H2). destruct Hp as [<-|[<-|[]]]; injection H1 as <-; destruct H2 as [H2|[]]; discriminate.
    + left. intros p [].
Qed.
