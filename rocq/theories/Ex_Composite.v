(** Concrete cases for the property theorems about composites (C18-C22). *)
From Coq Require Import String List Bool Arith ZArith QArith Qcanon Lia Permutation.
From Verif Require Import Prelude PreludeFacts ArithM NdArray NdFacts Units DataArrayM GetNp SpecUnits ExampleRegistry Checks
  SpecDa Tracers Components Composite SpecComposite CompositeFacts CombineFacts CompositeMain Ex_Components.
Import ListNotations.
Open Scope string_scope.
Open Scope nat_scope.
Open Scope list_scope.

#[local] Existing Instance ex_registry | 5.

(** ** Refutations of C22 *)

Lemma combine_dims_unsound : exists d1 d2, forall ord, (forall l, NoDup l -> Permutation (ord l) l) ->
  exists r q, combine_dims ord d1 d2 = Ok r /\ fits q (fst r) /\ ~ exists q', fits q' (fst d1) /\ fits q' (fst d2).
Proof.
  exists (["*"; "z"], false), (["x"], false). intros ord Hord.
  destruct (combine_dims_cases ord Hord (["*"; "z"], false) (["x"], false)) as [(r & Hr & _ & Hs & Hn)|(_ & K & _)].
  - exists r, (fst r). split; auto. split.
    + split; auto.
    + intros (q & [F1 _] & [_ [G|G]]); [destruct G as [G|[]]; discriminate|].
      assert (Hz : In "z" q) by (apply F1; [simpl; auto|discriminate]). apply G in Hz as [Hz|[]]. discriminate.
  - exfalso. apply K. simpl; auto.
Qed.

Lemma combine_dims_incomplete : exists d1 d2 q, fits q (fst d1) /\ fits q (fst d2) /\
  forall ord, (forall l, NoDup l -> Permutation (ord l) l) -> combine_dims ord d1 d2 = Err EInvalidProps.
Proof.
  exists (["x"; "y"], false), (["*"; "x"], false), ["x"; "y"]. split; [|split].
  - split; [auto|right; auto].
  - split; [|left; simpl; auto]. intros d [<-|[<-|[]]] Hne; [congruence|simpl; auto].
  - intros ord Hord. reflexivity.
Qed.

Lemma combine_dims_asymmetric : exists d1 d2, forall ord, (forall l, NoDup l -> Permutation (ord l) l) ->
  is_ok (combine_dims ord d1 d2) = false /\ is_ok (combine_dims ord d2 d1) = true.
Proof.
  exists (["x"; "y"], false), (["*"; "x"], false). intros ord Hord. split; reflexivity.
Qed.

Lemma ex_dims : (forall l : list string, NoDup l -> Permutation (rev l) l) /\
  (In "*" ["*"; "z"] <-> In "*" ["x"; "*"]) /\ (In "*" ["y"; "z"] <-> In "*" ["z"; "y"]) /\
  combine_dims (@rev string) (["*"; "z"], false) (["x"; "*"], false) = Ok (["*"; "x"; "z"], false) /\
  combine_dims (@rev string) (["y"; "z"], false) (["z"; "y"], true) = Ok (["z"; "y"], false) /\
  combine_dims (@rev string) (["y"; "z"], false) (["z"], false) = Err EInvalidProps.
Proof.
  split; [intros l _; apply Permutation_sym, Permutation_rev|]. split; [simpl; tauto|].
  split; [split; simpl; intuition discriminate|]. repeat (split; [vm_compute; reflexivity|]). vm_compute; reflexivity.
Qed.

(** ** C21 *)

Definition pds_ok : list pdict :=
  [ [("T", qprops ["*"; "z"] "K"); ("q", qprops ["x"] "kg")];
    [("q", mkprops (Some ["x"]) true (Some "g") None false); ("T", qprops ["*"] "K"); ("w", qprops ["y"] "m")] ].
Definition pds_bad : list pdict := [ [("T", qprops ["x"; "y"] "K")]; [("T", qprops ["*"; "x"] "K")] ].

Definition all_knownb (pds : list pdict) : bool :=
  forallb (fun np => match p_units (snd np) with
                     | Some s => match parse s with Some _ => true | None => false end
                     | None => false
                     end) (concat pds).

Lemma all_knownb_ok : forall pds X, all_knownb pds = true -> forall p, In p (entries X (concat pds)) -> units_known ex_registry p.
Proof.
  intros pds X H p Hp. unfold entries in Hp. apply in_flat_map in Hp as ([k q] & Hin & Hp). cbn [fst snd] in Hp.
  destruct (String.eqb X k); [|destruct Hp]. destruct Hp as [<-|[]].
  unfold all_knownb in H. rewrite forallb_forall in H. specialize (H _ Hin). cbn [snd] in H.
  destruct (p_units q) as [s|] eqn:E; [|discriminate]. destruct (parse s) as [u|] eqn:Eu; [|discriminate]. exists s, u. auto.
Qed.

Lemma ex_combine :
  (forall X, 2 <= length (entries X (concat pds_ok)) -> forall p, In p (entries X (concat pds_ok)) -> units_known ex_registry p) /\
  (forall X, 2 <= length (entries X (concat pds_bad)) -> forall p, In p (entries X (concat pds_bad)) -> units_known ex_registry p) /\
  (exists res, combine_properties (fun l => l) pds_ok [] = Ok res /\ keys res = ["T"; "q"; "w"]) /\
  combine_properties (fun l => l) pds_bad [] = Err EInvalidProps.
Proof.
  split; [intros X _; apply all_knownb_ok; vm_compute; reflexivity|].
  split; [intros X _; apply all_knownb_ok; vm_compute; reflexivity|].
  split; [|vm_compute; reflexivity]. eexists. split; vm_compute; reflexivity.
Qed.

(** ** C18, C19 *)

Definition plain_unitsb (a : da Qc) : bool :=
  match dget "units" (attrs a) with
  | Some s => match parse s with Some u => Qc_eqb (u_off u) 0%Qc | None => false end
  | None => false
  end.

Lemma plain_unitsb_ok : forall a, plain_unitsb a = true -> plain_units a.
Proof.
  intros a H. unfold plain_unitsb in H. destruct (dget "units" (attrs a)) as [s|] eqn:E; [|discriminate].
  destruct (parse s) as [u|] eqn:Eu; [|discriminate]. apply UnitsFacts.Qc_eqb_eq in H. exists s, u. auto.
Qed.

Definition properb (d : dict (da Qc)) : bool := nodupb (keys d) && forallb (fun kv => wf_dab (snd kv)) d.

Lemma properb_ok : forall d, properb d = true -> proper d.
Proof.
  intros d H. unfold properb in H. apply andb_true_iff in H as [H1 H2]. split; [apply nodupb_ok; auto|].
  intros X a Ha. apply dget_In in Ha. rewrite forallb_forall in H2. apply wf_dab_ok. apply (H2 _ Ha).
Qed.

(** Two components giving a tendency of T in different units and dims, and one
    more quantity each. *)
Definition f_a (st : state Qc) : res (dict (da Qc) * dict (da Qc)) :=
  Ok ([("T", mkda ["x"] (cramp [3]) [("units", "K s^-1"); ("source", "a")]);
       ("q", mkda ["x"] (cramp [3]) [("units", "kg s^-1")])],
      [("da", mkda [] (cramp []) [("units", "K")])]).
Definition f_b (st : state Qc) : res (dict (da Qc) * dict (da Qc)) :=
  Ok ([("w", mkda ["y"] (cramp [2]) [("units", "m s^-1")]);
       ("T", mkda ["z"; "x"] (cramp [2; 3]) [("units", "K day^-1")])],
      [("db", mkda ["x"] (cramp [3]) [("units", "m")])]).

Lemma ex_sum :
  (exists tout dout, tendency_composite_call (map stateless [f_a; f_b]) tt st_c = (tt, Ok (tout, dout))) /\
  (exists outs, runs st_c (map stateless [f_a; f_b]) tt tt outs /\ Forall proper (map fst outs) /\
     length (contributions "T" (map fst outs)) = 2 /\ Forall plain_units (contributions "T" (map fst outs))) /\
  (forall f t d, In f [f_a; f_b] -> f st_c = Ok (t, d) -> proper t /\ forall X a, dget X t = Some a -> plain_units a).
Proof.
  split; [|split].
  - destruct (tendency_composite_call (map stateless [f_a; f_b]) tt st_c) as [[] [[t d]|e]] eqn:E; [eauto|].
    assert (is_ok (snd (tendency_composite_call (map stateless [f_a; f_b]) tt st_c)) = true) by (vm_compute; reflexivity).
    rewrite E in H. discriminate.
  - eexists. split; [apply runs_stateless; repeat constructor|]. split; [|split].
    + apply Forall_cons; [apply properb_ok; vm_compute; reflexivity|].
      apply Forall_cons; [apply properb_ok; vm_compute; reflexivity|constructor].
    + reflexivity.
    + apply Forall_cons; [apply plain_unitsb_ok; vm_compute; reflexivity|].
      apply Forall_cons; [apply plain_unitsb_ok; vm_compute; reflexivity|constructor].
  - intros f t d [<-|[<-|[]]] H; injection H as <- _; (split; [apply properb_ok; vm_compute; reflexivity|]);
      intros X a Ha; apply dget_In in Ha; apply plain_unitsb_ok; destruct Ha as [Ha|[Ha|[]]]; injection Ha as _ <-;
      vm_compute; reflexivity.
Qed.

(** Incompatible dims: refused. *)
Lemma ex_not_addable :
  snd (tendency_composite_call (map stateless
    [f_a; fun st => Ok ([("q", mkda ["x"] (cramp [4]) [("units", "kg s^-1")])], [])]) tt st_c) = Err EValue.
Proof. vm_compute. reflexivity. Qed.

(** ** C20 *)

Definition cp_a : cprops := mkcprops inp_c tend_c [("da", qprops [] "K")] None.
Definition cp_b : cprops := mkcprops inp_c tend_c [("db", qprops ["x"] "m")] None.

Definition state_x : state Qc := st_c.

Lemma ex_construction :
  (forall c, In c [(true, cp_a); (true, cp_b)] -> NoDup (keys (cp_diag (snd c)))) /\
  (forall c, In c [(true, cp_a); (true, cp_b)] -> fst c = true) /\
  (exists inp, composite_inputs (fun l => l) empty_treg [cp_a; cp_b] = Ok inp) /\
  (exists c, make_tendency_composite (fun l => l) false empty_treg [(true, cp_a); (true, cp_b)] = Ok c) /\
  make_tendency_composite (fun l => l) true empty_treg [(true, cp_a); (true, cp_b); (true, cp_a)] = Err ESharedKey /\
  (exists c, make_diagnostic_composite (fun l => l) empty_treg [(true, cp_a); (true, cp_b)] = Ok c) /\
  Forall2 (fun d (o : dict (da Qc) * dict (da Qc)) => NoDup (keys (snd o)) /\ forall k, In k (keys (snd o)) -> In k (keys d))
    (map cp_diag [cp_a; cp_b]) (map (fun f => match f st_c with Ok o => o | Err _ => ([], []) end) [f_a; f_b]).
Proof.
  split; [intros c [<-|[<-|[]]]; apply nodupb_ok; reflexivity|].
  split; [intros c [<-|[<-|[]]]; reflexivity|].
  split; [apply is_ok_ex; vm_compute; reflexivity|].
  split; [apply is_ok_ex; vm_compute; reflexivity|].
  split; [vm_compute; reflexivity|].
  split; [apply is_ok_ex; vm_compute; reflexivity|].
  constructor; [|constructor; [|constructor]]; (split; [apply nodupb_ok; reflexivity|simpl; tauto]).
Qed.

Lemma ex_diagnostic_calls :
  (exists outs, runs st_c (map stateless [fun st => Ok (snd (match f_a st with Ok o => o | Err _ => ([], []) end));
                                          fun st => Ok (snd (match f_b st with Ok o => o | Err _ => ([], []) end))]) tt tt outs /\
     (forall d, In d outs -> NoDup (keys d)) /\ forall k, ~ shared_key outs k) /\
  exists outs, runs st_c (map stateless [fun st => Ok (snd (match f_a st with Ok o => o | Err _ => ([], []) end));
                                         fun st => Ok (snd (match f_a st with Ok o => o | Err _ => ([], []) end))]) tt tt outs /\
     (forall d, In d outs -> NoDup (keys d)) /\ shared_key outs "da".
Proof.
  split.
  - eexists. split; [apply runs_stateless; repeat constructor|]. split.
    + intros d [<-|[<-|[]]]; apply nodupb_ok; reflexivity.
    + intros k H. apply shared_key_cons in H as [(H1 & e & [<-|[]] & H2)|H].
      * cbn in H1, H2. destruct H1 as [<-|[]]. destruct H2 as [H2|[]]. discriminate.
      * apply shared_key_cons in H as [(_ & e & [] & _)|H].
        destruct H as (l1 & d1 & l2 & d2 & l3 & E & _). destruct l1; discriminate.
  - eexists. split; [apply runs_stateless; repeat constructor|]. split.
    + intros d [<-|[<-|[]]]; apply nodupb_ok; reflexivity.
    + apply shared_key_cons. left. split; [simpl; auto|]. eexists. split; [left; reflexivity|]. simpl; auto.
Qed.
