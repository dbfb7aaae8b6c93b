(** Concrete cases for the property theorems about columns (C74). *)
From Coq Require Import String List Bool Arith ZArith QArith Qcanon Lia.
From Verif Require Import Prelude PreludeFacts ArithM NdArray NdFacts Units DataArrayM
  Wildcard GetNp SpecArrays Restore SpecUnits ExampleRegistry Checks Tracers Components SpecComponents SpecCalls
  SpecColumns ColumnsFacts ColumnsMain LayoutFacts Ex_Components.
Import ListNotations.
Open Scope string_scope.
Open Scope nat_scope.
Open Scope list_scope.

#[local] Existing Instance ex_registry | 5.

(** ** A component with a column sum and a profile *)

Definition inp_l : pdict :=
  [ ("T", mkprops (Some ["z"; "*"]) false (Some "K") (Some "t") false);
    ("wind", qprops ["*"] "m s^-1") ].

Definition out_l : pdict :=
  [ ("column", qprops ["*"] "m s^-1 K"); ("T", mkprops None false (Some "K") None false) ].

Definition column_total (t : nd Qc) (j : nat) : Qc :=
  fold_right Qcplus (cz 0) (map (fun k => at_ t [k; j]) (seq 0 (nth 0 (shape t) 0))).

(** column[j] = wind[j] * sum over z of T[z, j]; the new T is wind * T. *)
Definition column_outputs (raw : dict (rval Qc)) : dict (nd Qc) :=
  let t := arr_of "t" raw in
  let w := arr_of "wind" raw in
  let nz := nth 0 (shape t) 0 in
  let nc := nth 1 (shape t) 0 in
  [ ("column", build [nc] (fun i => Qcmult (at_ w [nth 0 i 0]) (column_total t (nth 0 i 0))));
    ("t", build [nz; nc] (fun i => Qcmult (at_ w [nth 1 i 0]) (at_ t [nth 0 i 0; nth 1 i 0]))) ].

Definition ac_l (u : nat) (raw : dict (rval Qc)) : nat * res (dict (nd Qc)) := (S u, Ok (column_outputs raw)).
Definition ac_l_t (u : nat) (raw : dict (rval Qc)) : nat * res (dict (nd Qc) * dict (nd Qc)) :=
  (S u, Ok ([], column_outputs raw)).
Definition ac_l_s (u : nat) (raw : dict (rval Qc)) (dt : Z) : nat * res (dict (nd Qc) * dict (nd Qc)) :=
  (S u, Ok ([], column_outputs raw)).

Lemma declared_l : forall name ds, declared_dims out_l inp_l name ds ->
  name = "column" /\ ds = ["*"] \/ name = "T" /\ ds = ["z"; "*"].
Proof.
  intros name ds (p & Hp & Hd). unfold out_l in Hp. cbn [dget] in Hp.
  destruct (String.eqb name "column") eqn:E1.
  - apply String.eqb_eq in E1. subst name. injection Hp as <-. cbn in Hd. left. split; auto.
    destruct Hd as [E|(E & _)]; congruence.
  - destruct (String.eqb name "T") eqn:E2; [|discriminate]. apply String.eqb_eq in E2. subst name. injection Hp as <-.
    right. split; auto. cbn in Hd. destruct Hd as [E|(_ & q & Hq & E)]; [discriminate|].
    injection Hq as <-. cbn in E. congruence.
Qed.

Lemma input_dim_l : forall d, input_dim inp_l d <-> d = "z" \/ d = "*".
Proof.
  intros d. split.
  - intros (name & p & ds & [E|[E|[]]] & Hd & Hi); injection E as <- <-; cbn in Hd; injection Hd as <-; cbn in Hi; intuition.
  - intros [-> | ->].
    + exists "T", (mkprops (Some ["z"; "*"]) false (Some "K") (Some "t") false), ["z"; "*"]. cbn. auto.
    + exists "T", (mkprops (Some ["z"; "*"]) false (Some "K") (Some "t") false), ["z"; "*"]. cbn. auto.
Qed.

Lemma on_grid_l : forall lens raw, on_grid inp_l lens raw ->
  dget "t" raw = Some (RArr (arr_of "t" raw)) /\ shape (arr_of "t" raw) = [lens "z"; lens "*"] /\
  dget "wind" raw = Some (RArr (arr_of "wind" raw)) /\ shape (arr_of "wind" raw) = [lens "*"].
Proof.
  intros lens raw H.
  destruct (H "T" _ ["z"; "*"] (or_introl eq_refl) eq_refl) as (t & Ht & _ & St).
  destruct (H "wind" _ ["*"] (or_intror (or_introl eq_refl)) eq_refl) as (w & Hw & _ & Sw).
  cbn in Ht, Hw, St, Sw. unfold arr_of. rewrite Ht, Hw. auto.
Qed.

Definition grid_l (lens : string -> nat) (d : string) : nat :=
  if String.eqb d "z" then lens "z" else if String.eqb d "*" then lens "*" else 0.

Lemma result_grid_l : forall lens raw, on_grid inp_l lens raw ->
  result_grid inp_l out_l lens (grid_l lens) (column_outputs raw).
Proof.
  intros lens raw H. destruct (on_grid_l lens raw H) as (_ & St & _ & _). split.
  - intros d Hd. apply input_dim_l in Hd as [-> | ->]; reflexivity.
  - intros name ds a Hd Ha. apply declared_l in Hd as [(-> & ->)|(-> & ->)]; cbn in Ha; injection Ha as <-;
      cbn [shape build map]; rewrite St; reflexivity.
Qed.

Lemma columnwise_l : forall f : dict (rval Qc) -> dict (nd Qc) -> Prop,
  (forall raw out, f raw out -> out = column_outputs raw) -> columnwise inp_l out_l f.
Proof.
  intros f Hf lens1 lens2 raw1 raw2 out1 out2 F1 F2 G1 G2 Hl.
  apply Hf in F1. apply Hf in F2. subst out1 out2.
  exists (grid_l lens1), (grid_l lens2).
  assert (Hz : lens1 "z" = lens2 "z") by (apply Hl; [apply input_dim_l; auto|discriminate]).
  split; [apply result_grid_l; auto|]. split; [apply result_grid_l; auto|]. split.
  - intros d Hd. unfold grid_l. rewrite Hz. apply String.eqb_neq in Hd. rewrite Hd. reflexivity.
  - intros j1 j2 J1 J2 (_ & Hs).
    destruct (on_grid_l lens1 raw1 G1) as (T1 & St1 & W1 & Sw1).
    destruct (on_grid_l lens2 raw2 G2) as (T2 & St2 & W2 & Sw2).
    assert (Ht : forall k, k < lens1 "z" -> at_ (arr_of "t" raw1) [k; j1] = at_ (arr_of "t" raw2) [k; j2]).
    { intros k Hk. apply (Hs "T" _ ["z"; "*"] _ _ (or_introl eq_refl) eq_refl T1 T2 (fun _ => k)).
      intros d Hd Hne. destruct Hd as [<-|[<-|[]]]; [auto|congruence]. }
    assert (Hw : at_ (arr_of "wind" raw1) [j1] = at_ (arr_of "wind" raw2) [j2]).
    { apply (Hs "wind" _ ["*"] _ _ (or_intror (or_introl eq_refl)) eq_refl W1 W2 (fun _ => 0)).
      intros d [<-|[]] Hne. congruence. }
    assert (Htot : column_total (arr_of "t" raw1) j1 = column_total (arr_of "t" raw2) j2).
    { unfold column_total. rewrite St1, St2. cbn [nth]. rewrite <- Hz. f_equal. apply map_ext_in.
      intros k Hk. apply in_seq in Hk. apply Ht. lia. }
    intros name ds a1 a2 Hd A1 A2 i Hi. apply declared_l in Hd as [(-> & ->)|(-> & ->)]; cbn in A1, A2;
      injection A1 as <-; injection A2 as <-; unfold place; cbn [map].
    + change (String.eqb "*" "*") with true. cbv iota.
      rewrite !at_build; cbn [nth]; [rewrite Hw, Htot; reflexivity| |];
        constructor; try constructor; rewrite ?St1, ?St2; cbn [nth]; auto.
    + change (String.eqb "*" "*") with true. change (String.eqb "z" "*") with false. cbv iota.
      assert (Hiz : i "z" < lens1 "z").
      { specialize (Hi "z" (or_introl eq_refl)). apply Hi. discriminate. }
      rewrite !at_build; cbn [nth]; [rewrite Hw, Ht by auto; reflexivity| |];
        constructor; try constructor; try constructor; rewrite ?St1, ?St2; cbn [nth]; auto; rewrite <- Hz; auto.
Qed.

(** ** Three states with the same field *)

Ltac in_range := unfold NdArray.in_range; repeat (apply Forall2_cons; [assumption|]); apply Forall2_nil.

Definition temp_at (x y z : nat) : Qc := cz (Z.of_nat (100 * x + 10 * y + z)).
Definition wind_at (x y : nat) : Qc := cz (Z.of_nat (1 + x + 2 * y)).
Definition ix (idx : list nat) (k : nat) : nat := nth k idx 0.

(** T stored as (x, z, y) and wind as (y, x). *)
Definition st_l1 : state Qc :=
  [ ("time", VTime 0%Z);
    ("T", VDA (mkda ["x"; "z"; "y"] (build [2; 4; 3] (fun i => temp_at (ix i 0) (ix i 2) (ix i 1))) [("units", "K")]));
    ("wind", VDA (mkda ["y"; "x"] (build [3; 2] (fun i => wind_at (ix i 1) (ix i 0))) [("units", "km s^-1")])) ].

(** T stored as (y, x, z) and wind as (x, y), and another quantity beside them. *)
Definition st_l2 : state Qc :=
  [ ("wind", VDA (mkda ["x"; "y"] (build [2; 3] (fun i => wind_at (ix i 0) (ix i 1))) [("units", "km s^-1")]));
    ("unused", VDA (mkda ["y"] (cramp [5]) [("units", "kg")]));
    ("T", VDA (mkda ["y"; "x"; "z"] (build [3; 2; 4] (fun i => temp_at (ix i 1) (ix i 0) (ix i 2))) [("units", "K")]));
    ("time", VTime 0%Z) ].

(** The column at x = 1, y = 2 alone. *)
Definition st_l3 : state Qc :=
  [ ("time", VTime 0%Z);
    ("T", VDA (mkda ["z"] (build [4] (fun i => temp_at 1 2 (ix i 0))) [("units", "K")]));
    ("wind", VDA (mkda [] (build [] (fun _ => wind_at 1 2)) [("units", "km s^-1")])) ].

Definition col_l (d : string) : nat := if String.eqb d "x" then 1 else 2.

Definition c_l : dcomp :=
  match make_diagnostic_component inp_l out_l with Ok c => c | Err _ => mkdcomp false [] [] end.

Lemma c_l_made : make_diagnostic_component inp_l out_l = Ok c_l.
Proof. vm_compute; reflexivity. Qed.

Lemma wild_l : wildcard_dims st_l1 inp_l = ["x"; "y"] /\ wildcard_dims st_l2 inp_l = ["y"; "x"] /\
  wildcard_dims st_l3 inp_l = [].
Proof. repeat split; vm_compute; reflexivity. Qed.

Lemma unambiguous_l : forall st : state Qc, (forall d, In d (wildcard_dims st inp_l) -> d = "x" \/ d = "y") ->
  unambiguous st inp_l out_l.
Proof.
  intros st H d Hd. apply H in Hd. split.
  - intros Hi. apply input_dim_l in Hi. destruct Hd as [-> | ->], Hi; discriminate.
  - intros (name & ds & Hx & Hi). apply declared_l in Hx as [(_ & ->)|(_ & ->)]; cbn in Hi;
      destruct Hd as [-> | ->]; intuition discriminate.
Qed.

Lemma setup_l1 : column_setup inp_l out_l st_l1.
Proof.
  split; [apply wf_stateb_ok; vm_compute; reflexivity|]. apply unambiguous_l. rewrite (proj1 wild_l).
  intros d [<-|[<-|[]]]; auto.
Qed.

Lemma setup_l2 : column_setup inp_l out_l st_l2.
Proof.
  split; [apply wf_stateb_ok; vm_compute; reflexivity|]. apply unambiguous_l. rewrite (proj1 (proj2 wild_l)).
  intros d [<-|[<-|[]]]; auto.
Qed.

Lemma wf_l3 : wf_state st_l3.
Proof. apply wf_stateb_ok; vm_compute; reflexivity. Qed.

Lemma inside_dims : forall (a : da Qc) c, inside a c ->
  Forall (fun dn => c (fst dn) < snd dn) (combine (dims a) (shape (arr a))).
Proof. intros a c H. apply Forall_forall. intros [d n] Hd. apply H. exact Hd. Qed.

Lemma same_fields_l : same_fields inp_l st_l1 st_l2.
Proof.
  split; [reflexivity|]. intros name p [E|[E|[]]]; injection E as <- <-;
    (do 2 eexists; split; [reflexivity|]; split; [reflexivity|]; split; [reflexivity|]; split).
  - intros d n. unfold has_dim. cbn. intuition.
  - intros c Hi. apply inside_dims in Hi. cbn in Hi. inversion_clear Hi as [|? ? H1 Hi'].
    inversion_clear Hi' as [|? ? H2 Hi]. inversion_clear Hi as [|? ? H3 _]. cbn [fst snd] in *.
    unfold da_at. cbn [arr dims map]. rewrite !at_build; [reflexivity| |]; in_range.
  - intros d n. unfold has_dim. cbn. intuition.
  - intros c Hi. apply inside_dims in Hi. cbn in Hi. inversion_clear Hi as [|? ? H1 Hi'].
    inversion_clear Hi' as [|? ? H2 _]. cbn [fst snd] in *.
    unfold da_at. cbn [arr dims map]. rewrite !at_build; [reflexivity| |]; in_range.
Qed.

Lemma column_of_l : column_of st_l1 inp_l col_l.
Proof.
  intros nm pr ds a d n (Hi & _ & Ha) Hh _.
  destruct Hi as [E|[E|[]]]; injection E as <- <-; vm_compute in Ha; injection Ha as <-; unfold has_dim in Hh; cbn in Hh;
    intuition; match goal with E : (_, _) = (_, _) |- _ => injection E as <- <- end; vm_compute; lia.
Qed.

Lemma single_column_l : single_column inp_l st_l1 col_l st_l3.
Proof.
  split; [reflexivity|]. rewrite (proj1 wild_l).
  intros name p [E|[E|[]]]; injection E as <- <-;
    (do 2 eexists; split; [reflexivity|]; split; [reflexivity|]; split; [reflexivity|]; split).
  - intros d n. unfold has_dim. cbn. split.
    + intros [E|[]]. injection E as <- <-. split; auto. intuition discriminate.
    + intros ([E|[E|[E|[]]]] & Hn); injection E as <- <-; auto; exfalso; apply Hn; auto.
  - intros c Hi Hc. apply inside_dims in Hi. cbn in Hi. inversion_clear Hi as [|? ? H1 Hi'].
    inversion_clear Hi' as [|? ? H2 Hi]. inversion_clear Hi as [|? ? H3 _]. cbn [fst snd] in *.
    pose proof (Hc "x") as Hx. pose proof (Hc "y") as Hy. rewrite (proj1 wild_l) in Hx, Hy.
    specialize (Hx (or_introl eq_refl)). specialize (Hy (or_intror (or_introl eq_refl))).
    unfold da_at. cbn [arr dims map]. rewrite !at_build; [|in_range|in_range].
    unfold ix. cbn [nth]. rewrite Hx, Hy. reflexivity.
  - intros d n. unfold has_dim. cbn. split; [intros []|].
    intros ([E|[E|[]]] & Hn); injection E as <- <-; exfalso; apply Hn; auto.
  - intros c Hi Hc. apply inside_dims in Hi. cbn in Hi. inversion_clear Hi as [|? ? H1 Hi'].
    inversion_clear Hi' as [|? ? H2 _]. cbn [fst snd] in *.
    pose proof (Hc "x") as Hx. pose proof (Hc "y") as Hy. rewrite (proj1 wild_l) in Hx, Hy.
    specialize (Hx (or_introl eq_refl)). specialize (Hy (or_intror (or_introl eq_refl))).
    unfold da_at. cbn [arr dims map]. rewrite !at_build; [|in_range|in_range].
    unfold ix. cbn [nth]. rewrite Hx, Hy. reflexivity.
Qed.

(** ** The hypotheses of the property theorems *)

Definition c_l_t : tcomp :=
  match snd (make_tendency_component false empty_treg inp_l [] out_l "summer" false None "s^-1") with
  | Ok c => c
  | Err _ => mktcomp false [] [] [] "" false [] None ""
  end.

Definition c_l_s : scomp :=
  match snd (make_stepper empty_treg inp_l [] out_l "summer" false None 1%Z) with
  | Ok c => c
  | Err _ => mkscomp false [] [] [] "" false [] None 0%Z
  end.

Lemma lengths_l : same_lengths inp_l st_l1 st_l2 /\ same_lengths inp_l st_l1 st_l3.
Proof.
  split.
  - apply same_fields_columns; [apply setup_l1|apply setup_l2|apply same_fields_l].
  - apply (single_column_alone inp_l st_l1 st_l3 col_l); [apply setup_l1|apply wf_l3| |apply single_column_l].
    intros d Hd. apply setup_l1; auto.
Qed.

Lemma setup_l3 : column_setup inp_l out_l st_l3.
Proof. split; [apply wf_l3|]. apply unambiguous_l. rewrite (proj2 (proj2 wild_l)). intros d []. Qed.

Lemma declared_l_good : proper_inputs inp_l /\ NoDup (keys out_l) /\ stars_ok out_l inp_l.
Proof.
  split; [apply proper_inputsb_ok; reflexivity|]. split; [apply nodupb_ok; reflexivity|apply stars_okb_ok; reflexivity].
Qed.

(** The three states with the same column: the second stores its arrays in other
    orders, the third has that column only. *)
Lemma ex_columns :
  column_setup inp_l out_l st_l1 /\ column_setup inp_l out_l st_l3 /\ same_lengths inp_l st_l1 st_l3 /\
  column_of st_l1 inp_l col_l /\ column_of st_l3 inp_l col_l /\ same_inputs inp_l st_l1 col_l st_l3 col_l /\
  columnwise inp_l out_l (fun raw out => exists v, ac_l 0 raw = (v, Ok out)) /\
  columnwise inp_l out_l (fun raw out => exists v t, ac_l_t 0 raw = (v, Ok (t, out))) /\
  columnwise inp_l out_l (fun raw out => exists v d, ac_l_s 0 raw 1%Z = (v, Ok (d, out))) /\
  (exists v1 d1 v3 d3, diagnostic_call c_l ac_l 0 st_l1 = (v1, Ok d1) /\ diagnostic_call c_l ac_l 0 st_l3 = (v3, Ok d3)) /\
  (exists v1 t1 d1 v3 t3 d3, tendency_call empty_treg c_l_t ac_l_t 0 st_l1 = (v1, Ok (t1, d1)) /\
     tendency_call empty_treg c_l_t ac_l_t 0 st_l3 = (v3, Ok (t3, d3))) /\
  (exists v1 d1 n1 v3 d3 n3, stepper_call empty_treg c_l_s ac_l_s 0 st_l1 1%Z = (v1, Ok (d1, n1)) /\
     stepper_call empty_treg c_l_s ac_l_s 0 st_l3 1%Z = (v3, Ok (d3, n3))).
Proof.
  split; [apply setup_l1|]. split; [apply setup_l3|]. split; [apply lengths_l|]. split; [apply column_of_l|].
  split; [intros nm pr ds a d n _ _ Hd; rewrite (proj2 (proj2 wild_l)) in Hd; contradiction|].
  split.
  { apply single_column_alone; [apply setup_l1|apply wf_l3| |apply single_column_l].
    intros d Hd. apply setup_l1; auto. }
  split; [apply columnwise_l; intros raw out (v & E); injection E as _ <-; reflexivity|].
  split; [apply columnwise_l; intros raw out (v & t & E); injection E as _ _ <-; reflexivity|].
  split; [apply columnwise_l; intros raw out (v & t & E); injection E as _ _ <-; reflexivity|].
  split; [|split].
  - destruct (pair_is_ok (diagnostic_call c_l ac_l 0 st_l1)) as (v1 & d1 & E1); [vm_compute; reflexivity|].
    destruct (pair_is_ok (diagnostic_call c_l ac_l 0 st_l3)) as (v3 & d3 & E3); [vm_compute; reflexivity|].
    exists v1, d1, v3, d3. auto.
  - destruct (pair_pair_is_ok (tendency_call empty_treg c_l_t ac_l_t 0 st_l1)) as (v1 & t1 & d1 & E1); [vm_compute; reflexivity|].
    destruct (pair_pair_is_ok (tendency_call empty_treg c_l_t ac_l_t 0 st_l3)) as (v3 & t3 & d3 & E3); [vm_compute; reflexivity|].
    exists v1, t1, d1, v3, t3, d3. auto.
  - destruct (pair_pair_is_ok (stepper_call empty_treg c_l_s ac_l_s 0 st_l1 1%Z)) as (v1 & t1 & d1 & E1); [vm_compute; reflexivity|].
    destruct (pair_pair_is_ok (stepper_call empty_treg c_l_s ac_l_s 0 st_l3 1%Z)) as (v3 & t3 & d3 & E3); [vm_compute; reflexivity|].
    exists v1, t1, d1, v3, t3, d3. auto.
Qed.

Lemma ex_layout :
  column_setup inp_l out_l st_l1 /\ wf_state st_l2 /\ same_fields inp_l st_l1 st_l2 /\
  wildcard_dims st_l1 inp_l = ["x"; "y"] /\ wildcard_dims st_l2 inp_l = ["y"; "x"] /\
  (exists v1 d1 v2 d2, diagnostic_call c_l ac_l 0 st_l1 = (v1, Ok d1) /\ diagnostic_call c_l ac_l 0 st_l2 = (v2, Ok d2)).
Proof.
  split; [apply setup_l1|]. split; [apply setup_l2|]. split; [apply same_fields_l|].
  split; [apply wild_l|]. split; [apply wild_l|].
  destruct (pair_is_ok (diagnostic_call c_l ac_l 0 st_l1)) as (v1 & d1 & E1); [vm_compute; reflexivity|].
  destruct (pair_is_ok (diagnostic_call c_l ac_l 0 st_l2)) as (v3 & d3 & E3); [vm_compute; reflexivity|].
  exists v1, d1, v3, d3. auto.
Qed.

Lemma ex_single_column :
  column_setup inp_l out_l st_l1 /\ wf_state st_l3 /\ column_of st_l1 inp_l col_l /\ single_column inp_l st_l1 col_l st_l3 /\
  wildcard_dims st_l3 inp_l = [] /\
  (exists v1 d1 v3 d3 q1 q3, diagnostic_call c_l ac_l 0 st_l1 = (v1, Ok d1) /\ diagnostic_call c_l ac_l 0 st_l3 = (v3, Ok d3) /\
     dget "T" d1 = Some q1 /\ dims q1 = ["z"; "x"; "y"] /\ dget "T" d3 = Some q3 /\ dims q3 = ["z"]).
Proof.
  split; [apply setup_l1|]. split; [apply wf_l3|]. split; [apply column_of_l|]. split; [apply single_column_l|].
  split; [apply wild_l|].
  do 6 eexists. split; [vm_compute; reflexivity|]. split; [vm_compute; reflexivity|].
  split; [reflexivity|]. split; [reflexivity|]. split; reflexivity.
Qed.

(** ** Columns are what it takes: a component that looks at the number of its column
    gives other fields when the arrays are stored in another order. *)

Definition ac_number (u : nat) (raw : dict (rval Qc)) : nat * res (dict (nd Qc)) :=
  (u, Ok [ ("column", cramp [nth 1 (shape (arr_of "t" raw)) 0]); ("t", arr_of "t" raw) ]).

Definition differ_at (a b : option (da Qc)) (c : string -> nat) : bool :=
  match a, b with
  | Some q1, Some q2 => negb (Qc_eq_bool (da_at q1 c) (da_at q2 c))
  | _, _ => false
  end.

Lemma ex_layout_matters : exists v1 d1 v2 d2 q1 q2,
  same_fields inp_l st_l1 st_l2 /\ diagnostic_call c_l ac_number 0 st_l1 = (v1, Ok d1) /\
  diagnostic_call c_l ac_number 0 st_l2 = (v2, Ok d2) /\
  dget "column" d1 = Some q1 /\ dget "column" d2 = Some q2 /\ column_of st_l1 inp_l col_l /\
  exists c, column_of st_l1 inp_l c /\ inside q1 c /\ da_at q1 c <> da_at q2 c.
Proof.
  set (r1 := diagnostic_call c_l ac_number 0 st_l1). set (r2 := diagnostic_call c_l ac_number 0 st_l2).
  set (c0 := fun d => if String.eqb d "x" then 1 else 0).
  assert (Hb : match snd r1, snd r2 with
               | Ok d1, Ok d2 => differ_at (dget "column" d1) (dget "column" d2) c0
               | _, _ => false
               end = true) by (vm_compute; reflexivity).
  assert (Hsh : match snd r1 with
                | Ok d1 => match dget "column" d1 with
                           | Some q => forallb (fun dn => Nat.ltb (c0 (fst dn)) (snd dn)) (combine (dims q) (shape (arr q)))
                           | None => false end
                | _ => false
                end = true) by (vm_compute; reflexivity).
  destruct r1 as [v1 [d1|]] eqn:E1; [|discriminate]. destruct r2 as [v2 [d2|]] eqn:E2; [|discriminate]. cbn [snd] in *.
  destruct (dget "column" d1) as [q1|] eqn:Q1; [|discriminate]. destruct (dget "column" d2) as [q2|] eqn:Q2; [|discriminate].
  exists v1, d1, v2, d2, q1, q2. split; [apply same_fields_l|]. repeat (split; [auto; try apply column_of_l|]).
  exists c0. split.
  - intros nm pr ds a d n (Hi & _ & Ha) Hh _.
    destruct Hi as [E|[E|[]]]; injection E as <- <-; vm_compute in Ha; injection Ha as <-; unfold has_dim in Hh; cbn in Hh;
      intuition; match goal with E : (_, _) = (_, _) |- _ => injection E as <- <- end; vm_compute; lia.
  - split.
    + intros d n Hh. rewrite forallb_forall in Hsh. specialize (Hsh (d, n) Hh). apply Nat.ltb_lt in Hsh. exact Hsh.
    + unfold differ_at in Hb. apply negb_true_iff in Hb. intros E. rewrite E in Hb.
      unfold Qc_eq_bool in Hb. destruct (Qc_eq_dec _ _); congruence.
Qed.

(** ** Stored in another order, with '*' standing for the same dims *)

Definition st_l4 : state Qc :=
  [ ("wind", VDA (mkda ["x"; "y"] (build [2; 3] (fun i => wind_at (ix i 0) (ix i 1))) [("units", "km s^-1")]));
    ("T", VDA (mkda ["z"; "x"; "y"] (build [4; 2; 3] (fun i => temp_at (ix i 1) (ix i 2) (ix i 0))) [("units", "K")]));
    ("time", VTime 0%Z) ].

Lemma same_fields_l4 : same_fields inp_l st_l1 st_l4.
Proof.
  split; [reflexivity|]. intros name p [E|[E|[]]]; injection E as <- <-;
    (do 2 eexists; split; [reflexivity|]; split; [reflexivity|]; split; [reflexivity|]; split).
  - intros d n. unfold has_dim. cbn. intuition.
  - intros c Hi. apply inside_dims in Hi. cbn in Hi. inversion_clear Hi as [|? ? H1 Hi'].
    inversion_clear Hi' as [|? ? H2 Hi]. inversion_clear Hi as [|? ? H3 _]. cbn [fst snd] in *.
    unfold da_at. cbn [arr dims map]. rewrite !at_build; [reflexivity| |]; in_range.
  - intros d n. unfold has_dim. cbn. intuition.
  - intros c Hi. apply inside_dims in Hi. cbn in Hi. inversion_clear Hi as [|? ? H1 Hi'].
    inversion_clear Hi' as [|? ? H2 _]. cbn [fst snd] in *.
    unfold da_at. cbn [arr dims map]. rewrite !at_build; [reflexivity| |]; in_range.
Qed.

Lemma readable_l : readable inp_l st_l1.
Proof.
  split; [apply setup_l1|]. split; [apply declared_l_good|].
  split; [apply completeb_ok; vm_compute; reflexivity|].
  split; [apply known_unitsb_ok; vm_compute; reflexivity|apply no_repeatedb_ok; vm_compute; reflexivity].
Qed.

Lemma ex_stored_order :
  readable inp_l st_l1 /\ wf_state st_l4 /\ same_fields inp_l st_l1 st_l4 /\
  wildcard_dims st_l1 inp_l = ["x"; "y"] /\ wildcard_dims st_l4 inp_l = ["x"; "y"] /\ st_l1 <> st_l4 /\
  exists v d, diagnostic_call c_l ac_number 0 st_l1 = (v, Ok d).
Proof.
  split; [apply readable_l|]. split; [apply wf_stateb_ok; vm_compute; reflexivity|]. split; [apply same_fields_l4|].
  split; [apply wild_l|]. split; [vm_compute; reflexivity|]. split; [discriminate|].
  apply pair_is_ok. vm_compute. reflexivity.
Qed.

Lemma ex_one_wildcard : wf_state st_l3 /\ same_fields inp_l st_l3 st_l3 /\ wildcard_dims st_l3 inp_l = [] /\
  wildcard_dims st_c inp_c = ["x"] /\ same_fields inp_c st_c st_c.
Proof.
  assert (Hrefl : forall inp (st : state Qc), complete st inp -> same_fields inp st st).
  { intros inp st Hc. split; auto. intros name p Hi. destruct (Hc name p Hi) as (_ & _ & a & Ha).
    exists a, a. repeat split; auto. }
  split; [apply wf_l3|]. split; [apply Hrefl, completeb_ok; vm_compute; reflexivity|].
  split; [apply wild_l|]. split; [vm_compute; reflexivity|]. apply Hrefl, completeb_ok; vm_compute; reflexivity.
Qed.
