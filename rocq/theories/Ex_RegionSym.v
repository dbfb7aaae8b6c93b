(** Concrete cases for the property theorems about states that a move of the grid leaves as they are (C100). *)
From Coq Require Import String List Bool Arith ZArith QArith Qcanon Lia.
From Verif Require Import Prelude PreludeFacts ArithM NdArray NdFacts Units DataArrayM SpecDa DaFacts
  Wildcard GetNp SpecArrays Restore SpecUnits ExampleRegistry Checks Tracers Components SpecComponents SpecCalls
  SpecColumns ColumnsFacts ColumnsMain Ex_Components Ex_Columns Composite Steppers MainLoop LeapLoop SpecRegion RegionFacts RegionMain RegionCalls RegionSym Ex_Region.
Import ListNotations.
Open Scope string_scope.
Open Scope nat_scope.
Open Scope list_scope.

#[local] Existing Instance ex_registry | 5.

(** The reflection of a grid with three points along y. *)
Definition g_m : cut := mkcut (fun d i => if String.eqb d "y" then 2 - i else i) (fun _ => None) True (fun d => d = "z") (fun name _ => name = "T").
(** Every point of a level to the first. *)
Definition g_u : cut := to_first (fun d => String.eqb d "z") (fun name _ => name = "T").

Definition T_of (f : nat -> nat -> nat -> Qc) : da Qc := mkda ["x"; "z"; "y"] (build [2; 4; 3] (fun i => f (ix i 0) (ix i 2) (ix i 1))) [("units", "K")].
Definition wind_of (f : nat -> nat -> Qc) : da Qc := mkda ["y"; "x"] (build [3; 2] (fun i => f (ix i 1) (ix i 0))) [("units", "km s^-1")].
Definition st_m : state Qc := [("time", VTime 0%Z); ("T", VDA (T_of (fun x y z => temp_at x (y * (2 - y)) z))); ("wind", VDA (wind_of (fun x y => wind_at x (y * (2 - y)))))].
Definition st_u : state Qc := [("time", VTime 0%Z); ("T", VDA (T_of (fun x y z => temp_at 0 0 z))); ("wind", VDA (wind_of (fun x y => wind_at 0 0)))].

Lemma at_T_of : forall f p, in_grid (T_of f) p -> da_at (T_of f) p = f (p "x") (p "y") (p "z").
Proof.
  intros f p H. unfold da_at. cbn [T_of dims arr]. rewrite at_build; [reflexivity|]. apply (grid_range (T_of f)); [reflexivity|apply nodupb_ok; reflexivity|exact H].
Qed.
Lemma at_wind_of : forall f p, in_grid (wind_of f) p -> da_at (wind_of f) p = f (p "x") (p "y").
Proof.
  intros f p H. unfold da_at. cbn [wind_of dims arr]. rewrite at_build; [reflexivity|]. apply (grid_range (wind_of f)); [reflexivity|apply nodupb_ok; reflexivity|exact H].
Qed.

Lemma T_len : forall f d n, dim_len (T_of f) d = Some n -> (d = "x" /\ n = 2) \/ (d = "z" /\ n = 4) \/ (d = "y" /\ n = 3).
Proof.
  intros f d n H. unfold dim_len in H. cbn [T_of dims arr build shape combine dget] in H.
  destruct (String.eqb d "x") eqn:E1; [apply String.eqb_eq in E1; injection H as <-; auto|]. destruct (String.eqb d "z") eqn:E2; [apply String.eqb_eq in E2; injection H as <-; auto|].
  destruct (String.eqb d "y") eqn:E3; [apply String.eqb_eq in E3; injection H as <-; auto|discriminate H].
Qed.
Lemma wind_len : forall f d n, dim_len (wind_of f) d = Some n -> (d = "y" /\ n = 3) \/ (d = "x" /\ n = 2).
Proof.
  intros f d n H. unfold dim_len in H. cbn [wind_of dims arr build shape combine dget] in H.
  destruct (String.eqb d "y") eqn:E1; [apply String.eqb_eq in E1; injection H as <-; auto|]. destruct (String.eqb d "x") eqn:E2; [apply String.eqb_eq in E2; injection H as <-; auto|discriminate H].
Qed.

Lemma of_proper : forall g f h, whole g = (fun d => d = "z") \/ whole g = (fun d => String.eqb d "z" = true) -> may g = (fun name _ => name = "T") ->
  proper_state g [("time", VTime 0%Z); ("T", VDA (T_of f)); ("wind", VDA (wind_of h))].
Proof.
  intros g f h Hw Hm name v [E|[E|[E|[]]]]; injection E as <- <-; [exact I| |].
  - split; [discriminate|]. split; [apply wf_dab_ok; reflexivity|]. split; [apply mem_false; reflexivity|]. rewrite Hm. auto.
  - split; [discriminate|]. split; [apply wf_dab_ok; reflexivity|]. split; [apply mem_false; reflexivity|].
    intros d [<-|[<-|[]]] X; destruct Hw as [Hw|Hw]; rewrite Hw in X; discriminate X.
Qed.

Lemma m_range : forall (i : nat), i < 3 -> 2 - i < 3 /\ (2 - i) * (2 - (2 - i)) = i * (2 - i).
Proof. intros i H. destruct i as [|[|[|i]]]; [split; [lia|reflexivity]..|lia]. Qed.

Lemma m_unmoved : unmoved g_m st_m.
Proof.
  intros name a [E|[E|[E|[]]]]; [discriminate E| |]; injection E as _ <-.
  - assert (R : forall d n i, dim_len (T_of (fun x y z => temp_at x (y * (2 - y)) z)) d = Some n -> i < n -> pick g_m d i < n).
    { intros d n i H Hi. apply T_len in H as [(-> & ->)|[(-> & ->)|(-> & ->)]]; cbn -[Nat.sub]; lia. }
    split; [exact R|]. intros p Hp. rewrite !at_T_of; [|exact Hp|intros d n E; apply (R d n _ E), Hp, E].
    assert (Y : p "y" < 3) by (apply Hp; reflexivity). destruct (m_range _ Y) as (_ & Z). change (temp_at (p "x") ((2 - p "y") * (2 - (2 - p "y"))) (p "z") = temp_at (p "x") (p "y" * (2 - p "y")) (p "z")). rewrite Z. reflexivity.
  - assert (R : forall d n i, dim_len (wind_of (fun x y => wind_at x (y * (2 - y)))) d = Some n -> i < n -> pick g_m d i < n).
    { intros d n i H Hi. apply wind_len in H as [(-> & ->)|(-> & ->)]; cbn -[Nat.sub]; lia. }
    split; [exact R|]. intros p Hp. rewrite !at_wind_of; [|exact Hp|intros d n E; apply (R d n _ E), Hp, E].
    assert (Y : p "y" < 3) by (apply Hp; reflexivity). destruct (m_range _ Y) as (_ & Z). change (wind_at (p "x") ((2 - p "y") * (2 - (2 - p "y"))) = wind_at (p "x") (p "y" * (2 - p "y"))). rewrite Z. reflexivity.
Qed.

Lemma u_level : level (fun d => String.eqb d "z" = true) st_u.
Proof.
  intros name a [E|[E|[E|[]]]] p p' Hp Hp' Hz; [discriminate E| |]; injection E as _ <-.
  - rewrite !at_T_of by assumption. rewrite (Hz "z" eq_refl). reflexivity.
  - rewrite !at_wind_of by assumption. reflexivity.
Qed.

Lemma sym_local : forall g, whole g = (fun d => d = "z") -> may g = (fun name _ => name = "T") -> fixed g "z" = None -> (forall i, pick g "z" i = i) -> local g eq prog2_r prog2_r.
Proof.
  intros g Hw Hm Hf Hp. destruct (heat_setting g Hw Hm Hf Hp) as (H0 & H1 & H2 & H3 & H4 & H5 & H6 & H7 & H8 & H9 & H10 & H11 & H12 & H13 & H14).
  assert (K := region_component g H0 empty_treg c_r ac_r H1 H2 H3 H4 H5 H6 H7 H8 H9 H10 H11 H12 H13 H14). fold prog_r in K.
  refine (region_composite g eq both_r both_r _). constructor; [exact K|]. constructor; [|constructor].
  intros u v st st' dt u' v' t d t' d' X1 X2 X3 X4. exact (K u v st st' 0%Z u' v' t d t' d' X1 X2 X3 X4).
Qed.

(** The reflected grid: the conditions, and three steps with each kind of stepper. *)
Lemma m_setting : (forall d, fixed g_m d = None) /\ local g_m eq prog2_r prog2_r /\ proper_state g_m st_m /\ unmoved g_m st_m.
Proof.
  split; [reflexivity|]. split; [apply sym_local; reflexivity|]. split; [apply of_proper; [left; reflexivity|reflexivity]|exact m_unmoved].
Qed.

Lemma m_ab_case : exists w log e, length log = 3 /\
  main_loop 4 [beside (adams_bashforth cfg_r prog2_r)] (fun w st => let (m1, r) := mon_r (fst w) st in ((m1, snd w), r)) (3 * sec_r) sec_r (0, (mkab 3 None [], 0)) st_m = ((w, log), Some (Ok e)).
Proof.
  destruct (done_ok (main_loop 4 [beside (adams_bashforth cfg_r prog2_r)] (fun w st => let (m1, r) := mon_r (fst w) st in ((m1, snd w), r)) (3 * sec_r) sec_r (0, (mkab 3 None [], 0)) st_m)) as (w & log & e & E & L); [vm_compute; reflexivity|].
  exists w, log, e. auto.
Qed.
Lemma m_rk_case : exists w log e, length log = 3 /\
  main_loop 4 [beside (ssp_rk cfg_r prog2_r)] (fun w st => let (m1, r) := mon_r (fst w) st in ((m1, snd w), r)) (3 * sec_r) sec_r (0, (mkrk 3 (mkab 1 None []), 0)) st_m = ((w, log), Some (Ok e)).
Proof.
  destruct (done_ok (main_loop 4 [beside (ssp_rk cfg_r prog2_r)] (fun w st => let (m1, r) := mon_r (fst w) st in ((m1, snd w), r)) (3 * sec_r) sec_r (0, (mkrk 3 (mkab 1 None []), 0)) st_m)) as (w & log & e & E & L); [vm_compute; reflexivity|].
  exists w, log, e. auto.
Qed.
Lemma m_leap_case : exists s1 w1 log e, length log = 3 /\
  leap_main_loop 4 cfg_r prog2_r [] mon_r (3 * sec_r) sec_r (new_leap (Q2Qc (1 # 20)) (Q2Qc (1 # 2)), 0) 0 st_m = ((s1, w1, log), Some (Ok e)).
Proof.
  destruct (done_ok (leap_main_loop 4 cfg_r prog2_r [] mon_r (3 * sec_r) sec_r (new_leap (Q2Qc (1 # 20)) (Q2Qc (1 # 2)), 0) 0 st_m)) as ([s w] & log & e & E & L); [vm_compute; reflexivity|].
  exists s, w, log, e. auto.
Qed.

(** A run from a state that is level, compared by the theorems: every stored state is level. *)
Lemma u_run : exists w log e, length log = 3 /\
  main_loop 4 [beside (adams_bashforth cfg_r prog2_r)] (fun w st => let (m1, r) := mon_r (fst w) st in ((m1, snd w), r)) (3 * sec_r) sec_r (0, (mkab 3 None [], 0)) st_u = ((w, log), Some (Ok e)) /\
  forall S, In S (log ++ [e]) -> level (fun d => String.eqb d "z" = true) S.
Proof.
  destruct (done_ok (main_loop 4 [beside (adams_bashforth cfg_r prog2_r)] (fun w st => let (m1, r) := mon_r (fst w) st in ((m1, snd w), r)) (3 * sec_r) sec_r (0, (mkab 3 None [], 0)) st_u)) as (w & log & e & E & L); [vm_compute; reflexivity|].
  exists w, log, e. split; [exact L|]. split; [exact E|]. intros S HS. apply (level_unmoved (fun d => String.eqb d "z") (fun name _ => name = "T")).
  assert (K : local g_u eq prog2_r prog2_r).
  { destruct (heat_setting (mkcut (pick g_u) (fun _ => None) True (fun d => d = "z") (may g_u)) eq_refl eq_refl eq_refl (fun _ => eq_refl)) as (H0 & H1 & H2 & H3 & H4 & H5 & H6 & H7 & H8 & H9 & H10 & H11 & H12 & H13 & H14).
    assert (Z : forall d, whole g_u d <-> d = "z") by (intro d; apply String.eqb_eq).
    assert (H0' : whole_kept g_u) by (intros d X; exact (H0 d (proj1 (Z d) X))).
    assert (H7' : column_physics g_u (t_inp c_r) (t_tend c_r)).
    { destruct H7 as (X & Y & V). split; [intros d D N; apply Z; exact (X d D N)|]. split; [intros name p ds d I1 D1 W1 M1; exact (Y name p ds d I1 D1 (proj1 (Z d) W1) M1)|exact V]. }
    assert (H10' : column_physics g_u (t_inp c_r) (t_diag c_r)).
    { destruct H10 as (X & Y & V). split; [intros d D N; apply Z; exact (X d D N)|]. split; [intros name p ds d I1 D1 W1 M1; exact (Y name p ds d I1 D1 (proj1 (Z d) W1) M1)|exact V]. }
    assert (K := region_component g_u H0' empty_treg c_r ac_r H1 H2 H3 H4 H5 H6 H7' H8 H9 H10' H11 H12 H13 H14). fold prog_r in K.
    refine (region_composite g_u eq both_r both_r _). constructor; [exact K|]. constructor; [|constructor].
    intros u v st st' dt u' v' t d t' d' X1 X2 X3 X4. exact (K u v st st' 0%Z u' v' t d t' d' X1 X2 X3 X4). }
  refine (sym_ab_loop g_u (fun _ => eq_refl) prog2_r K mon_r cfg_r (OInt 3) _ 0 eq_refl 4 _ _ 0 st_u w log e _ _ E S HS).
  - apply of_proper; [right; reflexivity|reflexivity].
  - apply level_unmoved. exact u_level.
Qed.
