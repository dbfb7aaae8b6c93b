(** Concrete cases for the property theorems about turned states (C101). *)
From Coq Require Import String List Bool Arith ZArith QArith Qcanon Lia.
From Verif Require Import Prelude PreludeFacts ArithM NdArray NdFacts Units DataArrayM SpecDa DaFacts
  SpecArrays SpecUnits ExampleRegistry Checks Tracers Components SpecColumns ColumnsFacts ColumnsMain Ex_Components Ex_Columns Composite Steppers MainLoop LeapLoop RegionFacts Ex_Region SpecTurn TurnMain.
Import ListNotations.
Open Scope string_scope.
Open Scope nat_scope.
Open Scope list_scope.

#[local] Existing Instance ex_registry | 5.

(** The reflection of a grid with three points along y, which changes the sign of every quantity whose
    name begins with u; and the doubling of every quantity. *)
Definition sign_t (name : string) : Qc := if String.prefix "u" name then (-(1))%Qc else 1%Qc.
Definition g_t : turn := mkturn (fun d i => if String.eqb d "y" then 2 - i else i) sign_t.
Definition g_d : turn := mkturn (fun _ i => i) (fun _ => (1 + 1)%Qc).

Definition line (f : nat -> Qc) (u : string) : da Qc := mkda ["y"] (build [3] (fun i => f (ix i 0))) [("units", u)].
Definition odd_t (i : nat) : Qc := match i with 0 => 1%Qc | 1 => 0%Qc | _ => (-(1))%Qc end.
Definition even_t (i : nat) : Qc := match i with 1 => Q2Qc 5 | _ => Q2Qc 2 end.
Definition st_t : state Qc := [("time", VTime 0%Z); ("u", VDA (line odd_t "m s^-1")); ("q", VDA (line even_t "kg"))].
(** Not balanced, and the double of it. *)
Definition st_n : state Qc := [("time", VTime 0%Z); ("u", VDA (line even_t "m s^-1")); ("q", VDA (line odd_t "kg"))].
Definition st_2 : state Qc := [("time", VTime 0%Z); ("u", VDA (line (fun i => (1 + 1) * even_t i)%Qc "m s^-1")); ("q", VDA (line (fun i => (1 + 1) * odd_t i)%Qc "kg"))].

(** Drag that grows with the cube of the wind, and the moisture that its square brings. *)
Definition cube (x : Qc) : Qc := (Q2Qc (-1 # 10) * x * x * x)%Qc.
Definition square (x : Qc) : Qc := (x * x)%Qc.
Definition prog_t : icaller (T:=Qc) nat := fun w st _ =>
  (S w, let* a := state_da "u" st in Ok ([("u", da_map cube [("units", "km s^-1 s^-1")] a); ("q", da_map square [("units", "g s^-1")] a)], [("energy", da_map square [] a)])).
(** Linear drag. *)
Definition drag (x : Qc) : Qc := (Q2Qc (-1 # 10) * x)%Qc.
Definition prog_d : icaller (T:=Qc) nat := fun w st _ =>
  (S w, let* a := state_da "u" st in Ok ([("u", da_map drag [("units", "km s^-1 s^-1")] a)], [("drag", da_map drag [] a)])).

Definition out_t : pdict := [("u", qprops ["y"] "m s^-1"); ("q", qprops ["y"] "kg")].
Definition cfg_t : tstep := mktstep true "step" out_t [] out_t.

Lemma ex_no_offset : forall g k a, no_offset g k a.
Proof. intros g k a. right. intros own u1 s u2 _ _ H _. apply (ex_registry_plain s u2 H). Qed.

Lemma turning_t : turning g_t eq prog_t prog_t.
Proof.
  intros u v st st' dt u' v' t d t' d' <- Hs X Y. unfold prog_t in X, Y.
  assert (K := par_state_da (turned_named g_t) st st' "u" Hs). destruct (state_da "u" st) as [a|]; [|discriminate X]. destruct (state_da "u" st') as [b|]; [|discriminate Y].
  destruct (K a b eq_refl eq_refl) as (Hab & _). injection X as <- <- <-. injection Y as <- <- <-. split; [reflexivity|].
  assert (E : forall k f at', (forall x, f (sign_t "u" * x)%Qc = (sign_t k * f x)%Qc) -> turned_of g_t k (da_map f at' a) (da_map f at' b)).
  { intros k f at' Hf. exact (turn_points g_t "u" k f at' a b Hab Hf). }
  assert (S1 : sign_t "u" = (-(1))%Qc) by reflexivity. assert (S2 : sign_t "q" = 1%Qc) by reflexivity. assert (S3 : sign_t "energy" = 1%Qc) by reflexivity. rewrite S1 in E.
  split.
  - constructor; [split; [reflexivity|split; [|apply ex_no_offset]]; apply E; intro x; cbn [fst]; rewrite S1; unfold cube; ring|].
    constructor; [split; [reflexivity|split; [|apply ex_no_offset]]; apply E; intro x; cbn [fst]; rewrite S2; unfold square; ring|constructor].
  - constructor; [split; [reflexivity|]; apply E; intro x; cbn [fst]; rewrite S3; unfold square; ring|constructor].
Qed.

Lemma turning_d : turning g_d eq prog_d prog_d.
Proof.
  intros u v st st' dt u' v' t d t' d' <- Hs X Y. unfold prog_d in X, Y.
  assert (K := par_state_da (turned_named g_d) st st' "u" Hs). destruct (state_da "u" st) as [a|]; [|discriminate X]. destruct (state_da "u" st') as [b|]; [|discriminate Y].
  destruct (K a b eq_refl eq_refl) as (Hab & _). injection X as <- <- <-. injection Y as <- <- <-. split; [reflexivity|].
  assert (E : forall k f at', (forall x, f ((1 + 1) * x)%Qc = ((1 + 1) * f x)%Qc) -> turned_of g_d k (da_map f at' a) (da_map f at' b)).
  { intros k f at' Hf. exact (turn_points g_d "u" k f at' a b Hab Hf). }
  split; (constructor; [split; [reflexivity|]|constructor]); [split; [|apply ex_no_offset]|]; apply E; intro x; unfold drag; ring.
Qed.

Lemma fit_t : factors_fit g_t cfg_t /\ factors_fit g_d cfg_t.
Proof.
  split; intros _ name; [|reflexivity]. cbn [factor g_t]. unfold sign_t, tendency_name. destruct name as [|c name]; [reflexivity|].
  assert (Z : forall s, String.prefix "" s = true) by (destruct s; reflexivity). cbn [String.append String.prefix]. rewrite !Z. reflexivity.
Qed.

Lemma at_line : forall f u p, in_grid (line f u) p -> da_at (line f u) p = f (p "y").
Proof.
  intros f u p H. unfold da_at. cbn [line dims arr]. rewrite at_build; [reflexivity|]. apply (grid_range (line f u)); [reflexivity|apply nodupb_ok; reflexivity|exact H].
Qed.
Lemma line_len : forall f u d n, dim_len (line f u) d = Some n -> d = "y" /\ n = 3.
Proof.
  intros f u d n H. unfold dim_len in H. cbn [line dims arr build shape combine dget] in H.
  destruct (String.eqb d "y") eqn:E1; [apply String.eqb_eq in E1; injection H as <-; auto|discriminate H].
Qed.

Lemma fit_st : forall g, fit_state g st_t.
Proof. intros g name a H. split; [|apply ex_no_offset]. destruct H as [E|[E|[E|[]]]]; [discriminate E| |]; injection E as _ <-; apply wf_dab_ok; reflexivity. Qed.

Lemma balanced_t : balanced g_t st_t.
Proof.
  assert (R : forall f u d n i, dim_len (line f u) d = Some n -> i < n -> to g_t d i < n).
  { intros f u d n i H Hi. apply line_len in H as (-> & ->). cbn -[Nat.sub]. lia. }
  intros name a [E|[E|[E|[]]]]; [discriminate E| |]; injection E as <- <-; (split; [apply R|]); intros p Hp;
    (rewrite !at_line; [|intros d n E; apply (R _ _ d n _ E), Hp, E|exact Hp]); assert (Y : p "y" < 3) by (apply Hp; reflexivity); revert Y; cbn [to g_t]; change (String.eqb "y" "y") with true; cbv iota;
    destruct (p "y") as [|[|[|i]]]; intro Y; try (apply Qc_is_canon; reflexivity); lia.
Qed.

Lemma turned_2 : turned_state g_d st_n st_2.
Proof.
  assert (R : forall k f u, turned_named g_d k (line f u) (line (fun i => (1 + 1) * f i)%Qc u)).
  { intros k f u. split; [|apply ex_no_offset]. split; [apply wf_dab_ok; reflexivity|]. split; [apply wf_dab_ok; reflexivity|]. split; [reflexivity|]. split; [reflexivity|]. split.
    - intros d n m i H1 H2. apply line_len in H1 as (_ & ->). apply line_len in H2 as (_ & ->). exact (fun X => X).
    - intros p Hp. rewrite at_line by exact Hp. rewrite at_line; [reflexivity|]. intros d n E. apply line_len in E as (-> & ->). apply Hp. reflexivity. }
  constructor; [split; reflexivity|]. constructor; [split; [reflexivity|apply R]|]. constructor; [split; [reflexivity|apply R]|constructor].
Qed.

(** The conditions for the reflection, and three steps with each kind of stepper. *)
Lemma t_setting : turning g_t eq prog_t prog_t /\ factors_fit g_t cfg_t /\ fit_state g_t st_t /\ balanced g_t st_t.
Proof. split; [exact turning_t|]. split; [apply fit_t|]. split; [apply fit_st|exact balanced_t]. Qed.

Lemma t_ab_case : exists w log e, length log = 3 /\
  main_loop 4 [beside (adams_bashforth cfg_t prog_t)] (fun w st => let (m1, r) := mon_r (fst w) st in ((m1, snd w), r)) (3 * sec_r) sec_r (0, (mkab 3 None [], 0)) st_t = ((w, log), Some (Ok e)).
Proof.
  destruct (done_ok (main_loop 4 [beside (adams_bashforth cfg_t prog_t)] (fun w st => let (m1, r) := mon_r (fst w) st in ((m1, snd w), r)) (3 * sec_r) sec_r (0, (mkab 3 None [], 0)) st_t)) as (w & log & e & E & L); [vm_compute; reflexivity|].
  exists w, log, e. auto.
Qed.
Lemma t_rk_case : exists w log e, length log = 3 /\
  main_loop 4 [beside (ssp_rk cfg_t prog_t)] (fun w st => let (m1, r) := mon_r (fst w) st in ((m1, snd w), r)) (3 * sec_r) sec_r (0, (mkrk 2 (mkab 1 None []), 0)) st_t = ((w, log), Some (Ok e)).
Proof.
  destruct (done_ok (main_loop 4 [beside (ssp_rk cfg_t prog_t)] (fun w st => let (m1, r) := mon_r (fst w) st in ((m1, snd w), r)) (3 * sec_r) sec_r (0, (mkrk 2 (mkab 1 None []), 0)) st_t)) as (w & log & e & E & L); [vm_compute; reflexivity|].
  exists w, log, e. auto.
Qed.
Lemma t_leap_case : exists s1 w1 log e, length log = 3 /\
  leap_main_loop 4 cfg_t prog_t [] mon_r (3 * sec_r) sec_r (new_leap (Q2Qc (1 # 20)) (Q2Qc (1 # 2)), 0) 0 st_t = ((s1, w1, log), Some (Ok e)).
Proof.
  destruct (done_ok (leap_main_loop 4 cfg_t prog_t [] mon_r (3 * sec_r) sec_r (new_leap (Q2Qc (1 # 20)) (Q2Qc (1 # 2)), 0) 0 st_t)) as ([s w] & log & e & E & L); [vm_compute; reflexivity|].
  exists s, w, log, e. auto.
Qed.

(** Linear drag on the double of a state: both runs return, and the theorem compares them. *)
Lemma d_case : turning g_d eq prog_d prog_d /\ factors_fit g_d cfg_t /\ turned_state g_d st_n st_2 /\
  exists w w' log log' e e', length log = 3 /\
  main_loop 4 [beside (adams_bashforth cfg_t prog_d)] (fun w st => let (m1, r) := mon_r (fst w) st in ((m1, snd w), r)) (3 * sec_r) sec_r (0, (mkab 3 None [], 0)) st_n = ((w, log), Some (Ok e)) /\
  main_loop 4 [beside (adams_bashforth cfg_t prog_d)] (fun w st => let (m1, r) := mon_r (fst w) st in ((m1, snd w), r)) (3 * sec_r) sec_r (0, (mkab 3 None [], 0)) st_2 = ((w', log'), Some (Ok e')) /\
  Forall2 (turned_record g_d) log log' /\ turned_state g_d e e'.
Proof.
  split; [exact turning_d|]. split; [apply fit_t|]. split; [exact turned_2|].
  destruct (done_ok (main_loop 4 [beside (adams_bashforth cfg_t prog_d)] (fun w st => let (m1, r) := mon_r (fst w) st in ((m1, snd w), r)) (3 * sec_r) sec_r (0, (mkab 3 None [], 0)) st_n)) as (w & log & e & E & L); [vm_compute; reflexivity|].
  destruct (done_ok (main_loop 4 [beside (adams_bashforth cfg_t prog_d)] (fun w st => let (m1, r) := mon_r (fst w) st in ((m1, snd w), r)) (3 * sec_r) sec_r (0, (mkab 3 None [], 0)) st_2)) as (w' & log' & e' & E' & L'); [vm_compute; reflexivity|].
  exists w, w', log, log', e, e'. split; [exact L|]. split; [exact E|]. split; [exact E'|].
  exact (turn_ab_loop g_d eq prog_d prog_d turning_d mon_r mon_r cfg_t (OInt 3) (mkab 3 None []) 0 0 (proj2 fit_t) eq_refl eq_refl 4 _ _ 0 0 st_n st_2 w w' log log' e e' turned_2 E E').
Qed.
