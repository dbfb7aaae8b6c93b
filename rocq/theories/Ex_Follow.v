(** Concrete cases for runs on part of the grid that return (C98). *)
From Coq Require Import String List Bool Arith ZArith QArith Qcanon.
From Verif Require Import Prelude PreludeFacts ArithM NdArray Units DataArrayM ExampleRegistry Tracers Components Composite Steppers MainLoop LeapLoop SpecRegion RegionFacts RegionMain Ex_Region SpecFollow FollowFacts FollowMain FollowEnds.
Import ListNotations.
Open Scope string_scope.
Open Scope nat_scope.
Open Scope list_scope.

#[local] Existing Instance ex_registry | 5.

(** A component that cools, and counts its calls. *)
Definition cool : icaller (T:=Qc) nat := fun u st _ =>
  (S u, let* x := state_da "T" st in Ok ([("T", da_map (fun v => - v * Q2Qc (1 # 10))%Qc [("units", "K s^-1")] x)], [("seen", x)])).

(** The sizes of the grid of the state, and those of one column of it. *)
Definition big_r (d : string) : nat := if String.eqb d "x" then 2 else if String.eqb d "y" then 3 else 4.
Definition small_1 (d : string) : nat := 4.

Lemma cool_local : local g_1 eq cool cool.
Proof.
  intros u v st st' dt u' v' t d t' d' <- H E E'; unfold cool in E, E'.
  injection E as <- E. injection E' as <- E'. split; [reflexivity | ].
  pose proof (par_state_da (part_named g_1) st st' "T" H) as K.
  destruct (state_da "T" st) as [a | ]; [ | discriminate E]. destruct (state_da "T" st') as [b | ]; [ | discriminate E'].
  cbn [bind] in E, E'. injection E as <- <-. injection E' as <- <-. specialize (K a b eq_refl eq_refl).
  split; (constructor; [split; [reflexivity | ] | constructor]); cbn [fst snd]; [apply part_map; exact K | apply K].
Qed.

Lemma cool_follows : follows g_1 big_r small_1 eq cool cool.
Proof.
  intros u v st st' dt <- H; unfold cool; intros u1 x E; injection E as <- E.
  pose proof (as_da g_1 big_r small_1 "T" st st' H) as K.
  destruct (state_da "T" st) as [a | ]; [ | discriminate E]. cbn [bind] in E; injection E as <-.
  destruct (K a eq_refl) as (b & -> & Hab); cbn [bind].
  eexists _, _; split; [reflexivity | split; [reflexivity | ]].
  split; (constructor; [split; [reflexivity | ] | constructor]); cbn [fst snd]; [apply al_map; exact Hab | exact Hab].
Qed.

Lemma column_sized : sized_state g_1 big_r small_1 st_r st_1.
Proof.
  constructor; [split; reflexivity | ].
  constructor; [ | constructor; [ | constructor]]; (split; [reflexivity | ]); cbn [fst snd]; (split; [reflexivity | ]);
    (split; [split; [reflexivity | ] | split; [split; [reflexivity | ] | ]]);
    try (intros d n; unfold dim_len, big_r, small_1; cbn;
         repeat match goal with |- context [String.eqb d ?s] => destruct (String.eqb_spec d s); [subst; cbn; intros E; injection E as <-; reflexivity | ] end; intros E; discriminate E).
  - intros d; cbn. split; [intros [<- | []]; split; [tauto | reflexivity] | intros [[<- | [<- | [<- | []]]] E]; try discriminate E; tauto].
  - intros d; cbn. split; [intros [] | intros [[<- | [<- | []]] E]; discriminate E].
Qed.

Lemma fo_setting : local g_1 eq cool cool /\ follows g_1 big_r small_1 eq cool cool /\ follows_store g_1 big_r small_1 (fun _ _ => True) mon_r mon_p /\
  part_state g_1 st_r st_1 /\ sized_state g_1 big_r small_1 st_r st_1.
Proof.
  split; [exact cool_local | split; [exact cool_follows | split; [ | split; [exact (proj1 column_part) | exact column_sized]]]].
  intros u v st st' _ _ u1 [] E. injection E as <-. exists v, tt; auto.
Qed.

(** The run on the column returns after three steps, because the other does. *)
Lemma fo_case : exists w' log' e', length log' = 3 /\
  main_loop 4 [beside (adams_bashforth cfg_r cool)] (fun w st => let (m1, r) := mon_p (fst w) st in ((m1, snd w), r)) (3 * sec_r) sec_r (tt, (mkab 3 None [], 0)) st_1 = ((w', log'), Some (Ok e')).
Proof.
  destruct fo_setting as (H1 & H2 & H3 & H4 & H5).
  assert (E : match main_loop 4 [beside (adams_bashforth cfg_r cool)] (fun w st => let (m1, r) := mon_r (fst w) st in ((m1, snd w), r)) (3 * sec_r) sec_r (0, (mkab 3 None [], 0)) st_r with
              | ((_, log), Some (Ok _)) => Nat.eqb (length log) 3 | _ => false end = true) by (vm_compute; reflexivity).
  destruct (main_loop 4 [beside (adams_bashforth cfg_r cool)] _ (3 * sec_r) sec_r (0, (mkab 3 None [], 0)) st_r) as [[w log] [[e | x] | ]] eqn:E1; try discriminate E.
  destruct (follow_ends_adams_bashforth g_1 big_r small_1 eq eq cool cool H1 H2 (fun _ _ => True) mon_r mon_p H3 cfg_r (OInt 3) (mkab 3 None []) 0 0 eq_refl eq_refl eq_refl
    4 (3 * sec_r)%Z sec_r 0 tt st_r st_1 w log e I H4 H5 E1) as (w' & log' & e' & E' & K & _).
  exists w', log', e'. split; [ | exact E']. apply Nat.eqb_eq in E. rewrite <- E. clear -K. induction K; cbn; congruence.
Qed.
