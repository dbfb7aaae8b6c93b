(** Concrete cases for C93. *)
From Coq Require Import String List Bool Arith ZArith QArith Qcanon Lia.
From Verif Require Import Prelude PreludeFacts ArithM NdArray NdFacts Units DataArrayM GetNp SpecUnits UnitsFacts ExampleRegistry Checks
  SpecDa DaFacts Components Composite SpecComposite Steppers Basic SpecBasic SpecSteppers SteppersFacts RKFacts StepAlgebra StepRuns StepExact StepSteady
  Ex_Components Ex_Composite Ex_Steppers Ex_Order Wrapped SpecWrapped WrappedFacts WrappedMain.
Import ListNotations.
Open Scope string_scope.
Open Scope nat_scope.
Open Scope list_scope.

#[local] Existing Instance ex_registry | 5.

(** The forced oscillator of C90 behind a wrapper. *)
Definition osc_component (u : nat) (st : state Qc) (ts : option Z) : nat * res (tends Qc) := prog_osc u st 0%Z.

Definition osc_beside : list (icaller (T:=Qc) nat + caller (T:=Qc) nat) := [inl prog_osc; inr (fun u st => prog_osc u st 0%Z)].

Definition osc_calls : list (state Qc * Z) := [(st_osc 0, 1000000%Z); (st_osc 1000000, 1000000%Z); (st_osc 2500000, 1000000%Z)].

Lemma ex_spaced : spaced 1000000 osc_calls /\
  replies (adams_bashforth cfg_0 (plain_among osc_component true osc_beside osc_beside)) osc_calls (mkab 2 None [], 0) <> [] /\
  (forall r, In r (replies (adams_bashforth cfg_0 (plain_among osc_component true osc_beside osc_beside)) osc_calls (mkab 2 None [], 0)) -> exists x, r = Ok x) /\
  (forall u st dt, snd (osc_component u st (Some dt)) <> Err EType).
Proof.
  split.
  - split.
    + repeat constructor; eexists; reflexivity.
    + repeat constructor; intros t1 t2 E1 E2; injection E1 as <-; injection E2 as <-; lia.
  - assert (G : forallb (fun r => match r with Ok _ => true | Err _ => false end)
        (replies (adams_bashforth cfg_0 (plain_among osc_component true osc_beside osc_beside)) osc_calls (mkab 2 None [], 0)) = true) by (vm_compute; reflexivity).
    assert (L : length (replies (adams_bashforth cfg_0 (plain_among osc_component true osc_beside osc_beside)) osc_calls (mkab 2 None [], 0)) = 3) by (vm_compute; reflexivity).
    revert G L. generalize (replies (adams_bashforth cfg_0 (plain_among osc_component true osc_beside osc_beside)) osc_calls (mkab 2 None [], 0)).
    intros rs G L. split; [|split].
    + intros E. rewrite E in L. discriminate L.
    + intros r Hr. apply (proj1 (forallb_forall _ _) G) in Hr. destruct r; [eauto|discriminate Hr].
    + intros u st dt. unfold osc_component, prog_osc. cbn [snd].
      destruct (dget "time" st) as [[|now]|]; try discriminate. destruct (dget "a" st) as [[x|]|]; try discriminate.
      destruct (dget "b" st) as [[y|]|]; try discriminate. destruct (has_units x "kg" && has_units y "kg")%bool; discriminate.
Qed.

(** A state at whose time the kept output is in use, and one at whose time it is not. *)
Definition osc_prog := wrapped_among osc_component 1500000 false [] [].
Definition osc_recorded := wrapped_among (recording osc_component) 1500000 false (map unrecorded osc_beside) (map unrecorded osc_beside).

Definition okb {A} (r : res A) : bool := match r with Ok _ => true | Err _ => false end.

Lemma okb_ok : forall {A} (r : res A), okb r = true -> exists x, r = Ok x.
Proof. intros A [x|e] H; [eauto|discriminate H]. Qed.

Lemma ex_once : exists k w u l s1 r1 r2,
  ssp_rk cfg_0 osc_recorded (mkrk 3 (mkab 1 None []), (new_ufw, (0, []))) (st_osc 0) 1000000 = ((k, (w, (u, l))), Ok r1) /\
  length l = 1 /\ in_use 1500000 w 1000000 /\ ~ in_use 1500000 w 2000000 /\
  ssp_rk cfg_0 osc_recorded (k, (w, (u, l))) (st_osc 1000000) 1000000 = (s1, Ok r2) /\ length (snd (snd (snd s1))) = 1 /\
  length (snd (snd (snd (fst (ssp_rk cfg_0 osc_recorded s1 (st_osc 2000000) 1000000))))) = 2.
Proof.
  assert (G : let '(s, r) := ssp_rk cfg_0 osc_recorded (mkrk 3 (mkab 1 None []), (new_ufw, (0, []))) (st_osc 0) 1000000 in
    let '(s1, r1) := ssp_rk cfg_0 osc_recorded s (st_osc 1000000) 1000000 in
    (okb r && okb r1 && Nat.eqb (length (snd (snd (snd s)))) 1 && match uf_last (fst (snd s)) with Some t => Z.eqb t 0 | None => false end
     && Nat.eqb (length (snd (snd (snd s1)))) 1
     && Nat.eqb (length (snd (snd (snd (fst (ssp_rk cfg_0 osc_recorded s1 (st_osc 2000000) 1000000)))))) 2)%bool = true) by (vm_compute; reflexivity).
  destruct (ssp_rk cfg_0 osc_recorded (mkrk 3 (mkab 1 None []), (new_ufw, (0, []))) (st_osc 0) 1000000) as [[k [w [u l]]] r].
  destruct (ssp_rk cfg_0 osc_recorded (k, (w, (u, l))) (st_osc 1000000) 1000000) as [s1 r1] eqn:E1.
  apply andb_true_iff in G as (G & G6). apply andb_true_iff in G as (G & G5). apply andb_true_iff in G as (G & G4).
  apply andb_true_iff in G as (G & G3). apply andb_true_iff in G as (G1 & G2).
  apply Nat.eqb_eq in G3, G5, G6. cbn [fst snd] in G3, G4. apply okb_ok in G1 as (x1 & ->), G2 as (x2 & ->).
  destruct (uf_last w) as [t0|] eqn:El; [|discriminate G4]. apply Z.eqb_eq in G4. subst t0.
  exists k, w, u, l, s1, x1, x2. split; [reflexivity|]. split; [exact G3|]. split; [exists 0%Z; split; auto; lia|].
  split; [intros (t0 & E & Hl); rewrite El in E; injection E as <-; lia|]. auto.
Qed.

Lemma osc_component_proper : forall u st ts u' o, osc_component u st ts = (u', Ok o) -> proper (fst o).
Proof. intros u st ts u' [tend diag] H. exact (osc_proper u st 0%Z u' tend diag H). Qed.

Lemma ex_euler : exists k w u s1 d1 n1 s2 d2 n2,
  new_rk (T:=Qc) 3 = Ok (mkrk 3 (mkab 1 None [])) /\
  after (ssp_rk cfg_0 osc_prog) [(st_osc 0, 1000000%Z)] (mkrk 3 (mkab 1 None []), (new_ufw, 0)) = (k, (w, u)) /\
  in_use 1500000 w 1000000 /\ ~ in_use 1500000 w 2000000 /\
  proper_state (st_osc 1000000) /\ proper_state (st_osc 2000000) /\
  ssp_rk cfg_0 osc_prog (k, (w, u)) (st_osc 1000000) 1000000 = (s1, Ok (d1, n1)) /\
  ssp_rk cfg_0 osc_prog (k, (w, u)) (st_osc 2000000) 1000000 = (s2, Ok (d2, n2)).
Proof.
  assert (G : let '(k, (w, u)) := after (ssp_rk cfg_0 osc_prog) [(st_osc 0, 1000000%Z)] (mkrk 3 (mkab 1 None []), (new_ufw, 0)) in
    (match uf_last w with Some t => Z.eqb t 0 | None => false end
     && okb (snd (ssp_rk cfg_0 osc_prog (k, (w, u)) (st_osc 1000000) 1000000))
     && okb (snd (ssp_rk cfg_0 osc_prog (k, (w, u)) (st_osc 2000000) 1000000)))%bool = true) by (vm_compute; reflexivity).
  destruct (after (ssp_rk cfg_0 osc_prog) [(st_osc 0, 1000000%Z)] (mkrk 3 (mkab 1 None []), (new_ufw, 0))) as [k [w u]].
  destruct (ssp_rk cfg_0 osc_prog (k, (w, u)) (st_osc 1000000) 1000000) as [s1 r1] eqn:E1.
  destruct (ssp_rk cfg_0 osc_prog (k, (w, u)) (st_osc 2000000) 1000000) as [s2 r2] eqn:E2.
  apply andb_true_iff in G as (G & G3). apply andb_true_iff in G as (G1 & G2). cbn [snd] in G2, G3.
  apply okb_ok in G2 as ([d1 n1] & ->), G3 as ([d2 n2] & ->).
  destruct (uf_last w) as [t0|] eqn:El; [|discriminate G1]. apply Z.eqb_eq in G1. subst t0.
  exists k, w, u, s1, d1, n1, s2, d2, n2. split; [reflexivity|]. split; [reflexivity|]. split; [exists 0%Z; split; auto; lia|].
  split; [intros (t0 & E & Hl); rewrite El in E; injection E as <-; lia|].
  split; [apply osc_state|]. split; [apply osc_state|]. auto.
Qed.

(** A wrapper with an interval no longer than the timestep still changes what
    SSPRungeKutta computes. *)
Definition a_at (c : string -> nat) (r : res (stepped Qc)) : option Qc :=
  match r with Ok x => match dget "a" (snd x) with Some (VDA a) => Some (da_at a c) | _ => None end | Err _ => None end.

Lemma rk_differs : exists (component : nat -> state Qc -> option Z -> nat * res (tends Qc)) interval z k0 st dt u t,
  (0 < interval)%Z /\ (interval <= dt)%Z /\ new_rk z = Ok k0 /\ proper_state st /\ dget "time" st = Some (VTime t) /\
  (forall u st ts u' o, component u st ts = (u', Ok o) -> proper (fst o)) /\
  exists v1 v2, a_at (fun _ => 0) (snd (ssp_rk cfg_0 (wrapped_among component interval false [] []) (k0, (new_ufw, u)) st dt)) = Some v1 /\
                a_at (fun _ => 0) (snd (ssp_rk cfg_0 (plain_among component false [] []) (k0, u) st dt)) = Some v2 /\ v1 <> v2.
Proof.
  exists osc_component, 1%Z, 3%Z, (mkrk 3 (mkab 1 None [])), (st_osc 0), 1000000%Z, 0, 0%Z.
  split; [lia|]. split; [lia|]. split; [reflexivity|]. split; [apply osc_state|]. split; [reflexivity|]. split; [exact osc_component_proper|].
  assert (G : match a_at (fun _ => 0) (snd (ssp_rk cfg_0 (wrapped_among osc_component 1 false [] []) (mkrk 3 (mkab 1 None []), (new_ufw, 0)) (st_osc 0) 1000000)),
                    a_at (fun _ => 0) (snd (ssp_rk cfg_0 (plain_among osc_component false [] []) (mkrk 3 (mkab 1 None []), 0) (st_osc 0) 1000000)) with
              | Some v1, Some v2 => negb (Qc_eqb v1 v2) | _, _ => false end = true) by (vm_compute; reflexivity).
  destruct (a_at _ (snd (ssp_rk cfg_0 (wrapped_among _ _ _ _ _) _ _ _))) as [v1|]; [|discriminate G].
  destruct (a_at _ (snd (ssp_rk cfg_0 (plain_among _ _ _ _) _ _ _))) as [v2|]; [|discriminate G].
  exists v1, v2. split; auto. split; auto. intros E. apply Qc_eqb_eq in E. rewrite E in G. discriminate G.
Qed.
