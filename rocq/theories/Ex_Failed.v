(** Concrete cases for the property theorems about failed steps (C81). *)
From Coq Require Import String List Bool Arith ZArith QArith Qcanon Lia.
From Verif Require Import Prelude PreludeFacts ArithM NdArray Units DataArrayM UnitsFacts ExampleRegistry Checks Components Composite Steppers SpecSteppers
  SpecFailed FailedMain Ex_Components Ex_Steppers Ex_Resume.
Import ListNotations.
Open Scope string_scope.
Open Scope nat_scope.
Open Scope list_scope.

#[local] Existing Instance ex_registry | 5.

(** A quantity w that grows at the rate of its value, and a v that does not change; when
    it is called for the second time, the tendency of v has the wrong length. *)
Definition prog_w : icaller (T:=Qc) nat := fun u st dt =>
  (S u, match dget "w" st with
        | Some (VDA a) => if wf_dab a then Ok ([("w", mkda (dims a) (arr a) [("units", "m s^-1")]);
                                                ("v", mkda ["x"] (cramp [if Nat.eqb u 1 then 3 else 2]) [("units", "m s^-1")])], [])
                          else Err EValue
        | _ => Err EKey
        end).
Definition st_w : state Qc := [("time", VTime 0%Z); ("w", VDA (scalar 8 "m")); ("v", VDA (mkda ["x"] (cramp [2]) [("units", "m")]))].

Lemma prog_w_proper : proper_components prog_w.
Proof.
  intros u st dt u' tend d H. unfold prog_w in H. destruct (dget "w" st) as [[a|]|]; try discriminate. destruct (wf_dab a) eqn:W; [|discriminate]. injection H as _ <- _.
  apply wf_dab_ok in W. split; [cbn; repeat constructor; cbn; intuition discriminate|]. intros X t Ht. cbn in Ht.
  destruct (String.eqb X "w"); [injection Ht as <-; destruct W as (W1 & W2 & W3); split; auto|].
  destruct (String.eqb X "v"); [injection Ht as <-|discriminate]. apply wf_dab_ok. destruct (Nat.eqb u 1); reflexivity.
Qed.

(** The call fails and w has been filtered; the same call again gives another result than it
    would have given without the failed one. *)
Lemma ex_leap_retry : exists (prog : icaller (T:=Qc) nat) nu alpha dt st l1 st1 d1 new1 l2 u2 st2 e r3 r4, proper_components prog /\ proper_state st /\
  leapfrog cfg_0 prog (new_leap nu alpha, 0) st dt = ((l1, 1), st1, Ok (d1, new1)) /\
  leapfrog cfg_0 prog (l1, 1) new1 dt = ((l2, u2), st2, Err e) /\
  dget "w" st2 <> dget "w" new1 /\
  snd (leapfrog cfg_0 prog (l2, u2) st2 dt) = Ok r3 /\ snd (leapfrog cfg_0 prog (l1, u2) new1 dt) = Ok r4 /\
  dget "w" (snd r3) <> dget "w" (snd r4).
Proof.
  exists prog_w, nu_e, half, 1000000%Z, st_w.
  assert (K : match leapfrog cfg_0 prog_w (new_leap nu_e half, 0) st_w 1000000 with
              | ((l1, 1), st1, Ok (d1, new1)) =>
                  match leapfrog cfg_0 prog_w (l1, 1) new1 1000000 with
                  | ((l2, u2), st2, Err e) => w_differs st2 new1 &&
                      match snd (leapfrog cfg_0 prog_w (l2, u2) st2 1000000), snd (leapfrog cfg_0 prog_w (l1, u2) new1 1000000) with
                      | Ok r3, Ok r4 => w_differs (snd r3) (snd r4)
                      | _, _ => false
                      end
                  | _ => false
                  end
              | _ => false
              end = true) by (vm_compute; reflexivity).
  destruct (leapfrog cfg_0 prog_w (new_leap nu_e half, 0) st_w 1000000) as [[[l1 [|[|u1]]] st1] [[d1 new1]|e1]]; try discriminate.
  destruct (leapfrog cfg_0 prog_w (l1, 1) new1 1000000) as [[[l2 u2] st2] [[d2 new2]|e]] eqn:E; try discriminate.
  apply andb_true_iff in K as [K1 K2].
  destruct (snd (leapfrog cfg_0 prog_w (l2, u2) st2 1000000)) as [r3|] eqn:E3; [|discriminate]. destruct (snd (leapfrog cfg_0 prog_w (l1, u2) new1 1000000)) as [r4|] eqn:E4; [|discriminate].
  exists l1, st1, d1, new1, l2, u2, st2, e, r3, r4. split; [exact prog_w_proper|]. split; [apply proper_stateb_ok; vm_compute; reflexivity|]. split; auto. split; auto. split; [apply w_differs_ok; auto|].
  split; auto. split; auto. apply w_differs_ok; auto.
Qed.

(** A stepper that fails in its first step. *)
Lemma ex_leap_first : exists l' u' st' e, leapfrog cfg_0 prog_w (new_leap nu_e half, 1) st_w 1000000 = ((l', u'), st', Err e) /\ ts_tid cfg_0 = false /\
  proper_components prog_w /\ proper_state st_w /\ exists r, snd (leapfrog cfg_0 prog_w (l', 2) st_w 1000000) = Ok r.
Proof.
  assert (K : match leapfrog cfg_0 prog_w (new_leap nu_e half, 1) st_w 1000000 with
              | ((l', u'), st', Err e) => is_ok (snd (leapfrog cfg_0 prog_w (l', 2) st_w 1000000))
              | _ => false
              end = true) by (vm_compute; reflexivity).
  destruct (leapfrog cfg_0 prog_w (new_leap nu_e half, 1) st_w 1000000) as [[[l' u'] st'] [|e]]; [discriminate|].
  exists l', u', st', e. split; auto. split; [reflexivity|]. split; [exact prog_w_proper|]. split; [apply proper_stateb_ok; vm_compute; reflexivity|].
  destruct (snd (leapfrog cfg_0 prog_w (l', 2) st_w 1000000)) as [r|]; [eauto|discriminate].
Qed.

(** A call that fails, one that does not, one that fails, and one more. *)
Definition calls_w : list (state Qc * Z) := [(st_bad, 1000000%Z); (st_good, 1000000%Z); (st_bad, 1000000%Z)].
Lemma ex_rk_as_new : exists k k0, new_rk (T:=Qc) 3 = Ok k0 /\ (forall c, In c calls_w -> snd c = 1000000%Z) /\
  after (ssp_rk cfg_0 prog_fix) calls_w (k0, tt) = (k, tt) /\ 2 <= length (ab_hist (rk_euler k)) /\
  is_ok (snd (ssp_rk cfg_0 prog_fix (k0, tt) st_bad 1000000)) = false /\ exists r, snd (ssp_rk cfg_0 prog_fix (k, tt) st_good 1000000) = Ok r.
Proof.
  destruct (after (ssp_rk cfg_0 prog_fix) calls_w (mkrk 3 (mkab 1 None []), tt)) as [k []] eqn:E. exists k, (mkrk 3 (mkab 1 None [])).
  assert (K : let (k, _) := after (ssp_rk cfg_0 prog_fix) calls_w (mkrk 3 (mkab 1 None []), tt) in
              Nat.leb 2 (length (ab_hist (rk_euler k))) && is_ok (snd (ssp_rk cfg_0 prog_fix (k, tt) st_good 1000000)) = true) by (vm_compute; reflexivity).
  rewrite E in K. apply andb_true_iff in K as [K1 K2]. split; [reflexivity|]. split; [intros c [<-|[<-|[<-|[]]]]; reflexivity|]. split; auto.
  split; [apply Nat.leb_le; auto|]. split; [vm_compute; reflexivity|]. destruct (snd (ssp_rk cfg_0 prog_fix (k, tt) st_good 1000000)) as [r|]; [eauto|discriminate].
Qed.

(** After a failed call, an SSPRungeKutta object keeps the tendencies of every later call. *)
Lemma ex_rk_memory : exists (prog : icaller (T:=Qc) unit) k0 k1 bad good dt e, new_rk 2 = Ok k0 /\ ssp_rk cfg_0 prog (k0, tt) bad dt = ((k1, tt), Err e) /\
  (exists r, snd (ssp_rk cfg_0 prog (k0, tt) good dt) = Ok r) /\
  forall m, m <= length (ab_hist (rk_euler (fst (after (ssp_rk cfg_0 prog) (repeat (good, dt) m) (k1, tt))))).
Proof.
  exists prog_fix, (mkrk 2 (mkab 1 None [])).
  assert (K : match ssp_rk cfg_0 prog_fix (mkrk 2 (mkab 1 None []), tt) st_bad 1000000 with
              | ((k1, tt), Err e) => Nat.eqb (rk_stages k1) 2 && Nat.eqb (ab_order (rk_euler k1)) 1 && Nat.eqb (length (ab_hist (rk_euler k1))) 1 &&
                  match ab_dt (rk_euler k1) with Some z => Z.eqb z 1000000 | None => false end
              | _ => false
              end = true) by (vm_compute; reflexivity).
  assert (Hg : is_ok (snd (ssp_rk cfg_0 prog_fix (mkrk 2 (mkab 1 None []), tt) st_good 1000000)) = true) by (vm_compute; reflexivity).
  destruct (ssp_rk cfg_0 prog_fix (mkrk 2 (mkab 1 None []), tt) st_bad 1000000) as [[[n a] []] [|e]] eqn:E0; [discriminate|].
  exists (mkrk n a), st_bad, st_good, 1000000%Z, e. split; [reflexivity|]. split; [exact E0|].
  cbn [rk_stages rk_euler] in K. apply andb_true_iff in K as [K K4]. apply andb_true_iff in K as [K K3]. apply andb_true_iff in K as [K1 K2].
  apply Nat.eqb_eq in K1, K2, K3. destruct (ab_dt a) as [z|] eqn:Ed; [|discriminate]. apply Z.eqb_eq in K4. subst z n.
  destruct (snd (ssp_rk cfg_0 prog_fix (mkrk 2 (mkab 1 None []), tt) st_good 1000000)) as [r|] eqn:Er; [|discriminate]. split; [eauto|].
  assert (P0 : plain_euler 1000000 (mkab (T:=Qc) 1 None [])) by (split; cbn; auto).
  assert (G : forall m n0 b, n0 <= length (ab_hist b) -> 1 <= length (ab_hist b) -> plain_euler 1000000 b ->
            m + n0 <= length (ab_hist (rk_euler (fst (after (ssp_rk cfg_0 prog_fix) (repeat (st_good, 1000000%Z) m) (mkrk 2 b, tt)))))).
  { induction m as [|m IH]; intros n0 b H1 H2 H3; [exact H1|]. cbn [repeat]. unfold after. cbn [fold_left fst snd].
    destruct (ssp_rk cfg_0 prog_fix (mkrk 2 b, tt) st_good 1000000) as [[k []] r2] eqn:E.
    assert (E2 : r2 = Ok r). { destruct (rk_same cfg_0 prog_fix 1000000 2 b _ tt st_good H3 P0) as ((X & _) & _). rewrite E, Er in X. exact X. }
    subst r2. destruct (main_rk_grows cfg_0 prog_fix _ _ _ _ _ _ _ _ (or_introl eq_refl) H3 H2 E) as (M1 & M2 & M3). destruct k as [n1 a1]. cbn [rk_stages rk_euler fst] in *. subst n1.
    change (Datatypes.S m + n0 <= length (ab_hist (rk_euler (fst (after (ssp_rk cfg_0 prog_fix) (repeat (st_good, 1000000%Z) m) (mkrk 2 a1, tt)))))).
    specialize (IH (Datatypes.S n0) a1 ltac:(lia) ltac:(lia) M2). lia. }
  intros m. specialize (G m 0 a). rewrite Nat.add_0_r in G. apply G; [lia|lia|]. split; auto.
Qed.
