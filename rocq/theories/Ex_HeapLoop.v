(** Concrete cases for C99. *)
From Coq Require Import String List Bool Arith ZArith QArith Qcanon Lia.
From Verif Require Import Prelude PreludeFacts ArithM NdArray Units DataArrayM ExampleRegistry Checks SpecUnits UnitsFacts StrFun NetCDF SpecNetCDF SpecArrays SpecDa GetNp Tracers
  Heap Components SpecComponents Composite SpecComposite Steppers SpecSteppers Basic MainLoop LeapLoop HeapNetCDF HeapCalls SpecHeap SpecHeapCalls SpecRunFile HeapLoop SpecHeapLoop
  HeapFacts HeapCallsMain HeapCallsSpare HeapComposite HeapSteppers HeapLeap HeapLoopMain HeapLeapLoop Ex_Components Ex_NetCDF Ex_Heap Ex_HeapCalls.
Import ListNotations.
Open Scope string_scope.
Open Scope nat_scope.
Open Scope list_scope.

#[local] Existing Instance ex_registry | 5.

(** ** AdamsBashforth, a Stepper and a NetCDF monitor *)

Definition c_w : Components.scomp := match snd (make_stepper empty_treg [("T", qprops xT "K")] [] [("T", qprops xT "K")] "mixer" true None 1000000%Z) with
  | Ok c => c
  | Err _ => mkscomp false [] [] [] "" false [] None 0%Z
  end.
Lemma c_w_made : make_stepper empty_treg [("T", qprops xT "K")] [] [("T", qprops xT "K")] "mixer" true None 1000000%Z = (empty_treg, Ok c_w).
Proof. vm_compute; reflexivity. Qed.

Definition cfg_w : tstep := mktstep true "stepper" [("T", qprops xT "K")] [] [("T", qprops xT "K")].

Lemma swap_behaves : forall P {UH UV} (I : invariant (T:=Qc) UH UV) hac ac, array_behaves_if P load_outs SpecHeapCalls.both I hac ac ->
  forall (hs : harray Qc UH outs) as_, (forall u h raw dt, hs u h raw dt = swap_outs hac u h raw dt) -> (forall v raw dt, as_ v raw dt = swap_v ac v raw dt) ->
  array_behaves_if P load_outs SpecHeapCalls.both I hs as_.
Proof.
  intros P UH UV I hac ac H hs as_ Eh Ea X h u v raw dt u' h' r HI HX Hr HP E. rewrite Eh in E. rewrite Ea. unfold swap_outs in E. unfold swap_v.
  destruct (hac u h raw dt) as [[u1 h1] r1] eqn:E1. injection E as <- <- <-.
  destruct (H X h u v raw dt u1 h1 r1 HI HX Hr HP E1) as (G & (v1 & V1 & J1) & O). split; auto. rewrite V1. split.
  - exists v1. split; auto. f_equal. destruct r1 as [[a b]|e]; reflexivity.
  - destruct r1 as [[a b]|e]; auto. intros d [<-|[<-|[]]]; apply O; cbn; auto.
Qed.

Definition w_ab : Type := (hab * nat) * nat.
Definition hps_w (cp : nd nat -> list nat -> bool) : list (hprocess Qc ((files Qc * cache_t nat) * w_ab)) :=
  [h_beside (h_first (h_adams_bashforth cfg_w (h_tendency_call cp empty_treg c_n (hac_new "T" "T"))));
   h_beside (h_beside (h_stepper_process cp empty_treg c_w (swap_outs (hac_new "T" "T"))))].
Definition ps_w : list (process (T:=Qc) ((files Qc * cache_t Qc) * ((ab Qc * nat) * nat))) :=
  [beside (first_of (adams_bashforth cfg_w (fun v st dt => tendency_call empty_treg c_n (fun v raw => ac_new "T" "T" v raw dt) v st)));
   beside (beside (stepper_process empty_treg c_w (swap_v (ac_new "T" "T"))))].
Definition inv_w : invariant (T:=Qc) ((files Qc * cache_t nat) * w_ab) ((files Qc * cache_t Qc) * ((ab Qc * nat) * nat)) :=
  both_inv file_inv (both_inv (ab_inv counts) counts).
Definition w0 : (files Qc * cache_t nat) * w_ab := (([], []), ((mkhab 2 None [], 0), 0)).
Definition vw0 : (files Qc * cache_t Qc) * ((ab Qc * nat) * nat) := (([], []), ((mkab 2 None [], 0), 0)).

Lemma hps_like : forall cp, Forall2 (process_like inv_w) (hps_w cp) ps_w.
Proof.
  intros cp. unfold hps_w, ps_w, inv_w. apply Forall2_cons; [|apply Forall2_cons; [|apply Forall2_nil]].
  - apply main_beside_like. exact file_stable. apply main_first_like. exact counts_stable. apply main_ab_like. exact counts_stable.
    apply main_tendency_component. exact counts_stable. apply new_behaves.
    destruct c_n_fields as (E1 & E2). apply main_returns_proper; [exact E1|rewrite E2; apply nodupb_ok; reflexivity|rewrite E2; apply plain_T|apply ac_new_real].
  - apply main_beside_like. exact file_stable. apply main_beside_like. { apply ab_stable. exact counts_stable. }
    apply main_stepper_like. exact counts_stable. apply (swap_behaves True counts _ _ (new_behaves True "T" "T")); reflexivity.
Qed.

(** Three passes.  The monitor keeps T of each pass; when it writes, the three records are what was
    stored, although the arrays were kept by reference. *)
Definition mon_w : monitor := mkmon "out.nc" "seconds" (Some ["T"]) false [] false.
Definition ran_w (cp : nd nat -> list nat -> bool) := h_main_loop 9 (hps_w cp) (h_to_file ident mon_w) (3 * 1000000) 1000000 w0 memc hst.

Definition numbers_of (fs : files Qc) (k : string) : list (option Qc) := match dget "out.nc" fs with Some f => first_numbers k f | None => [] end.

Lemma ex_run : (forall cp, Forall2 (process_like inv_w) (hps_w cp) ps_w) /\
  monitor_like inv_w (h_to_file ident mon_w) (to_file ident mon_w) /\
  inv_w cell9 memc w0 vw0 /\ (forall x, cell9 x -> x < length memc) /\ state_in memc hst /\ avoids (state_cells hst) cell9 /\
  (let '((((fs, c), _), h, log), r) := ran_w never in
   Nat.eqb (length log) 3 && Nat.eqb (length c) 3 && qcs_eqb (firstn 10 h) [10; 11; 12; 13; 14; 15; 1; 2; 3; 99]%Z &&
   match ref_write mon_w h fs c with (o, fs', _) => numbers_are (numbers_of fs' "T") [10; 22; 52]%Z end &&
   match r with Some (Ok st) => match state_values "T" (load_state h st) with x :: _ => Qc_eqb x (cz 121) | [] => false end | _ => false end) = true.
Proof.
  split. exact hps_like. split. { apply main_file_like. }
  split. { split; [split; [reflexivity|intros t s n a c []]|]. split; [|reflexivity]. split; [reflexivity|]. split; [reflexivity|]. intros d []. }
  split. { intros x ->. cbn. lia. } split. exact hst_in.
  split. { intros c (k & a & [E|[E|[E|[]]]] & Hc) K; try discriminate; injection E as <- <-; unfold cell9 in K; subst c; cbn in Hc; lia. }
  vm_compute. reflexivity.
Qed.

(** SSPRungeKutta is such an object as well. *)
Lemma ex_rk_like : forall cp, process_like (rk_inv counts) (h_ssp_rk cfg_w (h_tendency_call cp empty_treg c_n (hac_new "T" "T")))
  (ssp_rk cfg_w (fun v st dt => tendency_call empty_treg c_n (fun v raw => ac_new "T" "T" v raw dt) v st)).
Proof.
  intros cp. apply main_rk_like. exact counts_stable. apply main_tendency_component. exact counts_stable. apply new_behaves.
  destruct c_n_fields as (E1 & E2). apply main_returns_proper; [exact E1|rewrite E2; apply nodupb_ok; reflexivity|rewrite E2; apply plain_T|apply ac_new_real].
Qed.

(** ** A Stepper that computes the new T in the array it is given *)

Definition hac_inplace1 : harray Qc nat outs := fun u h raw _ =>
  match dget "T" raw with
  | Some (HRArr a) => ((S u, store h (data a) (map plus1 (map (cell h) (data a)))), Ok ([], [("T", a)]))
  | _ => ((S u, h), Err EKey)
  end.

Definition c_i : Components.scomp := match snd (make_stepper empty_treg [("T", qprops xT "K")] [] [("T", qprops xT "K")] "mixer" false None 1000000%Z) with
  | Ok c => c
  | Err _ => mkscomp false [] [] [] "" false [] None 0%Z
  end.
Lemma c_i_made : make_stepper empty_treg [("T", qprops xT "K")] [] [("T", qprops xT "K")] "mixer" false None 1000000%Z = (empty_treg, Ok c_i).
Proof. vm_compute; reflexivity. Qed.

Definition watch {W} : hmonitor Qc W := fun w h _ => ((w, h), Ok tt).
Definition watch_v {W} (v : W) (_ : state Qc) : W * res unit := (v, Ok tt).

Lemma watch_like : forall {WH WV} (J : invariant (T:=Qc) WH WV), monitor_like J watch watch_v.
Proof. intros WH WV J X h w v st w' h' r HJ _ _ _ H. injection H as <- <- <-. split. apply grown_refl. exists v. split; auto. Qed.

Definition values_in (k : string) (l : list (state Qc)) : list (list Qc) := map (state_values k) l.
Fixpoint same_lists (l1 l2 : list (list Qc)) : bool :=
  match l1, l2 with
  | [], [] => true
  | a :: r1, b :: r2 => same_values a b && same_lists r1 r2
  | _, _ => false
  end.
Lemma same_lists_refl : forall l, same_lists l l = true.
Proof. induction l as [|a l IH]; auto. cbn [same_lists]. rewrite same_values_refl. auto. Qed.

Lemma in_place_run :
  exists c (hac : harray Qc nat outs) ac h st n stop dt w' h' log last v' vlog vlast,
    make_stepper empty_treg [("T", qprops xT "K")] [] [("T", qprops xT "K")] "mixer" false None 1000000%Z = (empty_treg, Ok c) /\ state_in h st /\
    (forall cp, h_main_loop n [h_stepper_process cp empty_treg c hac] watch stop dt 0 h st = ((w', h', log), Some (Ok last))) /\
    main_loop n [stepper_process empty_treg c ac] watch_v stop dt 0 (load_state h st) = ((v', vlog), Some (Ok vlast)) /\
    state_values "T" (load_state h' last) = state_values "T" vlast /\
    length log = length vlog /\ values_in "T" (map (load_state h') log) <> values_in "T" vlog.
Proof.
  pose (hrun := h_main_loop 5 [h_stepper_process never empty_treg c_i hac_inplace1] watch 3000000 1000000 0 memc hst).
  pose (vrun := main_loop 5 [stepper_process empty_treg c_i (swap_v (ac_new "T" "T"))] watch_v 3000000 1000000 0 (load_state memc hst)).
  assert (Ecp : forall cp, h_main_loop 5 [h_stepper_process cp empty_treg c_i hac_inplace1] watch 3000000 1000000 0 memc hst = hrun).
  { intros cp. vm_compute. reflexivity. }
  assert (H : (match hrun, vrun with
               | ((w', h', log), Some (Ok last)), ((v', vlog), Some (Ok vlast)) =>
                   same_values (state_values "T" (load_state h' last)) (state_values "T" vlast) && Nat.eqb (length log) (length vlog) &&
                   negb (same_lists (values_in "T" (map (load_state h') log)) (values_in "T" vlog))
               | _, _ => false
               end) = true) by (vm_compute; reflexivity).
  exists c_i, hac_inplace1, (swap_v (ac_new "T" "T")), memc, hst, 5, 3000000%Z, 1000000%Z. fold vrun.
  destruct hrun as [[[w' h'] log] [[last|e]|]]; try discriminate H. destruct vrun as [[v' vlog] [[vlast|e]|]]; try discriminate H.
  exists w', h', log, last, v', vlog, vlast. rewrite !andb_true_iff in H. destruct H as ((H1 & H2) & H3).
  split. exact c_i_made. split. exact hst_in. split. exact Ecp. split. reflexivity. split. { apply same_values_eq; auto. } split. { apply Nat.eqb_eq; auto. }
  intros E. rewrite E, same_lists_refl in H3. discriminate H3.
Qed.

(** ** Leapfrog *)

Definition f_h : hicaller (T:=Qc) nat := h_fresh.
Definition f_v : icaller (T:=Qc) nat := v_fresh.

Lemma f_apart : stays_apart counts f_h f_v.
Proof. apply fresh_behaves. exact counts_stable. Qed.

Lemma f_names : tendencies_of ["x"] f_v.
Proof.
  intros v st dt v' t d _ H k. unfold f_v, v_fresh in H. destruct (dget "x" st) as [[a|tm]|]; try discriminate H. destruct (wf_dab a); [|discriminate H].
  injection H as _ <- _. reflexivity.
Qed.

Lemma ready1 : leap_ready counts mem0 leap0 0 0 st1.
Proof. destruct ex_leapfrog as (_ & _ & (_ & K) & _). split; [reflexivity|exact K]. Qed.

Lemma apart1 : old_apart leap0 st1 ["x"].
Proof.
  intros c (k & a & Ha & Hc) (k' & b & Hk & Hb & Hd). destruct Hk as [<-|[]].
  destruct Hb as [E|[E|[E|[]]]]; try discriminate E. injection E as <-.
  destruct Ha as [E|[E|[]]]; injection E as _ <-; cbn in Hc, Hd; lia.
Qed.

(** Three passes: the states stored are not changed by the filter of later passes. *)
Definition mon_l : monitor := mkmon "out.nc" "seconds" (Some ["x"]) false [] false.
Definition ran_l := h_leap_main_loop 9 cfg0 f_h [] (h_to_file ident mon_l) (3 * 1000000) 1000000 (leap0, 0) (([], []), 0) mem0 st1.
Definition vran_l := leap_main_loop 9 cfg0 f_v [] (to_file ident mon_l) (3 * 1000000) 1000000 (load_leap mem0 leap0, 0) (([], []), 0) (load_state mem0 st1).

Lemma ex_leap_run : stable counts /\ stays_apart counts f_h f_v /\ tendencies_of ["x"] f_v /\ leap_ready counts mem0 leap0 0 0 st1 /\ old_apart leap0 st1 ["x"] /\
  stable (both_inv file_inv counts) /\ monitor_like (both_inv file_inv counts) (h_to_file ident mon_l) (to_file ident mon_l) /\
  both_inv file_inv counts (named_cells st1 ["x"]) mem0 (([], []), 0) (([], []), 0) /\
  (let '((_, ((fs, c), _), h, log), r) := ran_l in
   let '((_, _, vlog), _) := vran_l in
   Nat.eqb (length log) 3 && Nat.eqb (length c) 3 && negb (qcs_eqb (firstn 3 h) [1; 2; 3]%Z) && qcs_eqb (firstn 7 (skipn 3 h)) [100; 200; 300; 5; 6; 7; 40]%Z &&
   match ref_write mon_l h fs c with (Ok _, fs', _) => Nat.eqb (length (numbers_of fs' "x")) 3 | _ => false end &&
   same_lists (values_in "x" (map (load_state h) log)) (values_in "x" vlog) &&
   match r with Some (Ok _) => true | _ => false end) = true.
Proof.
  split. exact counts_stable. split. exact f_apart. split. exact f_names. split. exact ready1. split. exact apart1.
  split. { apply both_stable; [exact file_stable|exact counts_stable]. } split. { apply main_file_like. }
  split. { split; [split; [reflexivity|intros t s n a c []]|reflexivity]. }
  vm_compute. reflexivity.
Qed.

(** ** Leapfrog with a component whose tendencies are not always of the same quantities *)

Definition late_attrs : dict string := [("units", "m s^-1")].

(** From the second call on it gives a tendency of y, too. *)
Definition h_late : hicaller (T:=Qc) nat := fun u h st _ =>
  match u, dget "y" st with
  | 0, _ => ((1, h), Ok ([], []))
  | S _, Some (HDA a) =>
      if wf_dab (load h a) then
        let (h', b) := alloc h (da_map (fun x => amul x (cz 2)) late_attrs (load h a)) in ((S u, h'), Ok ([("y", b)], []))
      else ((S u, h), Err EValue)
  | _, _ => ((S u, h), Err EKey)
  end.
Definition v_late : icaller (T:=Qc) nat := fun u st _ =>
  (S u, match u, dget "y" st with
        | 0, _ => Ok ([], [])
        | S _, Some (VDA a) => if wf_dab a then Ok ([("y", da_map (fun x => amul x (cz 2)) late_attrs a)], []) else Err EValue
        | _, _ => Err EKey
        end).

Lemma late_behaves : forall P, behaves_if P counts h_late v_late.
Proof.
  intros P X h u v st dt u' h' r -> HX Hi Hx H. unfold h_late in H. unfold v_late. destruct v as [|v].
  { injection H as <- <- <-. split. apply grown_refl. split. { eexists. split; reflexivity. }
    repeat match goal with |- _ /\ _ => split end; try (intros c (k & z & [] & _)); try constructor. constructor. intros k a []. }
  assert (Eg := dget_load_state h "y" st). destruct (dget "y" st) as [[a|t]|] eqn:E; cbn [option_map load_val] in Eg; rewrite Eg.
  2,3: injection H as <- <- <-; split; [apply grown_refl|split; [eexists; split; reflexivity|exact Logic.I]].
  destruct (wf_dab (load h a)) eqn:W.
  2: injection H as <- <- <-; split; [apply grown_refl|split; [eexists; split; reflexivity|exact Logic.I]].
  rewrite alloc_eq in H. set (w := da_map (fun x => amul x (cz 2)) late_attrs (load h a)) in *.
  pose proof (grown_alloc h w) as G. pose proof (load_alloc h w) as El. pose proof (alloc_cells h w) as Hc.
  set (h1 := fst (alloc h w)) in *. set (b := snd (alloc h w)) in *. clearbody h1 b. injection H as <- <- <-.
  apply wf_dab_ok in W. split; auto. split.
  - eexists. split. { cbn [load_out load_dict map fst snd]. rewrite El. reflexivity. } reflexivity.
  - repeat match goal with |- _ /\ _ => split end.
    + intros c (k & z & [E1|[]] & K). injection E1 as <- <-. apply Hc in K. lia.
    + intros c (k & z & [] & _).
    + split. apply nodupb_ok; reflexivity. intros k z [E1|[]]. injection E1 as <- <-. rewrite El. apply DaFacts.wf_da_map; auto.
    + apply nodupb_ok. reflexivity.
    + intros c (k & z & [E1|[]] & K) KX. injection E1 as <- <-. apply Hc in K. apply HX in KX. lia.
    + intros c (k & z & [] & _).
Qed.

Definition vary_h : hicaller (T:=Qc) nat := h_implicit_composite [inl f_h; inl h_late].
Definition vary_v : icaller (T:=Qc) nat := fun v st dt => implicit_composite_call [inl f_v; inl v_late] dt v st.

Lemma vary_apart : stays_apart counts vary_h vary_v.
Proof.
  apply (main_implicit_behaves False counts counts_stable). apply Forall2_cons; [|apply Forall2_cons; [|apply Forall2_nil]].
  - exact f_apart.
  - apply late_behaves.
Qed.

Lemma leap_log_changed :
  exists (prog : hicaller (T:=Qc) nat) vprog cfg h l st n stop dt s' h' log last vs' vlog vlast,
    stays_apart counts prog vprog /\ leap_ready counts h l 0 0 st /\
    h_leap_main_loop n cfg prog [] watch stop dt (l, 0) tt h st = ((s', tt, h', log), Some (Ok last)) /\
    leap_main_loop n cfg vprog [] watch_v stop dt (load_leap h l, 0) tt (load_state h st) = ((vs', tt, vlog), Some (Ok vlast)) /\
    length log = length vlog /\ values_in "y" (map (load_state h') log) <> values_in "y" vlog.
Proof.
  pose (l := mkhleap (Q2Qc (1 # 10)) (Q2Qc (1 # 2)) None None).
  pose (cfg := mktstep false "stepper" [("x", qprops ["a"] "K"); ("y", qprops ["b"] "m")] [] [("x", qprops ["a"] "K"); ("y", qprops ["b"] "m")]).
  pose (hrun := h_leap_main_loop 5 cfg vary_h [] watch 3000000 1000000 (l, 0) tt mem0 st1).
  pose (vrun := leap_main_loop 5 cfg vary_v [] watch_v 3000000 1000000 (load_leap mem0 l, 0) tt (load_state mem0 st1)).
  assert (H : (match hrun, vrun with
               | ((s', _, h', log), Some (Ok last)), ((vs', _, vlog), Some (Ok vlast)) =>
                   Nat.eqb (length log) (length vlog) && negb (same_lists (values_in "y" (map (load_state h') log)) (values_in "y" vlog))
               | _, _ => false
               end) = true) by (vm_compute; reflexivity).
  exists vary_h, vary_v, cfg, mem0, l, st1, 5, 3000000%Z, 1000000%Z. fold hrun vrun. clearbody hrun vrun.
  destruct hrun as [[[[s' []] h'] log] [[last|e]|]]; try discriminate H. destruct vrun as [[[vs' []] vlog] [[vlast|e]|]]; try discriminate H.
  exists s', h', log, last, vs', vlog, vlast. rewrite !andb_true_iff in H. destruct H as (H2 & H3).
  split. exact vary_apart. split. { destruct ready1 as (K1 & K2 & K3 & K4 & _). repeat (split; auto). }
  split. reflexivity. split. reflexivity. split. { apply Nat.eqb_eq; auto. }
  intros E. rewrite E, same_lists_refl in H3. discriminate H3.
Qed.
