(** Concrete cases for C94. *)
From Coq Require Import String Ascii List Bool Arith ZArith QArith Qcanon Lia.
From Verif Require Import Prelude PreludeFacts ArithM NdArray Units DataArrayM SpecUnits UnitsFacts ExampleRegistry Checks
  SpecArrays SpecDa GetNp Tracers Components Composite SpecComposite Steppers SpecSteppers Heap SpecHeap HeapFacts HeapComposite HeapSteppers
  HeapLeap HeapScaling Ex_Components Ex_Composite Ex_Steppers Ex_Heap Basic Wrapped HeapWrapped SpecHeapWrapped WrappedFacts HeapWrappedMain.
Import ListNotations.
Open Scope string_scope.
Open Scope nat_scope.
Open Scope list_scope.

#[local] Existing Instance ex_registry | 5.

(** It returns one new array, d x/dt = 2 x, as tendency and as diagnostic. *)
Definition h_report {U} : hstepping Qc U := fun u h st _ =>
  match dget "x" st with
  | Some (HDA a) =>
      if wf_dab (load h a) then
        let (h', b) := alloc h (da_map (fun x => amul x (cz 2)) grow_attrs (load h a)) in ((u, h'), Ok ([("x", b)], [("heating", b)]))
      else ((u, h), Err EValue)
  | _ => ((u, h), Err EKey)
  end.

Definition v_report {U} (v : U) (st : state Qc) (ts : option Z) : U * res (tends Qc) :=
  (v, match dget "x" st with
      | Some (VDA a) => if wf_dab a then Ok ([("x", da_map (fun x => amul x (cz 2)) grow_attrs a)],
                                             [("heating", da_map (fun x => amul x (cz 2)) grow_attrs a)]) else Err EValue
      | _ => Err EKey
      end).

Lemma report_behaves : forall P {UH UV} (I : invariant (T:=Qc) UH UV), stable I -> behaves_stepping P I h_report v_report.
Proof.
  intros P UH UV I Hst ts X h u v st dt u' h' r HI HX Hi Hx H. unfold h_report in H. unfold v_report.
  assert (Eg := dget_load_state h "x" st). destruct (dget "x" st) as [[a|t]|] eqn:E; cbn [option_map load_val] in Eg; rewrite Eg.
  2,3: injection H as <- <- <-; split; [apply grown_refl|split; [eexists; split; [reflexivity|auto]|auto]].
  destruct (wf_dab (load h a)) eqn:W.
  2: injection H as <- <- <-; split; [apply grown_refl|split; [eexists; split; [reflexivity|auto]|auto]].
  rewrite alloc_eq in H. set (w := da_map (fun x => amul x (cz 2)) grow_attrs (load h a)) in *.
  pose proof (grown_alloc h w) as G. pose proof (load_alloc h w) as El. pose proof (alloc_cells h w) as Hc.
  set (h1 := fst (alloc h w)) in *. set (b := snd (alloc h w)) in *. clearbody h1 b. injection H as <- <- <-.
  apply wf_dab_ok in W. split; auto. split.
  - eexists. split. { cbn [load_out load_dict map fst snd]. rewrite El. reflexivity. }
    apply (Hst X X h h1 u v HI); auto. apply grown_changed; auto.
  - repeat match goal with |- _ /\ _ => split end.
    + intros c (k & z & [E1|[]] & K). injection E1 as <- <-. apply Hc in K. lia.
    + intros c (k & z & [E1|[]] & K). injection E1 as <- <-. apply Hc in K. lia.
    + split. apply nodupb_ok; reflexivity. intros k z [E1|[]]. injection E1 as <- <-. rewrite El. apply DaFacts.wf_da_map; auto.
    + apply nodupb_ok. reflexivity.
    + intros c (k & z & [E1|[]] & K) KX. injection E1 as <- <-. apply Hc in K. apply HX in KX. lia.
    + intros c (k & z & [E1|[]] & K) KX. injection E1 as <- <-. apply Hc in K. apply HX in KX. lia.
Qed.

(** It is wrapped with an interval of ten seconds and run beside a component that returns
    arrays of the state and one that returns those it keeps. *)
Definition h_reports : hicaller (T:=Qc) (hufw * (dict hda * dict hda)) :=
  h_wrapped_among h_report 10000000 true [inr hc_grow] [inl h_kept].
Definition v_reports : icaller (T:=Qc) (ufw (tends Qc) * (dict (da Qc) * dict (da Qc))) :=
  wrapped_among v_report 10000000 true [inr vc_grow] [inl v_kept].

Definition later (t : Z) (st : hstate) : hstate := dset "time" (HTime t) st.

Definition two_wrapped : bool :=
  let '((s1, u1, h1), r1) := h_adams_bashforth cfg0 h_reports (mkhab 1 None [], (new_hufw, u0)) mem0 st0 second in
  match r1 with
  | Err _ => false
  | Ok (d1, new1) =>
      let '((s2, u2, h2), r2) := h_adams_bashforth cfg0 h_reports (s1, u1) h1 (later second new1) second in
      match r2, dget "heating" d1 with
      | Ok (d2, new2), Some a => match dget "heating" d2 with Some b => nats_eqb (h_cells a) (h_cells b) | None => false end
      | _, _ => false
      end
  end.

Lemma ex_wrapped_memory : stable kept_inv /\ behaves_stepping True kept_inv h_report v_report /\
  Forall2 (behaves_either True kept_inv) [inr hc_grow] [inr vc_grow] /\ Forall2 (behaves_either True kept_inv) [inl h_kept] [inl v_kept] /\
  ab_inv (wrapper_inv kept_inv) outside mem0 (mkhab 1 None [], (new_hufw, u0)) (mkab 1 None [], (new_ufw, v0)) /\
  (forall c, outside c -> c < length mem0) /\ state_in mem0 st0 /\ avoids (state_cells st0) outside /\ two_wrapped = true.
Proof.
  split; [exact kept_stable|]. split; [apply report_behaves, kept_stable|].
  split. { constructor; [|constructor]. apply lift_behaves, grow_behaves. }
  split. { constructor; [|constructor]. apply kept_behaves. }
  split. { split; [reflexivity|]. split; [|intros d []]. apply main_wrapper_new, u0_kept. unfold outside. intros; lia. }
  split. { unfold outside. change (length mem0) with 10. intros; lia. }
  split. { intros c K. apply st0_cells in K. change (length mem0) with 10. lia. }
  split. { intros c K. apply st0_cells in K. unfold outside. lia. }
  vm_compute. reflexivity.
Qed.

(** The caller scales the diagnostic of the first step in place. *)
Definition h_alone : hicaller (T:=Qc) (hufw * unit) := h_wrapped_among h_report 10000000 false [] [].
Definition v_alone : icaller (T:=Qc) (ufw (tends Qc) * unit) := wrapped_among v_report 10000000 false [] [].
Definition unit_inv : invariant (T:=Qc) unit unit := fun _ _ _ _ => True.
Definition cfg1 : tstep := mktstep false "stepper" [("x", qprops ["a"] "K")] [] [("x", qprops ["a"] "K")].

Definition x_of (st : state Qc) : option (da Qc) := match dget "x" st with Some (VDA a) => Some a | _ => None end.

Definition tripled (h : heap Qc) (a : hda) : heap Qc := write h a (da_map (fun v => amul v (cz 3)) (h_attrs a) (load h a)).

Lemma load_later : forall {T} {A : Arith T} (h : heap T) t st, load_state h (later t st) = dset "time" (VTime t) (load_state h st).
Proof. intros T A h t st. unfold later. rewrite load_state_dset. reflexivity. Qed.

Definition apartb (a : hda) (st : hstate) : bool :=
  forallb (fun kv => match snd kv with HDA b => forallb (fun c => negb (existsb (Nat.eqb c) (h_cells a))) (h_cells b) | HTime _ => true end) st.

Lemma apartb_ok : forall a st, apartb a st = true -> avoids (state_cells st) (fun c => In c (h_cells a)).
Proof.
  intros a st H c (k & b & Hb & Hc) Ha. pose proof (proj1 (forallb_forall _ _) H _ Hb) as K. cbn [snd] in K.
  pose proof (proj1 (forallb_forall _ _) K _ Hc) as K2. apply negb_true_iff in K2.
  assert (E : existsb (Nat.eqb c) (h_cells a) = true) by (apply existsb_exists; exists c; split; auto; apply Nat.eqb_refl). congruence.
Qed.

Lemma wrapped_spoilt : exists s1 u1 h1 d1 new1 a s2 h2 d2 new2 w1 vd1 vnew1 w2 vd2 vnew2 x1 x2,
  stable unit_inv /\ behaves_stepping False unit_inv h_report v_report /\
  h_adams_bashforth cfg1 h_alone (mkhab 1 None [], (new_hufw, tt)) mem0 st0 second = ((s1, u1, h1), Ok (d1, new1)) /\
  adams_bashforth cfg1 v_alone (mkab 1 None [], (new_ufw, tt)) (load_state mem0 st0) second = (w1, Ok (vd1, vnew1)) /\
  load_state h1 new1 = vnew1 /\ dget "heating" d1 = Some a /\
  load_state (tripled h1 a) (later second new1) = dset "time" (VTime second) vnew1 /\
  h_adams_bashforth cfg1 h_alone (s1, u1) (tripled h1 a) (later second new1) second = ((s2, h2), Ok (d2, new2)) /\
  adams_bashforth cfg1 v_alone w1 (dset "time" (VTime second) vnew1) second = (w2, Ok (vd2, vnew2)) /\
  x_of (load_state h2 new2) = Some x1 /\ x_of vnew2 = Some x2 /\ da_at x1 (fun _ => 1) <> da_at x2 (fun _ => 1).
Proof.
  assert (Hs : stable unit_inv) by (intros X X' h h' u v _ _ _; exact Logic.I).
  assert (G : (let '((s1, u1, h1), r1) := h_adams_bashforth cfg1 h_alone (mkhab 1 None [], (new_hufw, tt)) mem0 st0 second in
    let '(w1, v1) := adams_bashforth cfg1 v_alone (mkab 1 None [], (new_ufw, tt)) (load_state mem0 st0) second in
    match r1, v1 with
    | Ok (d1, new1), Ok (vd1, vnew1) =>
        match dget "heating" d1 with
        | Some a =>
            let '((s2, h2), r2) := h_adams_bashforth cfg1 h_alone (s1, u1) (tripled h1 a) (later second new1) second in
            let '(w2, v2) := adams_bashforth cfg1 v_alone w1 (dset "time" (VTime second) vnew1) second in
            match r2, v2 with
            | Ok (d2, new2), Ok (vd2, vnew2) =>
                match x_of (load_state h2 new2), x_of vnew2 with
                | Some x1, Some x2 => apartb a new1 && negb (Qc_eqb (da_at x1 (fun _ => 1)) (da_at x2 (fun _ => 1)))
                | _, _ => false
                end
            | _, _ => false
            end
        | None => false
        end
    | _, _ => false
    end)%bool = true) by (vm_compute; reflexivity).
  destruct (h_adams_bashforth cfg1 h_alone (mkhab 1 None [], (new_hufw, tt)) mem0 st0 second) as [[[s1 u1] h1] r1] eqn:E1.
  destruct (adams_bashforth cfg1 v_alone (mkab 1 None [], (new_ufw, tt)) (load_state mem0 st0) second) as [w1 v1] eqn:F1.
  destruct r1 as [[d1 new1]|]; [|discriminate G]. destruct v1 as [[vd1 vnew1]|]; [|discriminate G].
  destruct (dget "heating" d1) as [a|] eqn:Ea; [|discriminate G].
  destruct (h_adams_bashforth cfg1 h_alone (s1, u1) (tripled h1 a) (later second new1) second) as [[s2 h2] r2] eqn:E2.
  destruct (adams_bashforth cfg1 v_alone w1 (dset "time" (VTime second) vnew1) second) as [w2 v2] eqn:F2.
  destruct r2 as [[d2 new2]|]; [|discriminate G]. destruct v2 as [[vd2 vnew2]|]; [|discriminate G].
  destruct (x_of (load_state h2 new2)) as [x1|] eqn:X1; [|discriminate G]. destruct (x_of vnew2) as [x2|] eqn:X2; [|discriminate G].
  apply andb_true_iff in G as (G1 & G2).
  assert (M : load_state h1 new1 = vnew1 /\ state_in h1 new1).
  { apply (main_wrapped_ab unit_inv Hs h_report v_report 10000000 false [] [] [] [] (report_behaves True unit_inv Hs) (Forall2_nil _) (Forall2_nil _)
             cfg1 no_cells mem0 _ (mkab 1 None [], (new_ufw, tt)) st0 second) in E1.
    - destruct E1 as (_ & (w' & E1 & _) & K). fold v_alone in E1. rewrite F1 in E1. injection E1 as _ _ <-. split; auto. apply K.
    - split; [reflexivity|]. split; [apply main_wrapper_new; exact Logic.I|intros d []].
    - intros c [].
    - intros c K. apply st0_cells in K. change (length mem0) with 10. lia.
    - intros c _ []. }
  destruct M as (M & Mi).
  exists s1, u1, h1, d1, new1, a, s2, h2, d2, new2, w1, vd1, vnew1, w2, vd2, vnew2, x1, x2.
  split; [exact Hs|]. split; [apply report_behaves, Hs|]. split; [reflexivity|]. split; [reflexivity|]. split; [exact M|]. split; [exact Ea|].
  split; [|split; [exact E2|split; [exact F2|split; [exact X1|split; [exact X2|]]]]].
  - rewrite load_later, <- M. f_equal. unfold tripled. eapply load_changed_state; [apply changed_write|exact Mi|]. apply apartb_ok, G1.
  - intros E. apply negb_true_iff in G2. apply Qc_eqb_eq in E. congruence.
Qed.
