(** Concrete cases for the property theorems about component calls in memory (C69-C71). *)
From Coq Require Import String Ascii List Bool Arith ZArith QArith Qcanon Lia.
From Verif Require Import Prelude PreludeFacts ArithM NdArray Units DataArrayM SpecUnits UnitsFacts ExampleRegistry Checks
  SpecArrays SpecDa GetNp Tracers Composite SpecComposite Steppers SpecSteppers Heap Components HeapCalls SpecHeap SpecHeapCalls HeapFacts HeapComposite HeapSteppers
  HeapCallsFacts HeapCallsViews HeapCallsMain HeapCallsShare HeapCallsSpare SpecComponents Ex_Components Ex_Composite Ex_Steppers Ex_Heap.
Import ListNotations.
Open Scope string_scope.
Open Scope nat_scope.
Open Scope list_scope.

#[local] Existing Instance ex_registry | 5.

(** ** Memory: T in cells 0-5, wind in cells 6-8, an array outside the state in cell 9. *)
Definition memc : heap Qc := map cz [10; 11; 12; 13; 14; 15; 1; 2; 3; 99]%Z.
Definition hT : hda := mkhda ["x"; "z"] [3; 2] [0; 1; 2; 3; 4; 5] [("units", "K")].
Definition hwind : hda := mkhda ["x"] [3] [6; 7; 8] [("units", "km s^-1")].
Definition hst : hstate := [("time", HTime 0); ("T", HDA hT); ("wind", HDA hwind)].

Lemma hst_in : state_in memc hst.
Proof.
  intros c (k & a & [E|[E|[E|[]]]] & Hc); try discriminate; injection E as <- <-; cbn in Hc; cbn; lia.
Qed.

Lemma hst_wf : wf_state (refs_state hst).
Proof. apply wf_stateb_ok. reflexivity. Qed.

(** numpy copies when a transposed array is flattened, and otherwise not: two choices that bracket it. *)
Definition never (_ : nd nat) (_ : list nat) : bool := false.
Definition always (_ : nd nat) (_ : list nat) : bool := true.

(** ** array_calls *)
Definition outs : Type := dict (nd nat) * dict (nd nat).
Definition wf_ndb {S} (a : nd S) : bool := Nat.eqb (length (data a)) (prod (shape a)).

(** Returns its arrays. *)
Definition hac_same (kt kw ot ow : string) : harray Qc nat outs := fun u h raw _ =>
  ((S u, h), match dget kt raw, dget kw raw with
             | Some (HRArr a), Some (HRArr w) => if wf_ndb a && wf_ndb w then Ok ([(ot, a)], [(ow, w)]) else Err EValue
             | _, _ => Err EKey
             end).
Definition ac_same (kt kw ot ow : string) : nat -> dict (rval Qc) -> Z -> nat * res (dict (nd Qc) * dict (nd Qc)) := fun u raw _ =>
  (S u, match dget kt raw, dget kw raw with
        | Some (RArr a), Some (RArr w) => if wf_ndb a && wf_ndb w then Ok ([(ot, a)], [(ow, w)]) else Err EValue
        | _, _ => Err EKey
        end).

(** Adds 1 to the first array in place, and returns it. *)
Definition plus1 (x : Qc) : Qc := Qcplus 1%Qc x.
Definition hac_inplace (kt kw ot ow : string) : harray Qc nat outs := fun u h raw _ =>
  match dget kt raw, dget kw raw with
  | Some (HRArr a), Some (HRArr w) => ((S u, store h (data a) (map plus1 (map (cell h) (data a)))), Ok ([(ot, a)], [(ow, w)]))
  | _, _ => ((S u, h), Err EKey)
  end.
Definition ac_plus1 (kt kw ot ow : string) : nat -> dict (rval Qc) -> Z -> nat * res (dict (nd Qc) * dict (nd Qc)) := fun u raw _ =>
  (S u, match dget kt raw, dget kw raw with
        | Some (RArr a), Some (RArr w) => Ok ([(ot, nd_map plus1 a)], [(ow, w)])
        | _, _ => Err EKey
        end).

Definition swap_outs {U} (hac : harray Qc U outs) : harray Qc U outs := fun u h raw dt =>
  let '(s, r) := hac u h raw dt in (s, match r with Ok (a, b) => Ok (b, a) | Err e => Err e end).

(** ** C69 *)

(** Own memory: cell 9 is left alone by both. *)
Definition cell9 : cells := fun c => c = 9.

Lemma same_spares : forall X kt kw ot ow, array_spares X (hac_same kt kw ot ow).
Proof. intros X kt kw ot ow u h raw dt u' h' r H. injection H as <- <- <-. apply grown_changed, grown_refl. Qed.

(** With any array_call at all: heater, whose T is flattened and whose wind is converted. *)
Lemma ex_frame : state_in memc hst /\
  (let '((u, h), r) := h_tendency_call never empty_treg (c_t true) (hac_inplace "t" "wind" "t" "speed") 0 memc hst 0%Z in
   match r with
   | Ok (t, d) => Nat.eqb (length h) 13 && qcs_eqb (firstn 10 h) [11; 12; 13; 14; 15; 16; 1; 2; 3; 99]%Z
   | Err _ => false
   end) = true /\
  (let '((u, h), r) := h_tendency_call always empty_treg (c_t true) (hac_inplace "t" "wind" "t" "speed") 0 memc hst 0%Z in
   match r with
   | Ok (t, d) => qcs_eqb (firstn 10 h) [10; 11; 12; 13; 14; 15; 1; 2; 3; 99]%Z
   | Err _ => false
   end) = true.
Proof. split; [exact hst_in|]. split; vm_compute; reflexivity. Qed.

Lemma ex_spares : array_spares cell9 (hac_same "t" "wind" "t" "speed") /\
  is_ok (snd (h_tendency_call never empty_treg (c_t true) (hac_same "t" "wind" "t" "speed") 0 memc hst 0%Z)) = true.
Proof. split; [apply same_spares|vm_compute; reflexivity]. Qed.

(** The state of the caller is changed. *)
Definition xT : list string := ["x"; "z"].
Definition inp_p : pdict := [ ("T", qprops xT "K"); ("wind", qprops ["x"] "m s^-1") ].
Definition c_p : tcomp := match snd (make_tendency_component false empty_treg inp_p [("T", qprops xT "K s^-1")] [("speed", qprops ["x"] "m s^-1")] "heater" true None "s^-1") with
  | Ok c => c
  | Err _ => mktcomp false [] [] [] "" false [] None ""
  end.
Lemma c_p_made : make_tendency_component false empty_treg inp_p [("T", qprops xT "K s^-1")] [("speed", qprops ["x"] "m s^-1")] "heater" true None "s^-1"
  = (empty_treg, Ok c_p).
Proof. vm_compute; reflexivity. Qed.

Lemma same_values_eq : forall l1 l2, same_values l1 l2 = true -> l1 = l2.
Proof.
  induction l1 as [|x l1 IH]; intros [|y l2] H; try discriminate; auto. unfold same_values in *. cbn [length combine forallb fst snd] in H.
  apply andb_true_iff in H as (H1 & H). apply andb_true_iff in H as (H2 & H). apply Qc_eqb_eq in H2. subst y. f_equal. apply IH.
  apply andb_true_iff. split; auto.
Qed.

Lemma state_changed :
  exists inp tend diag c (hac : harray Qc nat outs) u h st dt,
    make_tendency_component false empty_treg inp tend diag "heater" true None "s^-1" = (empty_treg, Ok c) /\ state_in h st /\
    forall cp, exists u' h' o, h_tendency_call cp empty_treg c hac u h st dt = ((u', h'), Ok o) /\
      load_state h' st <> load_state h st.
Proof.
  exists inp_p, [("T", qprops xT "K s^-1")], [("speed", qprops ["x"] "m s^-1")], c_p, (hac_inplace "T" "wind" "T" "speed"), 0, memc, hst, 0%Z.
  split; [exact c_p_made|]. split; [exact hst_in|]. intros cp.
  assert (H : (let '((u, h), r) := h_tendency_call cp empty_treg c_p (hac_inplace "T" "wind" "T" "speed") 0 memc hst 0%Z in
               match r with Ok o => negb (same_values (held h "T" hst) (held memc "T" hst)) | Err _ => false end) = true) by (vm_compute; reflexivity).
  destruct (h_tendency_call cp empty_treg c_p (hac_inplace "T" "wind" "T" "speed") 0 memc hst 0%Z) as [[u' h'] [o|e]]; [|discriminate H].
  exists u', h', o. split; auto. intros E. unfold held in H. rewrite E, same_values_refl in H. discriminate H.
Qed.

(** A Stepper that computes the new T in the array it is given. *)
Definition c_sp : scomp := match snd (make_stepper empty_treg inp_p [("speed", qprops ["x"] "m s^-1")] [("T", qprops xT "K")] "stepper" true None 1000000%Z) with
  | Ok c => c
  | Err _ => mkscomp false [] [] [] "" false [] None 0%Z
  end.
Lemma c_sp_made : make_stepper empty_treg inp_p [("speed", qprops ["x"] "m s^-1")] [("T", qprops xT "K")] "stepper" true None 1000000%Z = (empty_treg, Ok c_sp).
Proof. vm_compute; reflexivity. Qed.

Definition swap_v {U} (ac : U -> dict (rval Qc) -> Z -> U * res (dict (nd Qc) * dict (nd Qc))) : U -> dict (rval Qc) -> Z -> U * res (dict (nd Qc) * dict (nd Qc)) :=
  fun u raw dt => let (u', r) := ac u raw dt in (u', match r with Ok (a, b) => Ok (b, a) | Err e => Err e end).

Lemma stepper_tendency_lost :
  exists inp diag out c (hac : harray Qc nat outs) ac u h st dt u' d n vd vn,
    make_stepper empty_treg inp diag out "stepper" true None 1000000%Z = (empty_treg, Ok c) /\ state_in h st /\
    stepper_call empty_treg c ac u (load_state h st) dt = (u', Ok (vd, vn)) /\
    forall cp, exists h', h_stepper_call cp empty_treg c hac u h st dt = ((u', h'), Ok (d, n)) /\
      values_of "T" (load_dict h' n) = values_of "T" vn /\
      values_of "T" vn <> state_values "T" (load_state h st) /\
      values_of "T_tendency_from_stepper" (load_dict h' d) <> values_of "T_tendency_from_stepper" vd /\
      (forall x, In x (values_of "T_tendency_from_stepper" (load_dict h' d)) -> x = 0%Qc).
Proof.
  exists inp_p, [("speed", qprops ["x"] "m s^-1")], [("T", qprops xT "K")], c_sp,
    (swap_outs (hac_inplace "T" "wind" "T" "speed")), (swap_v (ac_plus1 "T" "wind" "T" "speed")), 0, memc, hst, 10000000%Z.
  pose (val := stepper_call empty_treg c_sp (swap_v (ac_plus1 "T" "wind" "T" "speed")) 0 (load_state memc hst) 10000000%Z).
  pose (mem0' := h_stepper_call never empty_treg c_sp (swap_outs (hac_inplace "T" "wind" "T" "speed")) 0 memc hst 10000000%Z).
  assert (Ecp : forall cp, h_stepper_call cp empty_treg c_sp (swap_outs (hac_inplace "T" "wind" "T" "speed")) 0 memc hst 10000000%Z = mem0').
  { intros cp. vm_compute. reflexivity. }
  assert (H : (match mem0', val with
               | ((u', h'), Ok (d, n)), (v', Ok (vd, vn)) =>
                   Nat.eqb u' v' && same_values (values_of "T" (load_dict h' n)) (values_of "T" vn) &&
                   negb (same_values (values_of "T" vn) (state_values "T" (load_state memc hst))) &&
                   negb (same_values (values_of "T_tendency_from_stepper" (load_dict h' d)) (values_of "T_tendency_from_stepper" vd)) &&
                   forallb (fun x => Qc_eqb x 0%Qc) (values_of "T_tendency_from_stepper" (load_dict h' d))
               | _, _ => false
               end) = true) by (vm_compute; reflexivity).
  fold val. destruct mem0' as [[u' h'] [[d n]|e]]; [|discriminate H]. destruct val as [v' [[vd vn]|e]]; [|discriminate H].
  rewrite !andb_true_iff in H. destruct H as ((((H0 & H1) & H2) & H3) & H4). apply Nat.eqb_eq in H0. subst v'.
  exists u', d, n, vd, vn. split; [exact c_sp_made|]. split; [exact hst_in|]. split; [reflexivity|].
  intros cp. exists h'. split; [apply Ecp|]. split; [apply same_values_eq; auto|]. split; [|split].
  - intros E. rewrite E, same_values_refl in H2. discriminate H2.
  - intros E. rewrite E, same_values_refl in H3. discriminate H3.
  - intros x Hx. rewrite forallb_forall in H4. apply Qc_eqb_eq, H4, Hx.
Qed.

(** ** C70 *)

(** heater again: with cells instead of values one sees what is shared. *)
Definition raw_of (k : string) (cp : nd nat -> list nat -> bool) : list nat :=
  match h_raw_state cp empty_treg inp_c None memc hst with
  | (_, Ok raw) => match dget k raw with Some (HRArr a) => data a | _ => [] end
  | (_, Err _) => []
  end.

Lemma inp_c_names : wf_pdict inp_c /\ NoDup (map (fun np => raw_name (fst np) (snd np)) inp_c).
Proof. split; [apply wf_pdictb_ok; reflexivity|apply nodupb_ok; reflexivity]. Qed.

(** T is transposed; wind is converted to other units. *)
Lemma ex_inputs : wf_state (refs_state hst) /\ wf_pdict inp_c /\ NoDup (map (fun np => raw_name (fst np) (snd np)) inp_c) /\
  in_units hT "K" /\ ~ in_units hwind "m s^-1" /\
  raw_of "t" never = [0; 2; 4; 1; 3; 5] /\ raw_of "wind" never = [10; 11; 12] /\
  raw_of "t" always = [10; 11; 12; 13; 14; 15].
Proof.
  split; [exact hst_wf|]. split; [apply inp_c_names|]. split; [apply inp_c_names|]. split.
  { exists "K". do 2 eexists. repeat split; vm_compute; reflexivity. }
  split. { intros (own & u1 & u2 & E & E1 & E2 & E3). vm_compute in E. injection E as <-. vm_compute in E1. injection E1 as <-. vm_compute in E2. injection E2 as <-.
           vm_compute in E3. discriminate E3. }
  repeat split; vm_compute; reflexivity.
Qed.

Definition tend_of (d : dict hda) (k : string) : list nat := match dget k d with Some a => h_cells a | None => [] end.

(** What is returned is what array_call returned, in another shape. *)
Lemma ex_outputs : NoDup (keys (t_tend (c_t true))) /\ NoDup (keys (t_diag (c_t true))) /\
  (forall name ds, declared_dims (t_tend (c_t true)) (t_inp (c_t true)) name ds \/ declared_dims (t_diag (c_t true)) (t_inp (c_t true)) name ds -> one_star ds) /\
  (match h_tendency_call never empty_treg (c_t true) (hac_same "t" "wind" "t" "speed") 0 memc hst 0%Z with
   | (_, Ok (t, d)) => tend_of t "T" = [0; 2; 4; 1; 3; 5] /\ tend_of d "speed" = [10; 11; 12] /\ tend_of d "T_tendency_from_heater" = [0; 2; 4; 1; 3; 5]
   | _ => False
   end) /\
  (match h_tendency_call always empty_treg (c_t true) (hac_same "t" "wind" "t" "speed") 0 memc hst 0%Z with
   | (_, Ok (t, d)) => tend_of t "T" = [22; 23; 24; 25; 26; 27]
   | _ => False
   end).
Proof.
  split; [apply nodupb_ok; reflexivity|]. split; [apply nodupb_ok; reflexivity|]. split.
  { assert (K1 : stars_ok (t_tend (c_t true)) (t_inp (c_t true))) by (apply stars_okb_ok; vm_compute; reflexivity).
    assert (K2 : stars_ok (t_diag (c_t true)) (t_inp (c_t true))) by (apply stars_okb_ok; vm_compute; reflexivity).
    intros name ds [H|H]; [exact (K1 _ _ H)|exact (K2 _ _ H)]. }
  split; vm_compute; repeat split.
Qed.

(** A component that returns an array it was given returns memory of the state. *)
Lemma output_is_state :
  exists inp tend diag c (hac : harray Qc nat outs) u h st dt,
    make_tendency_component false empty_treg inp tend diag "heater" true None "s^-1" = (empty_treg, Ok c) /\ state_in h st /\
    (forall u h raw dt, snd (fst (hac u h raw dt)) = h) /\
    forall cp, exists u' h' t d a, h_tendency_call cp empty_treg c hac u h st dt = ((u', h'), Ok (t, d)) /\
      dget "T" t = Some a /\ h_cells a <> [] /\ (forall x, In x (h_cells a) -> state_cells st x) /\
      dget "T_tendency_from_heater" d = Some a.
Proof.
  exists inp_p, [("T", qprops xT "K s^-1")], [("speed", qprops ["x"] "m s^-1")], c_p, (hac_same "T" "wind" "T" "speed"), 0, memc, hst, 0%Z.
  split; [exact c_p_made|]. split; [exact hst_in|]. split; [reflexivity|]. intros cp.
  do 4 eexists. exists (mkhda xT [3; 2] [0; 1; 2; 3; 4; 5] [("units", "K s^-1")]). split; [vm_compute; reflexivity|]. split; [vm_compute; reflexivity|].
  split; [discriminate|]. split; [|vm_compute; reflexivity].
  intros x Hx. exists "T", hT. split; [right; left; reflexivity|exact Hx].
Qed.

(** ** C71 *)

Definition counts : invariant (T:=Qc) nat nat := fun _ _ u v => u = v.
Lemma counts_stable : stable counts.
Proof. intros X X' h h' u v E _ _. exact E. Qed.

Lemma wf_ndb_load : forall (h : heap Qc) a, wf_ndb (load_nd h a) = wf_ndb a.
Proof. intros. unfold wf_ndb. cbn [load_nd data shape]. rewrite map_length. reflexivity. Qed.

Lemma same_behaves : forall kt kw ot ow, array_behaves_if True load_outs SpecHeapCalls.both counts (hac_same kt kw ot ow) (ac_same kt kw ot ow).
Proof.
  intros kt kw ot ow X h u v raw dt u' h' r -> HX Hr HP H. injection H as <- <- <-. split; [apply grown_refl|].
  unfold ac_same, load_raw. rewrite !(dget_map (load_rval h)).
  assert (Hc : forall k a, dget k raw = Some (HRArr a) -> forall x, In x (data a) -> raw_cells raw x).
  { intros k a Hk x Hx. left. exists k, a. split; auto. apply dget_In; auto. }
  destruct (dget kt raw) as [[a|]|] eqn:E1; cbn [option_map load_rval].
  2: split; [|exact Logic.I]; eexists; split; [|reflexivity]; reflexivity.
  2: split; [|exact Logic.I]; eexists; split; [|reflexivity]; reflexivity.
  destruct (dget kw raw) as [[w|]|] eqn:E2; cbn [option_map load_rval].
  2: split; [|exact Logic.I]; eexists; split; [|reflexivity]; reflexivity.
  2: split; [|exact Logic.I]; eexists; split; [|reflexivity]; reflexivity.
  rewrite !wf_ndb_load. destruct (wf_ndb a && wf_ndb w) eqn:Ew.
  2: split; [|exact Logic.I]; eexists; split; [|reflexivity]; reflexivity.
  split. { eexists. split; [|reflexivity]. reflexivity. }
  apply andb_true_iff in Ew as (W1 & W2). apply Nat.eqb_eq in W1, W2.
  intros d [<-|[<-|[]]]; cbn [fst snd]; (split; [intros k b [Eb|[]]; injection Eb as <- <-; auto|]);
    (split; [intros x (k & b & [Eb|[]] & Hx); injection Eb as <- <-; apply Hr; eauto|]);
    intros x (k & b & [Eb|[]] & Hx); injection Eb as <- <-; apply (HP Logic.I); eauto.
Qed.

(** It keeps no array and returns a new one. *)
Definition hac_new (kt ot : string) : harray Qc nat outs := fun u h raw _ =>
  match dget kt raw with
  | Some (HRArr a) => if wf_ndb a then let (h', b) := alloc_nd h (nd_map plus1 (load_nd h a)) in ((S u, h'), Ok ([(ot, b)], [])) else ((S u, h), Err EValue)
  | _ => ((S u, h), Err EKey)
  end.
Definition ac_new (kt ot : string) : nat -> dict (rval Qc) -> Z -> nat * res (dict (nd Qc) * dict (nd Qc)) := fun u raw _ =>
  (S u, match dget kt raw with
        | Some (RArr a) => if wf_ndb a then Ok ([(ot, nd_map plus1 a)], []) else Err EValue
        | _ => Err EKey
        end).

Lemma new_behaves : forall P kt ot, array_behaves_if P load_outs SpecHeapCalls.both counts (hac_new kt ot) (ac_new kt ot).
Proof.
  intros P kt ot X h u v raw dt u' h' r -> HX Hr HP H. unfold hac_new in H. unfold ac_new, load_raw. rewrite (dget_map (load_rval h)).
  destruct (dget kt raw) as [[a|]|] eqn:E1; cbn [option_map load_rval].
  2: injection H as <- <- <-; split; [apply grown_refl|]; split; [|exact Logic.I]; eexists; split; [|reflexivity]; reflexivity.
  2: injection H as <- <- <-; split; [apply grown_refl|]; split; [|exact Logic.I]; eexists; split; [|reflexivity]; reflexivity.
  rewrite wf_ndb_load. destruct (wf_ndb a) eqn:Ew.
  2: injection H as <- <- <-; split; [apply grown_refl|]; split; [|exact Logic.I]; eexists; split; [|reflexivity]; reflexivity.
  destruct (alloc_nd_spec h (nd_map plus1 (load_nd h a))) as (G & El & Hc & Es & En).
  destruct (alloc_nd h (nd_map plus1 (load_nd h a))) as [h1 b]. cbn [fst snd] in *. injection H as <- <- <-. split; auto. split.
  - eexists. split; [|reflexivity]. unfold rmap, load_outs, load_nds. cbn [map fst snd]. rewrite ?El. reflexivity.
  - intros d [<-|[<-|[]]]; cbn [fst snd].
    + split. { intros k c [Eb|[]]. injection Eb as <- <-. unfold wf_nd. rewrite En, Es. cbn [nd_map load_nd shape data]. rewrite !map_length. apply Nat.eqb_eq, Ew. }
      split. { intros x (k & c & [Eb|[]] & Hx). injection Eb as <- <-. apply Hc in Hx. lia. }
      intros x (k & c & [Eb|[]] & Hx) HXx. injection Eb as <- <-. apply Hc in Hx. apply HX in HXx. lia.
    + split. { intros k c []. } split. { intros x (k & c & [] & _). } intros x (k & c & [] & _).
Qed.

Definition c_n : tcomp := match snd (make_tendency_component false empty_treg [("T", qprops xT "K")] [("T", qprops xT "K s^-1")] [] "warmer" false None "s^-1") with
  | Ok c => c
  | Err _ => mktcomp false [] [] [] "" false [] None ""
  end.

Lemma ac_same_real : forall kt kw ot ow, returns_real (ac_same kt kw ot ow).
Proof.
  intros kt kw ot ow v raw dt v' o H k a Hin. unfold ac_same in H. destruct (dget kt raw) as [[b|]|]; try discriminate.
  destruct (dget kw raw) as [[w|]|]; try discriminate. destruct (wf_ndb b && wf_ndb w) eqn:E; [|discriminate]. injection H as _ <-.
  destruct Hin as [Eb|[]]. injection Eb as <- <-. apply andb_true_iff in E as (E & _). apply Nat.eqb_eq, E.
Qed.

Lemma ac_new_real : forall kt ot, returns_real (ac_new kt ot).
Proof.
  intros kt ot v raw dt v' o H k a Hin. unfold ac_new in H. destruct (dget kt raw) as [[b|]|]; try discriminate.
  destruct (wf_ndb b) eqn:E; [|discriminate]. injection H as _ <-.
  destruct Hin as [Eb|[]]. injection Eb as <- <-. unfold wf_nd. cbn [nd_map data shape]. rewrite map_length. apply Nat.eqb_eq, E.
Qed.

Lemma plain_T : forall inp u, plain_dims [("T", qprops xT u)] inp.
Proof.
  intros inp u name ds (p & Hp & Hd). cbn [dget] in Hp. destruct (String.eqb name "T"); [|discriminate]. injection Hp as <-.
  destruct Hd as [E|(E & _)]; [|discriminate]. injection E as <-. split; [apply nodupb_ok; reflexivity|]. intros [E|[E|[]]]; discriminate.
Qed.

Lemma c_p_fields : t_packer c_p = None /\ t_tend c_p = [("T", qprops xT "K s^-1")].
Proof. split; vm_compute; reflexivity. Qed.
Lemma c_n_fields : t_packer c_n = None /\ t_tend c_n = [("T", qprops xT "K s^-1")].
Proof. split; vm_compute; reflexivity. Qed.

Lemma ex_array_behaves : stable counts /\
  array_behaves_if True load_outs SpecHeapCalls.both counts (hac_same "T" "wind" "T" "speed") (ac_same "T" "wind" "T" "speed") /\
  array_behaves_if True load_outs SpecHeapCalls.both counts (hac_new "T" "T") (ac_new "T" "T") /\
  t_packer c_p = None /\ NoDup (keys (t_tend c_p)) /\ plain_dims (t_tend c_p) (t_inp c_p) /\ returns_real (ac_same "T" "wind" "T" "speed").
Proof.
  split; [exact counts_stable|]. split; [apply same_behaves|]. split; [apply new_behaves|].
  destruct c_p_fields as (E1 & E2). split; [exact E1|]. rewrite E2. split; [apply nodupb_ok; reflexivity|]. split; [apply plain_T|]. apply ac_same_real.
Qed.

(** Two components of the base class in a composite, stepped by AdamsBashforth: no array that existed is changed. *)
Definition both_h (cp : nd nat -> list nat -> bool) : hicaller (T:=Qc) nat :=
  h_implicit_composite [inl (h_tendency_call cp empty_treg c_p (hac_same "T" "wind" "T" "speed")); inl (h_tendency_call cp empty_treg c_n (hac_new "T" "T"))].
Definition both_v : icaller (T:=Qc) nat := fun v st dt =>
  implicit_composite_call [inl (fun v st dt => tendency_call empty_treg c_p (fun v raw => ac_same "T" "wind" "T" "speed" v raw dt) v st);
                           inl (fun v st dt => tendency_call empty_treg c_n (fun v raw => ac_new "T" "T" v raw dt) v st)] dt v st.

Lemma ex_composite_behaves : forall cp, behaves counts (both_h cp) both_v.
Proof.
  intros cp. apply (main_implicit_behaves True counts counts_stable). apply Forall2_cons; [|apply Forall2_cons; [|apply Forall2_nil]].
  - apply main_tendency_component; [exact counts_stable|apply same_behaves|].
    destruct c_p_fields as (E1 & E2). apply main_returns_proper; auto; [rewrite E2; apply nodupb_ok; reflexivity|rewrite E2; apply plain_T|apply ac_same_real].
  - apply main_tendency_component; [exact counts_stable|apply new_behaves|].
    destruct c_n_fields as (E1 & E2). apply main_returns_proper; auto; [rewrite E2; apply nodupb_ok; reflexivity|rewrite E2; apply plain_T|apply ac_new_real].
Qed.

Definition cfgT : tstep := mktstep true "stepper" [("T", qprops xT "K")] [] [("T", qprops xT "K")].

Lemma ex_stepped :
  match h_adams_bashforth cfgT (both_h never) (mkhab 2 None [], 0) memc hst 1000000%Z with
  | ((_, _, h), Ok (d, new)) => qcs_eqb (firstn 10 h) [10; 11; 12; 13; 14; 15; 1; 2; 3; 99]%Z && qcs_eqb (held h "T" new) [31; 34; 37; 40; 43; 46]%Z
  | _ => false
  end = true.
Proof. vm_compute. reflexivity. Qed.
