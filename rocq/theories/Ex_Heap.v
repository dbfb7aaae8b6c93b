(** Concrete cases for the property theorems about memory (C23, C37, C42-C44). *)
From Coq Require Import String Ascii List Bool Arith ZArith QArith Qcanon Lia.
From Verif Require Import Prelude PreludeFacts ArithM NdArray Units DataArrayM SpecUnits UnitsFacts ExampleRegistry Checks
  SpecArrays SpecDa GetNp Tracers Components Composite SpecComposite Steppers SpecSteppers Heap SpecHeap HeapFacts HeapComposite HeapSteppers
  HeapLeap HeapScaling Ex_Components Ex_Composite Ex_Steppers.
Import ListNotations.
Open Scope string_scope.
Open Scope nat_scope.
Open Scope list_scope.

#[local] Existing Instance ex_registry | 5.

(** ** Components in memory *)

(** It returns arrays it keeps, like ConstantTendencyComponent. *)
Definition h_kept : hicaller (T:=Qc) (dict hda * dict hda) := fun u h st _ => ((u, h), Ok u).
Definition v_kept : icaller (T:=Qc) (dict (da Qc) * dict (da Qc)) := fun v st _ => (v, Ok v).

Definition kept_inv : invariant (T:=Qc) (dict hda * dict hda) (dict (da Qc) * dict (da Qc)) :=
  fun X h u v => v = (load_dict h (fst u), load_dict h (snd u)) /\
    dict_in h (fst u) /\ dict_in h (snd u) /\ proper_dict h (fst u) /\ NoDup (keys (snd u)) /\
    avoids (cells_of (fst u)) X /\ avoids (cells_of (snd u)) X.

Lemma kept_stable : stable kept_inv.
Proof.
  intros X X' h h' [t d] v (-> & I1 & I2 & (P1 & P2) & N & A1 & A2) C HX. cbn [fst snd] in *.
  assert (L : length h <= length h') by apply C.
  split; [|repeat split]; auto; cbn [fst snd].
  - rewrite (load_changed_dict _ _ _ _ C I1 A1), (load_changed_dict _ _ _ _ C I2 A2). auto.
  - intros c K. apply I1 in K. lia.
  - intros c K. apply I2 in K. lia.
  - intros; eapply wf_load_any; eauto.
  - intros; eapply wf_load_any; eauto.
  - intros; eapply wf_load_any; eauto.
  - intros c K1 K2. apply (A1 c K1). apply HX; auto.
  - intros c K1 K2. apply (A2 c K1). apply HX; auto.
Qed.

Lemma kept_behaves : forall P, behaves_if P kept_inv h_kept v_kept.
Proof.
  intros P X h [t d] v st dt u' h' r HI HX Hi Hx H. injection H as <- <- <-. pose proof HI as (-> & I1 & I2 & I3 & N & A1 & A2).
  split. apply grown_refl. split. { eexists. split; [reflexivity|]. exact HI. } repeat (split; auto).
Qed.

(** It returns the arrays of the state: d x/dt = x, and x itself as a diagnostic. *)
Definition grow_attrs : dict string := [("units", "K s^-1")].

Definition h_grow {U} : hicaller (T:=Qc) U := fun u h st _ =>
  ((u, h), match dget "x" st with
           | Some (HDA a) => if wf_dab (load h a) then Ok ([("x", mkhda (h_dims a) (h_shape a) (h_cells a) grow_attrs)], [("seen", a)])
                             else Err EValue
           | _ => Err EKey
           end).

Definition v_grow {U} : icaller (T:=Qc) U := fun u st _ =>
  (u, match dget "x" st with
      | Some (VDA a) => if wf_dab a then Ok ([("x", mkda (dims a) (arr a) grow_attrs)], [("seen", a)]) else Err EValue
      | _ => Err EKey
      end).

Lemma grow_behaves : forall {UH UV} (I : invariant (T:=Qc) UH UV), behaves I h_grow v_grow.
Proof.
  intros UH UV I X h u v st dt u' h' r HI HX Hi Hx H. unfold h_grow in H. unfold v_grow.
  assert (Eg := dget_load_state h "x" st). destruct (dget "x" st) as [[a|t]|] eqn:E; cbn [option_map load_val] in Eg; rewrite Eg.
  2,3: injection H as <- <- <-; split; [apply grown_refl|split; [eexists; split; [reflexivity|auto]|auto]].
  assert (Hc : forall c, In c (h_cells a) -> state_cells st c) by (intros c K; exists "x", a; split; auto; apply dget_In; auto).
  destruct (wf_dab (load h a)) eqn:W; injection H as <- <- <-; split; try apply grown_refl; split; try (eexists; split; [reflexivity|auto]); auto.
  apply wf_dab_ok in W.
  repeat match goal with |- _ /\ _ => split end.
  - intros c (k & b & [E1|[]] & K). injection E1 as <- <-. apply Hi, Hc, K.
  - intros c (k & b & [E1|[]] & K). injection E1 as <- <-. apply Hi, Hc, K.
  - split. apply nodupb_ok; reflexivity. intros k b [E1|[]]. injection E1 as <- <-. exact W.
  - apply nodupb_ok. reflexivity.
  - intros c (k & b & [E1|[]] & K). injection E1 as <- <-. apply (Hx Logic.I). apply Hc, K.
  - intros c (k & b & [E1|[]] & K). injection E1 as <- <-. apply (Hx Logic.I). apply Hc, K.
Qed.

(** It returns new arrays: d x/dt = 2 x. *)
Definition h_fresh {U} : hicaller (T:=Qc) U := fun u h st _ =>
  match dget "x" st with
  | Some (HDA a) =>
      if wf_dab (load h a) then
        let (h', b) := alloc h (da_map (fun x => amul x (cz 2)) grow_attrs (load h a)) in ((u, h'), Ok ([("x", b)], []))
      else ((u, h), Err EValue)
  | _ => ((u, h), Err EKey)
  end.

Definition v_fresh {U} : icaller (T:=Qc) U := fun u st _ =>
  (u, match dget "x" st with
      | Some (VDA a) => if wf_dab a then Ok ([("x", da_map (fun x => amul x (cz 2)) grow_attrs a)], []) else Err EValue
      | _ => Err EKey
      end).

Lemma fresh_behaves : forall P {UH UV} (I : invariant (T:=Qc) UH UV), stable I -> behaves_if P I h_fresh v_fresh.
Proof.
  intros P UH UV I Hst X h u v st dt u' h' r HI HX Hi Hx H. unfold h_fresh in H. unfold v_fresh.
  assert (Eg := dget_load_state h "x" st). destruct (dget "x" st) as [[a|t]|] eqn:E; cbn [option_map load_val] in Eg; rewrite Eg.
  2,3: injection H as <- <- <-; split; [apply grown_refl|split; [eexists; split; [reflexivity|auto]|auto]].
  destruct (wf_dab (load h a)) eqn:W.
  2: injection H as <- <- <-; split; [apply grown_refl|split; [eexists; split; [reflexivity|auto]|auto]].
  rewrite alloc_eq in H. set (w := da_map (fun x => amul x (cz 2)) grow_attrs (load h a)) in *.
  pose proof (grown_alloc h w) as G. pose proof (load_alloc h w) as El. pose proof (alloc_cells h w) as Hc.
  set (h1 := fst (alloc h w)) in *. set (b := snd (alloc h w)) in *. clearbody h1 b. injection H as <- <- <-.
  apply wf_dab_ok in W. split; auto. split.
  - eexists. split. { cbn [load_out load_dict map fst snd]. rewrite El. reflexivity. }
    apply (Hst X X h h1 u v HI); auto. apply grown_changed; auto.
  - repeat match goal with |- _ /\ _ => split end.
    + intros c (k & z & [E1|[]] & K). injection E1 as <- <-. apply Hc in K. lia.
    + intros c (k & z & [] & _).
    + split. apply nodupb_ok; reflexivity. intros k z [E1|[]]. injection E1 as <- <-. rewrite El. apply DaFacts.wf_da_map; auto.
    + apply nodupb_ok. reflexivity.
    + intros c (k & z & [E1|[]] & K) KX. injection E1 as <- <-. apply Hc in K. apply HX in KX. lia.
    + intros c (k & z & [] & _).
Qed.

(** ** Memory with a state: cells 0-2 are x, 3-5 an array p outside it, 6-8 what the
    component keeps.  The arrays y and z of the state share cell 9. *)
Definition mem0 : heap Qc := map cz [1; 2; 3; 100; 200; 300; 5; 6; 7; 40]%Z.
Definition x0 : hda := mkhda ["a"] [3] [0; 1; 2] [("units", "K")].
Definition y0 : hda := mkhda ["b"] [1] [9] [("units", "m")].
Definition kept0 : hda := mkhda ["a"] [3] [6; 7; 8] [("units", "K s^-1")].
Definition seen0 : hda := mkhda ["a"] [3] [8; 7; 6] [("units", "kg")].
Definition st0 : hstate := [("time", HTime 0); ("x", HDA x0); ("y", HDA y0); ("z", HDA y0)].
Definition u0 : dict hda * dict hda := ([("x", kept0)], [("kept", seen0)]).
Definition v0 : dict (da Qc) * dict (da Qc) := (load_dict mem0 (fst u0), load_dict mem0 (snd u0)).

Definition hc_kept : hcaller (T:=Qc) (dict hda * dict hda) := fun u h st => h_kept u h st 0%Z.
Definition hc_grow : hcaller (T:=Qc) (dict hda * dict hda) := fun u h st => h_grow u h st 0%Z.
Definition hc_fresh : hcaller (T:=Qc) (dict hda * dict hda) := fun u h st => h_fresh u h st 0%Z.
Definition vc_kept : caller (T:=Qc) (dict (da Qc) * dict (da Qc)) := fun u st => v_kept u st 0%Z.
Definition vc_grow : caller (T:=Qc) (dict (da Qc) * dict (da Qc)) := fun u st => v_grow u st 0%Z.
Definition vc_fresh : caller (T:=Qc) (dict (da Qc) * dict (da Qc)) := fun u st => v_fresh u st 0%Z.

Definition three : hcaller (T:=Qc) (dict hda * dict hda) := h_composite [hc_kept; hc_grow; hc_kept; hc_fresh].
Definition three_v : caller (T:=Qc) (dict (da Qc) * dict (da Qc)) := tendency_composite_call [vc_kept; vc_grow; vc_kept; vc_fresh].

Lemma lift_behaves : forall P {UH UV} (I : invariant (T:=Qc) UH UV) (hc : hicaller (T:=Qc) UH) c, behaves_if P I hc c ->
  behaves_if P I (no_step (fun u h st => hc u h st 0%Z)) (no_step_v (fun u st => c u st 0%Z)).
Proof. intros P UH UV I hc c H X h u v st dt u' h' r HI HX Hi Hx E. exact (H X h u v st 0%Z u' h' r HI HX Hi Hx E). Qed.

Lemma ex_components_behave : stable kept_inv /\
  Forall2 (fun hc c => behaves_if True kept_inv (no_step hc) (no_step_v c))
    [hc_kept; hc_grow; hc_kept; hc_fresh] [vc_kept; vc_grow; vc_kept; vc_fresh].
Proof.
  split. exact kept_stable.
  apply Forall2_cons. { apply lift_behaves, kept_behaves. }
  apply Forall2_cons. { apply lift_behaves, grow_behaves. }
  apply Forall2_cons. { apply lift_behaves, kept_behaves. }
  apply Forall2_cons. { apply lift_behaves, fresh_behaves, kept_stable. }
  apply Forall2_nil.
Qed.

Definition qcs_eqb (l : list Qc) (zs : list Z) : bool :=
  Nat.eqb (length l) (length zs) && forallb (fun p => Qc_eqb (fst p) (cz (snd p))) (combine l zs).

(** Memory after a call: what was there before, and where the sums are. *)
Lemma ex_composite :
  (let '((u, h), r) := three u0 mem0 st0 in
   match r with
   | Ok (t, d) => Nat.eqb (length h) 16 && qcs_eqb (firstn 10 h) [1; 2; 3; 100; 200; 300; 5; 6; 7; 40]%Z &&
                  match dget "x" t with
                  | Some a => nats_eqb (h_cells a) [10; 11; 12] && qcs_eqb (data (arr (load h a))) [13; 18; 23]%Z
                  | None => false
                  end && String.eqb (String.concat "," (keys d)) "kept,seen"
   | Err _ => false
   end) = true.
Proof. vm_compute. reflexivity. Qed.

(** ** Steppers *)

Definition outside : cells := fun c => 3 <= c <= 5.
Definition cfg0 : tstep := mktstep true "stepper" [("x", qprops ["a"] "K")] [] [("x", qprops ["a"] "K")].
Definition second : Z := 1000000.

Lemma u0_kept : forall X : cells, (forall c, X c -> c < 6 \/ c = 9) -> kept_inv X mem0 u0 v0.
Proof.
  intros X HX. assert (Hc : forall d c, In d [fst u0; snd u0] -> cells_of d c -> 6 <= c <= 8).
  { intros d c [<-|[<-|[]]] (k & a & [E|[]] & K); injection E as <- <-; cbn in K; lia. }
  split; [reflexivity|]. repeat match goal with |- _ /\ _ => split end.
  - intros c K. apply Hc in K; [|left; auto]. change (length mem0) with 10. lia.
  - intros c K. apply Hc in K; [|right; left; auto]. change (length mem0) with 10. lia.
  - split. apply nodupb_ok; reflexivity. intros k a [E|[]]. injection E as <- <-. apply wf_dab_ok. vm_compute. reflexivity.
  - apply nodupb_ok; reflexivity.
  - intros c K1 K2. apply Hc in K1; [|left; auto]. apply HX in K2. lia.
  - intros c K1 K2. apply Hc in K1; [|right; left; auto]. apply HX in K2. lia.
Qed.

Lemma st0_cells : forall c, state_cells st0 c -> c < 3 \/ c = 9.
Proof. intros c (k & a & [E|[E|[E|[E|[]]]]] & K); try discriminate E; injection E as <- <-; cbn in K; lia. Qed.

Lemma three_behaves : behaves kept_inv (no_step three) (no_step_v three_v).
Proof. apply (main_composite_behaves True kept_inv kept_stable). apply ex_components_behave. Qed.

(** Two steps in memory succeed, and leave what was there as it was. *)
Definition two_steps {S} (call : S * (dict hda * dict hda) -> heap Qc -> hstate -> Z -> (S * (dict hda * dict hda) * heap Qc) * res hstepped) (s : S) : bool :=
  let '((s1, u1, h1), r1) := call (s, u0) mem0 st0 second in
  match r1 with
  | Err _ => false
  | Ok (d1, new1) =>
      let '((s2, u2, h2), r2) := call (s1, u1) h1 new1 second in
      match r2 with
      | Err _ => false
      | Ok (d2, new2) => qcs_eqb (firstn 10 h2) [1; 2; 3; 100; 200; 300; 5; 6; 7; 40]%Z &&
                         String.eqb (String.concat "," (keys d2)) "kept,seen,x_tendency_from_stepper"
      end
  end.

Lemma ex_adams_bashforth :
  behaves kept_inv (no_step three) (no_step_v three_v) /\
  ab_inv kept_inv outside mem0 (mkhab 2 None [], u0) (mkab 2 None [], v0) /\
  (forall c, outside c -> c < length mem0) /\ state_in mem0 st0 /\ avoids (state_cells st0) outside /\
  two_steps (h_adams_bashforth cfg0 (no_step three)) (mkhab 2 None []) = true.
Proof.
  split. exact three_behaves. split. { split; [reflexivity|]. split; [apply u0_kept; unfold outside; intros; lia|intros d []]. }
  split. { unfold outside. change (length mem0) with 10. intros; lia. }
  split. { intros c K. apply st0_cells in K. change (length mem0) with 10. lia. }
  split. { intros c K. apply st0_cells in K. unfold outside. lia. }
  vm_compute. reflexivity.
Qed.

Lemma ex_runge_kutta :
  behaves kept_inv (no_step three) (no_step_v three_v) /\
  rk_inv kept_inv outside mem0 (mkhrk 3 (mkhab 1 None []), u0) (mkrk 3 (mkab 1 None []), v0) /\
  (forall c, outside c -> c < length mem0) /\ state_in mem0 st0 /\ avoids (state_cells st0) outside /\
  two_steps (h_ssp_rk cfg0 (no_step three)) (mkhrk 3 (mkhab 1 None [])) = true.
Proof.
  destruct ex_adams_bashforth as (H1 & (_ & H2 & _) & H3 & H4 & H5 & _). split; auto.
  split. { split; [reflexivity|]. split; [reflexivity|]. split; [exact H2|intros d []]. }
  split; [exact H3|split; [exact H4|split; [exact H5|]]]. vm_compute. reflexivity.
Qed.

(** Components that write only to memory of their own. *)
Lemma ex_spares : forall c, In c [hc_kept; hc_grow; hc_kept; hc_fresh] -> spares (state_cells st0) (no_step c).
Proof.
  assert (E1 : spares (state_cells st0) (no_step hc_kept)).
  { intros u h st dt u' h' r H. injection H as _ <- _. apply changed_refl. }
  assert (E2 : spares (state_cells st0) (no_step hc_grow)).
  { intros u h st dt u' h' r H. injection H as _ <- _. apply changed_refl. }
  assert (E3 : spares (state_cells st0) (no_step hc_fresh)).
  { intros u h st dt u' h' r H. unfold no_step, hc_fresh, h_fresh in H.
    destruct (dget "x" st) as [[a|t]|]; [|injection H as _ <- _; apply changed_refl|injection H as _ <- _; apply changed_refl].
    destruct (wf_dab (load h a)); [|injection H as _ <- _; apply changed_refl].
    rewrite alloc_eq in H. pose proof (grown_alloc h (da_map (fun x => amul x (cz 2)) grow_attrs (load h a))) as G.
    destruct (alloc h (da_map (fun x => amul x (cz 2)) grow_attrs (load h a))) as [h1 b]. injection H as _ <- _. apply grown_changed; auto. }
  intros c [<-|[<-|[<-|[<-|[]]]]]; auto.
Qed.

(** ** Leapfrog *)

Definition apart_prog : hicaller (T:=Qc) (dict hda * dict hda) := no_step (h_composite [hc_kept; hc_fresh]).
Definition apart_prog_v : icaller (T:=Qc) (dict (da Qc) * dict (da Qc)) := no_step_v (tendency_composite_call [vc_kept; vc_fresh]).

Lemma apart_prog_apart : stays_apart kept_inv apart_prog apart_prog_v.
Proof.
  apply (main_composite_behaves False kept_inv kept_stable).
  apply Forall2_cons. { apply lift_behaves, kept_behaves. }
  apply Forall2_cons. { apply lift_behaves, fresh_behaves, kept_stable. }
  apply Forall2_nil.
Qed.

Definition st1 : hstate := [("time", HTime 0); ("x", HDA x0); ("y", HDA y0)].
Definition old1 : hstate := [("x", HDA (mkhda ["a"] [3] [3; 4; 5] [("units", "K")])); ("y", HDA y0)].
Definition leap0 : hleap Qc := mkhleap (Q2Qc (1 # 10)) (Q2Qc (1 # 2)) (Some second) (Some old1).

Definition disjointb (l1 l2 : list nat) : bool := forallb (fun c => negb (existsb (Nat.eqb c) l2)) l1.

Lemma disjointb_ok : forall a b, disjointb (h_cells a) (h_cells b) = true -> disjoint a b.
Proof.
  intros a b H c K1 K2. unfold disjointb in H. rewrite forallb_forall in H. specialize (H c K1).
  apply negb_true_iff in H. assert (existsb (Nat.eqb c) (h_cells b) = true); [|congruence].
  apply existsb_exists. exists c. split; auto. apply Nat.eqb_refl.
Qed.

Definition arrays (st : hstate) : list (string * hda) :=
  flat_map (fun kv => match snd kv with HDA a => [(fst kv, a)] | HTime _ => [] end) st.

Lemma In_arrays : forall st k a, In (k, HDA a) st -> In (k, a) (arrays st).
Proof. intros st k a H. unfold arrays. apply in_flat_map. exists (k, HDA a). split; auto. left; auto. Qed.

Fixpoint nodupn (l : list nat) : bool := match l with [] => true | c :: r => negb (existsb (Nat.eqb c) r) && nodupn r end.

Lemma nodupn_ok : forall l, nodupn l = true -> NoDup l.
Proof.
  induction l as [|c l IH]; intros H; constructor; cbn in H; apply andb_true_iff in H as (H1 & H2); auto.
  intros K. apply negb_true_iff in H1. assert (existsb (Nat.eqb c) l = true); [|congruence].
  apply existsb_exists. exists c. split; auto. apply Nat.eqb_refl.
Qed.

Definition from_okb (old st : hstate) : bool :=
  forallb (fun ka => forallb (fun jb => String.eqb (fst ka) (fst jb) || disjointb (h_cells (snd ka)) (h_cells (snd jb))) (arrays old)) (arrays st).

Lemma from_okb_ok : forall old st, from_okb old st = true -> separate_from old st.
Proof.
  intros old st H k j a b Ha Hb Hne. apply disjointb_ok. unfold from_okb in H. rewrite forallb_forall in H.
  specialize (H _ (In_arrays _ _ _ Ha)). rewrite forallb_forall in H. specialize (H _ (In_arrays _ _ _ Hb)). cbn [fst snd] in H.
  apply orb_true_iff in H as [H|H]; auto. apply String.eqb_eq in H. contradiction.
Qed.

Lemma separateb_ok : forall st, nodupb (keys st) && forallb (fun ka => nodupn (h_cells (snd ka))) (arrays st) && from_okb st st = true -> separate st.
Proof.
  intros st H. apply andb_true_iff in H as (H & H3). apply andb_true_iff in H as (H1 & H2).
  split. apply nodupb_ok; auto. split.
  - intros k a Ha. rewrite forallb_forall in H2. apply nodupn_ok. exact (H2 _ (In_arrays _ _ _ Ha)).
  - exact (from_okb_ok st st H3).
Qed.

Lemma state_inb_ok : forall {T} (h : heap T) st, forallb (fun ka => forallb (fun c => c <? length h) (h_cells (snd ka))) (arrays st) = true -> state_in h st.
Proof.
  intros T h st H c (k & a & Ha & K). rewrite forallb_forall in H. specialize (H _ (In_arrays _ _ _ Ha)).
  rewrite forallb_forall in H. apply Nat.ltb_lt. exact (H c K).
Qed.

Lemma ex_leapfrog : stable kept_inv /\ stays_apart kept_inv apart_prog apart_prog_v /\ leap_ready kept_inv mem0 leap0 u0 v0 st1 /\
  (let '((l, u, h), r) := h_leapfrog cfg0 apart_prog (leap0, u0) mem0 st1 second in
   match r with
   | Err _ => false
   | Ok (d, new) =>
       negb (qcs_eqb (firstn 3 h) [1; 2; 3]%Z) && qcs_eqb (firstn 7 (skipn 3 h)) [100; 200; 300; 5; 6; 7; 40]%Z &&
       match dget "x" new, dget "y" new with
       | Some (HDA a), Some (HDA b) => disjointb (h_cells a) (seq 0 10) && nats_eqb (h_cells b) [9]
       | _, _ => false
       end
   end) = true.
Proof.
  split. exact kept_stable. split. exact apart_prog_apart. split.
  - split. { apply u0_kept. intros c (k & a & [E|[E|[E|[]]]] & K); try discriminate E; injection E as <- <-; cbn in K; lia. }
    split. { apply state_inb_ok. reflexivity. }
    split. { apply separateb_ok. reflexivity. }
    split. { apply proper_stateb_ok. vm_compute. reflexivity. }
    split. { apply state_inb_ok. reflexivity. }
    split. { apply from_okb_ok. reflexivity. }
    apply proper_stateb_ok. vm_compute. reflexivity.
  - vm_compute. reflexivity.
Qed.

(** A component that returns an array of the state as a diagnostic: the diagnostic
    is filtered together with the state. *)
Definition values_of (k : string) (d : dict (da Qc)) : list Qc := match dget k d with Some a => data (arr a) | None => [] end.
Definition state_values (k : string) (st : state Qc) : list Qc := match dget k st with Some (VDA a) => data (arr a) | _ => [] end.
Definition same_values (l1 l2 : list Qc) : bool := Nat.eqb (length l1) (length l2) && forallb (fun p => Qc_eqb (fst p) (snd p)) (combine l1 l2).

Lemma same_values_refl : forall l, same_values l l = true.
Proof.
  intros l. unfold same_values. rewrite Nat.eqb_refl. cbn [andb]. induction l as [|x l IH]; auto. cbn [combine forallb fst snd].
  rewrite IH. assert (E : Qc_eqb x x = true) by (apply Qc_eqb_eq; auto). rewrite E. auto.
Qed.

Definition grow_prog : hicaller (T:=Qc) (dict hda * dict hda) := no_step (h_composite [hc_grow]).
Definition grow_prog_v : icaller (T:=Qc) (dict (da Qc) * dict (da Qc)) := no_step_v (tendency_composite_call [vc_grow]).

Lemma grow_prog_behaves : behaves kept_inv grow_prog grow_prog_v.
Proof.
  apply (main_composite_behaves True kept_inv kept_stable). apply Forall2_cons. { apply lift_behaves, grow_behaves. } apply Forall2_nil.
Qed.

Lemma shared_diagnostic :
  exists (prog : hicaller (T:=Qc) (dict hda * dict hda)) vprog cfg h l u v st dt l' u' h' d new vs vst vd vnew,
    behaves kept_inv prog vprog /\ leap_ready kept_inv h l u v st /\
    h_leapfrog cfg prog (l, u) h st dt = ((l', u', h'), Ok (d, new)) /\
    leapfrog cfg vprog (load_leap h l, v) (load_state h st) dt = (vs, vst, Ok (vd, vnew)) /\
    values_of "seen" vd = state_values "x" (load_state h st) /\
    values_of "seen" (load_dict h' d) <> values_of "seen" vd.
Proof.
  exists grow_prog, grow_prog_v, cfg0, mem0, leap0, u0, v0, st1, second.
  assert (H : (let '((l, u, h), r) := h_leapfrog cfg0 grow_prog (leap0, u0) mem0 st1 second in
               let '(vs, vst, vr) := leapfrog cfg0 grow_prog_v (load_leap mem0 leap0, v0) (load_state mem0 st1) second in
               match r, vr with
               | Ok (d, new), Ok (vd, vnew) => qcs_eqb (values_of "seen" vd) [1; 2; 3]%Z && negb (same_values (values_of "seen" (load_dict h d)) (values_of "seen" vd))
               | _, _ => false
               end) = true) by (vm_compute; reflexivity).
  destruct (h_leapfrog cfg0 grow_prog (leap0, u0) mem0 st1 second) as [[[l' u'] h'] [[d new]|e]].
  2: { destruct (leapfrog cfg0 grow_prog_v (load_leap mem0 leap0, v0) (load_state mem0 st1) second) as [[vs vst] vr]. discriminate H. }
  destruct (leapfrog cfg0 grow_prog_v (load_leap mem0 leap0, v0) (load_state mem0 st1) second) as [[vs vst] [[vd vnew]|e]]; [|discriminate H].
  apply andb_true_iff in H as (H1 & H2). exists l', u', h', d, new, vs, vst, vd, vnew.
  split. exact grow_prog_behaves. split. apply ex_leapfrog. split; auto. split; auto. split.
  - unfold qcs_eqb in H1. apply andb_true_iff in H1 as (L & H1). apply Nat.eqb_eq in L.
    destruct (values_of "seen" vd) as [|a [|b [|c [|]]]]; try discriminate L. cbn in H1.
    rewrite !andb_true_iff in H1. destruct H1 as (Ha & Hb & Hc & _). apply Qc_eqb_eq in Ha, Hb, Hc. subst. reflexivity.
  - intros E. rewrite E, same_values_refl in H2. discriminate H2.
Qed.

(** Two quantities of the state sharing one array. *)
Definition st2 : hstate := [("time", HTime 0); ("x", HDA x0); ("w", HDA x0)].
Definition old2 : hstate := [("x", HDA (mkhda ["a"] [3] [3; 4; 5] [("units", "K")])); ("w", HDA (mkhda ["a"] [3] [3; 4; 5] [("units", "K")]))].
Definition leap2 : hleap Qc := mkhleap (Q2Qc (1 # 10)) (Q2Qc (1 # 2)) (Some second) (Some old2).
Definition u2 : dict hda * dict hda := ([("x", kept0); ("w", kept0)], []).
Definition v2 : dict (da Qc) * dict (da Qc) := (load_dict mem0 (fst u2), load_dict mem0 (snd u2)).

Lemma shared_state :
  exists (prog : hicaller (T:=Qc) (dict hda * dict hda)) vprog cfg h l u v st dt l' u' h' d new vs vst vd vnew,
    stays_apart kept_inv prog vprog /\
    (kept_inv (state_cells st) h u v /\ state_in h st /\ proper_state (load_state h st) /\
     exists old, hlf_old l = Some old /\ state_in h old /\ avoids (state_cells old) (state_cells st) /\ proper_state (load_state h old)) /\
    h_leapfrog cfg prog (l, u) h st dt = ((l', u', h'), Ok (d, new)) /\
    leapfrog cfg vprog (load_leap h l, v) (load_state h st) dt = (vs, vst, Ok (vd, vnew)) /\
    state_values "w" (load_state h' st) <> state_values "w" vst /\ state_values "w" (load_state h' new) <> state_values "w" vnew.
Proof.
  exists h_kept, v_kept, (mktstep false "stepper" [] [] []), mem0, leap2, u2, v2, st2, second.
  assert (H : (let '((l, u, h), r) := h_leapfrog (mktstep false "stepper" [] [] []) h_kept (leap2, u2) mem0 st2 second in
               let '(vs, vst, vr) := leapfrog (mktstep false "stepper" [] [] []) v_kept (load_leap mem0 leap2, v2) (load_state mem0 st2) second in
               match r, vr with
               | Ok (d, new), Ok (vd, vnew) => negb (same_values (state_values "w" (load_state h st2)) (state_values "w" vst)) &&
                                               negb (same_values (state_values "w" (load_state h new)) (state_values "w" vnew))
               | _, _ => false
               end) = true) by (vm_compute; reflexivity).
  destruct (h_leapfrog (mktstep false "stepper" [] [] []) h_kept (leap2, u2) mem0 st2 second) as [[[l' u'] h'] [[d new]|e]].
  2: { destruct (leapfrog (mktstep false "stepper" [] [] []) v_kept (load_leap mem0 leap2, v2) (load_state mem0 st2) second) as [[vs vst] vr]. discriminate H. }
  destruct (leapfrog (mktstep false "stepper" [] [] []) v_kept (load_leap mem0 leap2, v2) (load_state mem0 st2) second) as [[vs vst] [[vd vnew]|e]]; [|discriminate H].
  apply andb_true_iff in H as (H1 & H2). exists l', u', h', d, new, vs, vst, vd, vnew.
  split. exact (kept_behaves False). split; [|split; [reflexivity|split; [reflexivity|split]]].
  - assert (Hk : forall c, state_cells st2 c -> c < 3).
    { intros c (k & a & [E|[E|[E|[]]]] & K); try discriminate E; injection E as <- <-; cbn in K; lia. }
    assert (Hu : forall c, cells_of (fst u2) c -> 6 <= c <= 8).
    { intros c (k & a & [E|[E|[]]] & K); injection E as <- <-; cbn in K; lia. }
    split. { split; [reflexivity|]. split. { intros c K. apply Hu in K. change (length mem0) with 10. lia. }
             split. { intros c (k & a & [] & _). } split. { split. apply nodupb_ok; reflexivity. intros k a [E|[E|[]]]; injection E as <- <-; apply wf_dab_ok; vm_compute; reflexivity. }
             split. { apply nodupb_ok; reflexivity. } split. { intros c K1 K2. apply Hu in K1. apply Hk in K2. lia. } intros c (k & a & [] & _). }
    split. { apply state_inb_ok. reflexivity. } split. { apply proper_stateb_ok. vm_compute. reflexivity. }
    exists old2. split; auto. split. { apply state_inb_ok. reflexivity. } split.
    { intros c (k & a & [E|[E|[]]] & K) K2; injection E as <- <-; apply Hk in K2; cbn in K; lia. }
    apply proper_stateb_ok. vm_compute. reflexivity.
  - intros E. rewrite E, same_values_refl in H1. discriminate H1.
  - intros E. rewrite E, same_values_refl in H2. discriminate H2.
Qed.

(** ** ScalingWrapper *)

Definition comp0 : scomp :=
  mkscomp (Some KTendency) [("x", qprops ["a"] "K")] None (Some [("x", qprops ["a"] "K s^-1")]) (Some [("kept", qprops ["a"] "m")]).
Definition w0 : scaling Qc := mkscaling KTendency ["x"] [("x", cz 3)] [] [("x", cz 2)] [("kept", cz 10)].

Lemma ex_scaling_new :
  sc_kind comp0 = Some KTendency /\
  new_scaling comp0 (Some [("x", cz 3)]) None (Some [("x", cz 2)]) (Some [("kept", cz 10)]) = Ok w0 /\
  new_scaling comp0 (Some [("y", cz 3)]) None None None = Err EValue /\
  new_scaling comp0 None (Some [("x", cz 3)]) None None = Err EType.
Proof. repeat (split; [reflexivity|]). reflexivity. Qed.

(** It returns d x/dt = 2 x and 5 x under the name "kept", both new. *)
Definition double (k : Z) (attrs : dict string) (a : da Qc) : da Qc := da_map (fun x => amul x (cz k)) attrs a.

Definition hw_fresh : hwrapped (T:=Qc) unit := fun u h st _ =>
  match dget "x" st with
  | Some (HDA a) =>
      let (h1, b) := alloc h (double 2 grow_attrs (load h a)) in
      let (h2, c) := alloc h1 (double 5 [("units", "m")] (load h a)) in
      ((u, h2), Ok ([("x", HDA b)], [("kept", HDA c)]))
  | _ => ((u, h), Err EKey)
  end.

Lemma separate_one : forall k a, NoDup (h_cells a) -> separate [(k, HDA a)].
Proof.
  intros k a N. split. { constructor; [intros []|constructor]. } split.
  - intros j b [E|[]]. injection E as _ <-. auto.
  - intros j j' b b' [E|[]] [E'|[]] Hne. injection E as <- _. injection E' as <- _. contradiction.
Qed.

Lemma alloc_nodup : forall (h : heap Qc) v, NoDup (h_cells (snd (alloc h v))).
Proof. intros h v. apply seq_NoDup. Qed.

Lemma hw_fresh_answers : fresh_answers hw_fresh.
Proof.
  exists (fun st _ => match dget "x" st with
                      | Some (VDA a) => Ok ([("x", VDA (double 2 grow_attrs a))], [("kept", VDA (double 5 [("units", "m")] a))])
                      | _ => Err EKey
                      end).
  intros u h st dt u' h' r Hin H. unfold hw_fresh in H.
  assert (Eg := dget_load_state h "x" st). destruct (dget "x" st) as [[a|t]|] eqn:E; cbn [option_map load_val] in Eg; rewrite Eg.
  2,3: injection H as <- <- <-; split; [apply grown_refl|split; auto].
  rewrite alloc_eq in H. set (w := double 2 grow_attrs (load h a)) in *.
  pose proof (grown_alloc h w) as G1. pose proof (load_alloc h w) as L1. pose proof (alloc_cells h w) as C1. pose proof (alloc_nodup h w) as N1.
  set (h1 := fst (alloc h w)) in *. set (b := snd (alloc h w)) in *. clearbody h1 b.
  rewrite alloc_eq in H. set (w' := double 5 [("units", "m")] (load h a)) in *.
  pose proof (grown_alloc h1 w') as G2. pose proof (load_alloc h1 w') as L2. pose proof (alloc_cells h1 w') as C2. pose proof (alloc_nodup h1 w') as N2.
  set (h2 := fst (alloc h1 w')) in *. set (d := snd (alloc h1 w')) in *. clearbody h2 d. injection H as <- <- <-.
  pose proof (grown_length _ _ G1) as Lh. pose proof (grown_length _ _ G2) as Lh2.
  split. eapply grown_trans; eauto. split.
  - cbn [load_pair load_state map fst snd load_val]. rewrite (load_grown h1 h2 b G2), L1, L2; auto.
    intros c K. apply C1 in K. lia.
  - split. apply separate_one; auto. split. apply separate_one; auto. split.
    + intros c (k & z & [E1|[]] & K) (k' & z' & [E2|[]] & K'). injection E1 as <- <-. injection E2 as <- <-. apply C1 in K. apply C2 in K'. lia.
    + intros c [(k & z & [E1|[]] & K)|(k & z & [E1|[]] & K)]; injection E1 as <- <-. apply C1 in K. lia. apply C2 in K. lia.
Qed.

Definition sorted_ok (r : res (hstate * hstate)) (f : hstate -> hstate -> bool) : bool :=
  match r with Ok (o1, o2) => f o1 o2 | Err _ => false end.

Definition held (h : heap Qc) (k : string) (st : hstate) : list Qc := state_values k (load_state h st).

Lemma st1_in : state_in mem0 st1.
Proof. apply state_inb_ok. reflexivity. Qed.

Lemma ex_scaling_call :
  state_in mem0 st1 /\ fresh_answers hw_fresh /\ NoDup (keys (first_factors w0)) /\ NoDup (keys (second_factors w0)) /\
  (let '((u, h), r) := scaling_call w0 hw_fresh tt mem0 st1 None in
   sorted_ok r (fun o1 o2 => qcs_eqb (held h "x" o1) [12; 24; 36]%Z && qcs_eqb (held h "kept" o2) [150; 300; 450]%Z &&
                             qcs_eqb (firstn 10 h) [1; 2; 3; 100; 200; 300; 5; 6; 7; 40]%Z)) = true /\
  (exists k, In k (sw_inp w0) /\ dget k [("time", HTime 0)] = None) /\
  (forall k, In k (sw_inp w0) -> match dget k st1 with None => False | Some (HTime _) => dget k (sw_in w0) = None | Some (HDA _) => True end) /\
  (takes_step w0 = true -> (None : option Z) <> None).
Proof.
  split. exact st1_in. split. exact hw_fresh_answers. split. apply nodupb_ok; reflexivity. split. apply nodupb_ok; reflexivity.
  split. vm_compute. reflexivity. split. { exists "x". split; [left|]; reflexivity. }
  split. { intros k [<-|[]]. cbn. exact Logic.I. } discriminate.
Qed.

(** A component whose two outputs share an array, like a constant component given
    one array twice: scaling the first changes the second. *)
Definition w_first : scaling Qc := mkscaling KTendency ["x"] [] [] [("x", cz 2)] [].
Definition h_twice : hwrapped (T:=Qc) unit := h_constant [("x", kept0)] [("kept", kept0)].

Lemma shared_output :
  exists (w : scaling Qc) (comp : hwrapped (T:=Qc) unit) u h st dt u' h1 h' o1 o2 k a,
    state_in h st /\ (forall sst, comp u h sst (passed w dt) = ((u', h1), Ok (o1, o2))) /\
    scaling_call w comp u h st dt = ((u', h'), Ok (o1, o2)) /\
    dget k (second_factors w) = None /\ dget k o2 = Some (HDA a) /\ load h' a <> load h1 a.
Proof.
  destruct (scaling_call w_first h_twice tt mem0 st1 None) as [[u' h'] r] eqn:E.
  assert (Hv : r = Ok ([("x", HDA kept0)], [("kept", HDA kept0)]) /\ h' = snd (fst (scaling_call w_first h_twice tt mem0 st1 None))).
  { split; [|rewrite E; reflexivity]. apply (f_equal snd) in E. exact (eq_sym E). }
  destruct Hv as (-> & Hh). assert (u' = tt) by (destruct u'; auto). subst u'.
  exists w_first, h_twice, tt, mem0, st1, None, tt, mem0, h', [("x", HDA kept0)], [("kept", HDA kept0)], "kept", kept0.
  split. exact st1_in. split. { intros sst. reflexivity. } split; auto. split; auto. split; auto.
  intros K. apply (f_equal (fun a : da Qc => qcs_eqb (data (arr a)) [5; 6; 7]%Z)) in K. rewrite Hh in K. vm_compute in K. discriminate K.
Qed.

(** Repeated calls of a wrapped constant component. *)
Lemma scaled_again :
  exists (w : scaling Qc) (comp : hwrapped (T:=Qc) unit) u h st dt u1 h1 u2 h2 o1 o2 a,
    state_in h st /\ separate o1 /\
    scaling_call w comp u h st dt = ((u1, h1), Ok (o1, o2)) /\ scaling_call w comp u1 h1 st dt = ((u2, h2), Ok (o1, o2)) /\
    (forall h sst dt, comp u h sst dt = ((u, h), Ok (o1, o2))) /\
    dget "x" o1 = Some (HDA a) /\ load_state h1 st = load_state h st /\
    load h1 a <> load h a /\ load h2 a <> load h1 a.
Proof.
  set (comp := h_constant (T:=Qc) [("x", kept0)] []).
  destruct (scaling_call w_first comp tt mem0 st1 None) as [[u1 h1] r1] eqn:E1.
  assert (Hv : r1 = Ok ([("x", HDA kept0)], []) /\ h1 = snd (fst (scaling_call w_first comp tt mem0 st1 None))).
  { split; [|rewrite E1; reflexivity]. apply (f_equal snd) in E1. exact (eq_sym E1). }
  destruct Hv as (-> & Hh). assert (u1 = tt) by (destruct u1; auto). subst u1.
  destruct (scaling_call w_first comp tt h1 st1 None) as [[u2 h2] r2] eqn:E2.
  assert (Hv : r2 = Ok ([("x", HDA kept0)], []) /\ h2 = snd (fst (scaling_call w_first comp tt h1 st1 None))).
  { split; [|rewrite E2; reflexivity]. apply (f_equal snd) in E2. exact (eq_sym E2). }
  destruct Hv as (-> & Hh2). assert (u2 = tt) by (destruct u2; auto). subst u2.
  exists w_first, comp, tt, mem0, st1, None, tt, h1, tt, h2, [("x", HDA kept0)], [], kept0.
  split. exact st1_in. split. { apply separate_one. apply nodupn_ok. reflexivity. }
  split; auto. split; auto. split. { intros. reflexivity. } split; auto. split.
  { rewrite Hh. reflexivity. }
  assert (V : qcs_eqb (data (arr (load mem0 kept0))) [5; 6; 7]%Z = true) by (vm_compute; reflexivity).
  assert (V1 : qcs_eqb (data (arr (load h1 kept0))) [10; 12; 14]%Z = true) by (rewrite Hh; vm_compute; reflexivity).
  assert (V2 : qcs_eqb (data (arr (load h2 kept0))) [20; 24; 28]%Z = true) by (rewrite Hh2, Hh; vm_compute; reflexivity).
  split; intros K.
  - rewrite K in V1. vm_compute in V1. discriminate V1.
  - rewrite K in V2. rewrite Hh in V2. vm_compute in V2. discriminate V2.
Qed.

(** A component that returns an array of the state it is given. *)
Definition hw_view : hwrapped (T:=Qc) unit := fun u h st _ =>
  ((u, h), match dget "x" st with Some a => Ok ([("x", a)], []) | None => Err EKey end).

Lemma scaled_state_changed :
  exists (w : scaling Qc) (comp : hwrapped (T:=Qc) unit) u h st dt u' h' o1 o2,
    state_in h st /\ (forall u h sst dt, snd (fst (comp u h sst dt)) = h) /\
    scaling_call w comp u h st dt = ((u', h'), Ok (o1, o2)) /\ load_state h' st <> load_state h st.
Proof.
  destruct (scaling_call w_first hw_view tt mem0 st1 None) as [[u' h'] r] eqn:E.
  assert (Hv : r = Ok ([("x", HDA x0)], []) /\ h' = snd (fst (scaling_call w_first hw_view tt mem0 st1 None))).
  { split; [|rewrite E; reflexivity]. apply (f_equal snd) in E. exact (eq_sym E). }
  destruct Hv as (-> & Hh).
  exists w_first, hw_view, tt, mem0, st1, None, u', h', [("x", HDA x0)], [].
  split. exact st1_in. split. { intros u h sst dt. reflexivity. } split; auto.
  intros K. apply (f_equal (fun st => qcs_eqb (state_values "x" st) [1; 2; 3]%Z)) in K. rewrite Hh in K. vm_compute in K. discriminate K.
Qed.

(** A component with tracers: it can be called on the state, but not through a
    ScalingWrapper without any factor. *)
Definition g_q : treg := mktreg [("y", "m")] ["y"] [].
Definition p_q : packer := mkpacker [] ["tracer"; "b"] [].
Definition w_none : scaling Qc := mkscaling KTendency ["x"] [] [] [] [].

Definition is_okb {B} (r : res B) : bool := match r with Ok _ => true | Err _ => false end.
Definition is_keyb {B} (r : res B) : bool := match r with Err EKey => true | _ => false end.

Lemma ex_tracers_lost :
  let inp := [("x", qprops ["a"] "K")] in
  let (h1, r) := scaled_state w_none mem0 st1 in
  exists sst, r = Ok sst /\ state_in mem0 st1 /\ sw_inp w_none = keys inp /\ In "y" (tracer_names g_q p_q) /\ ~ In "y" (keys inp) /\
    is_okb (raw_state g_q inp (Some p_q) (load_state mem0 st1)) = true /\
    is_keyb (raw_state g_q inp (Some p_q) (load_state h1 sst)) = true.
Proof.
  cbv zeta. destruct (scaled_state w_none mem0 st1) as [h1 r] eqn:E.
  assert (Hr : r = Ok [("time", HTime 0); ("x", HDA x0)]) by (apply (f_equal snd) in E; exact (eq_sym E)).
  assert (Hh : h1 = mem0) by (apply (f_equal fst) in E; exact (eq_sym E)). subst.
  eexists. split. reflexivity. split. exact st1_in. split. reflexivity. split. { left. reflexivity. }
  split. { intros [K|[]]; discriminate K. } split; vm_compute; reflexivity.
Qed.

Lemma tracers_lost :
  exists (w : scaling Qc) (inp : pdict) (g : treg) (p : packer) h st h1 sst raw,
    sw_inp w = keys inp /\ (sw_in w, sw_out w, sw_tend w, sw_diag w) = ([], [], [], []) /\
    raw_state g inp (Some p) (load_state h st) = Ok raw /\
    scaled_state w h st = (h1, Ok sst) /\ raw_state g inp (Some p) (load_state h1 sst) = Err EKey.
Proof.
  pose proof ex_tracers_lost as H. cbv zeta in H. destruct (scaled_state w_none mem0 st1) as [h1 r] eqn:E.
  destruct H as (sst & -> & _ & _ & _ & _ & H1 & H2).
  destruct (raw_state g_q _ (Some p_q) (load_state mem0 st1)) as [raw|e] eqn:Er; [|discriminate H1].
  exists w_none, [("x", qprops ["a"] "K")], g_q, p_q, mem0, st1, h1, sst, raw.
  repeat (split; [auto; fail|]).
  destruct (raw_state g_q _ (Some p_q) (load_state h1 sst)) as [|[]]; try discriminate H2; auto.
Qed.
