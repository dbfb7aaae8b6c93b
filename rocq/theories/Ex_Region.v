(** Concrete cases for the property theorems about parts of a grid (C98). *)
From Coq Require Import String List Bool Arith ZArith QArith Qcanon Lia.
From Verif Require Import Prelude PreludeFacts ArithM NdArray NdFacts Units DataArrayM SpecDa DaFacts
  Wildcard GetNp SpecArrays Restore SpecUnits ExampleRegistry Checks Tracers Components SpecComponents SpecCalls
  SpecColumns ColumnsFacts ColumnsMain Ex_Components Ex_Columns Composite Steppers MainLoop LeapLoop SpecRegion RegionFacts RegionMain RegionCalls.
Import ListNotations.
Open Scope string_scope.
Open Scope nat_scope.
Open Scope list_scope.

#[local] Existing Instance ex_registry | 5.

(** ** Cutting a DataArray *)
Definition ix_of (es : list string) (idx : list nat) (d : string) : nat := match dget d (combine es idx) with Some i => i | None => 0 end.
Definition cut_da {T} {A : Arith T} (g : cut) (es : list string) (ns : list nat) (a : da T) : da T :=
  mkda es (build ns (fun idx => da_at a (spot g (ix_of es idx)))) (attrs a).

Definition cutb (g : cut) (wholeb : string -> bool) (es : list string) (ns sh : list nat) (ds : list string) : bool :=
  forallb (fun d => mem d ds && match fixed g d with None => true | Some _ => false end) es &&
  forallb (fun x => let '(d, n) := x in
                    match fixed g d with
                    | Some i => i <? n
                    | None => match dget d (combine es ns) with
                              | Some m => forallb (fun i => pick g d i <? n) (seq 0 m) && (negb (wholeb d) || (n =? m))
                              | None => false
                              end
                    end) (combine ds sh).

Lemma ix_of_map : forall p es d, In d es -> ix_of es (map p es) d = p d.
Proof.
  intros p es d H. unfold ix_of. induction es as [|x es IH]; [destruct H|]. cbn. destruct (String.eqb d x) eqn:E; [apply String.eqb_eq in E; congruence|].
  apply IH. destruct H as [->|H]; [rewrite String.eqb_refl in E; discriminate|exact H].
Qed.

Lemma dget_in_combine : forall (ds : list string) (sh : list nat) d n, dget d (combine ds sh) = Some n -> In (d, n) (combine ds sh).
Proof. intros ds sh d n H. exact (dget_In _ _ _ H). Qed.

Lemma grid_range : forall {T} (a : da T) p, length (dims a) = length (shape (arr a)) -> NoDup (dims a) -> in_grid a p -> in_range (map p (dims a)) (shape (arr a)).
Proof.
  intros T [ds [sh dat] at'] p Hl Hn H. unfold in_grid, dim_len in H. cbn in *. clear dat at'. revert sh Hl H.
  induction Hn as [|d ds Hd Hn IH]; intros [|n sh] Hl H; try discriminate Hl; [constructor|]. cbn. constructor.
  - apply H. cbn. rewrite String.eqb_refl. reflexivity.
  - apply IH; [cbn in Hl; lia|]. intros e m E. apply H. cbn. destruct (String.eqb e d) eqn:Ed; [|exact E]. apply String.eqb_eq in Ed. subst e.
    exfalso. apply Hd. assert (K : In d (keys (combine ds sh))) by (eapply dget_In_keys; exact E). unfold keys in K. apply in_map_iff in K as ([u v] & <- & K). exact (in_combine_l _ _ _ _ K).
Qed.

Lemma cut_part : forall {T} {A : Arith T} g wholeb es ns (a : da T), (forall d, whole g d -> wholeb d = true) -> (ordered g -> dims a = es) ->
  wf_dab a && negb (mem "*" (dims a)) = true ->
  nodupb es && Nat.eqb (length ns) (length es) && cutb g wholeb es ns (shape (arr a)) (dims a) = true -> part_of g a (cut_da g es ns a).
Proof.
  intros T A g wholeb es ns a Hw Ho H1 H2. apply andb_true_iff in H1 as (H1 & H3). apply wf_dab_ok in H1. apply andb_true_iff in H2 as (H2 & H4). apply andb_true_iff in H2 as (H0 & H2).
  apply Nat.eqb_eq in H2. apply nodupb_ok in H0. apply negb_true_iff, mem_false in H3. apply andb_true_iff in H4 as (H4 & H5). rewrite forallb_forall in H4, H5.
  assert (W : wf_da (cut_da g es ns a)) by (split; [cbn; symmetry; exact H2|]; split; [exact H0|apply wf_build]).
  assert (Hl : forall d n, dim_len a d = Some n -> match fixed g d with Some i => i < n | None => exists m, dget d (combine es ns) = Some m /\ (forall i, i < m -> pick g d i < n) /\ (whole g d -> n = m) end).
  { intros d n X. specialize (H5 _ (dget_in_combine _ _ _ _ X)). cbn in H5. destruct (fixed g d); [apply Nat.ltb_lt; exact H5|].
    destruct (dget d (combine es ns)) as [m|]; [|discriminate H5]. exists m. apply andb_true_iff in H5 as (H5 & H6). split; [reflexivity|]. split.
    - intros i Hi. rewrite forallb_forall in H5. apply Nat.ltb_lt, H5, in_seq. lia.
    - intro Hd. rewrite (Hw d Hd) in H6. cbn in H6. apply Nat.eqb_eq in H6. exact H6. }
  assert (Hd : forall d, In d es <-> In d (dims a) /\ fixed g d = None).
  { intro d. split.
    - intro X. specialize (H4 _ X). apply andb_true_iff in H4 as (X1 & X2). split; [apply mem_In; exact X1|]. destruct (fixed g d); [discriminate X2|reflexivity].
    - intros (X & Y). apply (dim_len_In a d H1) in X as (n & X). specialize (Hl d n X). rewrite Y in Hl. destruct Hl as (m & E & _). apply dget_in_combine in E. exact (in_combine_l _ _ _ _ E). }
  split; [exact H1|]. split; [exact W|]. split; [exact H3|]. split; [reflexivity|]. split; [exact Hd|]. split; [exact Ho|]. split; [|split].
  - intros d n i X Y. specialize (Hl d n X). rewrite Y in Hl. exact Hl.
  - intros d n m X Y. specialize (Hl d n X). assert (F : fixed g d = None) by (apply Hd; apply (dim_len_In _ d W); eauto). rewrite F in Hl. destruct Hl as (m' & E & K).
    unfold dim_len in Y. cbn [cut_da dims arr build shape] in Y. rewrite E in Y. injection Y as <-. exact K.
  - intros p Hp. unfold da_at at 2. cbn [cut_da dims arr]. rewrite at_build.
    + apply da_at_agree. intros d X. unfold spot. destruct (fixed g d) eqn:F; [reflexivity|]. f_equal. symmetry. apply ix_of_map. apply Hd. auto.
    + exact (grid_range (cut_da g es ns a) p (proj1 W) (proj1 (proj2 W)) Hp).
Qed.

(** ** A component that heats columns *)
Definition tend_r : pdict := [ ("T", mkprops None false (Some "K s^-1") None false) ].
Definition diag_r : pdict := [ ("column", qprops ["*"] "m s^-1 K") ].

Definition ac_r (u : nat) (raw : dict (rval Qc)) (dt : Z) : nat * res (dict (nd Qc) * dict (nd Qc)) :=
  (S u, let o := column_outputs raw in Ok (ddel "column" o, ddel "t" o)).

Definition c_r : tcomp := mktcomp true inp_l tend_r diag_r "heat" false [] None "s^-1".
Definition prog_r : icaller (T:=Qc) nat := fun u st dt => tendency_call empty_treg c_r (fun u raw => ac_r u raw dt) u st.
Definition cfg_r : tstep := mktstep true "step" inp_l diag_r [("T", qprops ["z"; "*"] "K")].

Lemma columnwise_sub : forall (inp outp outp' : pdict) (f f' : dict (rval Qc) -> dict (nd Qc) -> Prop), columnwise inp outp f ->
  (forall name ds, declared_dims outp' inp name ds -> declared_dims outp inp name ds /\ out_key outp' inp name = out_key outp inp name) ->
  (forall raw out', f' raw out' -> exists out, f raw out /\ forall name ds, declared_dims outp' inp name ds -> dget (out_key outp inp name) out' = dget (out_key outp inp name) out) ->
  columnwise inp outp' f'.
Proof.
  intros inp outp outp' f f' H Hd Hf lens1 lens2 raw1 raw2 out1 out2 F1 F2 G1 G2 Hl.
  destruct (Hf _ _ F1) as (o1 & X1 & Y1). destruct (Hf _ _ F2) as (o2 & X2 & Y2).
  destruct (H lens1 lens2 raw1 raw2 o1 o2 X1 X2 G1 G2 Hl) as (m1 & m2 & (R1 & R1') & (R2 & R2') & M & V). exists m1, m2.
  split. { split; [exact R1|]. intros name ds a D E. destruct (Hd name ds D) as (D' & K). rewrite K, (Y1 name ds D) in E. eauto. }
  split. { split; [exact R2|]. intros name ds a D E. destruct (Hd name ds D) as (D' & K). rewrite K, (Y2 name ds D) in E. eauto. }
  split; [exact M|]. intros j1 j2 J1 J2 S name ds a1 a2 D E1 E2. destruct (Hd name ds D) as (D' & K). rewrite K, (Y1 name ds D) in E1. rewrite K, (Y2 name ds D) in E2. eauto.
Qed.

Lemma declared_rt : forall name ds, declared_dims tend_r inp_l name ds -> name = "T" /\ ds = ["z"; "*"].
Proof.
  intros name ds (p & Hp & Hd). unfold tend_r in Hp. cbn [dget] in Hp. destruct (String.eqb name "T") eqn:E2; [|discriminate]. apply String.eqb_eq in E2. subst name. injection Hp as <-.
  split; auto. cbn in Hd. destruct Hd as [E|(_ & q & Hq & E)]; [discriminate|]. injection Hq as <-. cbn in E. congruence.
Qed.

Lemma declared_rd : forall name ds, declared_dims diag_r inp_l name ds -> name = "column" /\ ds = ["*"].
Proof.
  intros name ds (p & Hp & Hd). unfold diag_r in Hp. cbn [dget] in Hp. destruct (String.eqb name "column") eqn:E2; [|discriminate]. apply String.eqb_eq in E2. subst name. injection Hp as <-.
  split; auto. cbn in Hd. destruct Hd as [E|(E & _)]; congruence.
Qed.

Lemma has_T : declared_dims out_l inp_l "T" ["z"; "*"].
Proof. eexists. split; [reflexivity|]. right. split; [reflexivity|]. eexists. split; reflexivity. Qed.
Lemma has_column : declared_dims out_l inp_l "column" ["*"].
Proof. eexists. split; [reflexivity|]. left. reflexivity. Qed.

Lemma columnwise_rt : forall u dt, columnwise inp_l tend_r (fun raw out => exists v d, ac_r u raw dt = (v, Ok (out, d))).
Proof.
  intros u dt. apply (columnwise_sub inp_l out_l tend_r (fun raw out => out = column_outputs raw)); [apply columnwise_l; auto| |].
  - intros name ds H. apply declared_rt in H as (-> & ->). split; [exact has_T|reflexivity].
  - intros raw out' (v & d & E). exists (column_outputs raw). split; [reflexivity|]. intros name ds H. apply declared_rt in H as (-> & ->). injection E as _ <- _. reflexivity.
Qed.

Lemma columnwise_rd : forall u dt, columnwise inp_l diag_r (fun raw out => exists v t, ac_r u raw dt = (v, Ok (t, out))).
Proof.
  intros u dt. apply (columnwise_sub inp_l out_l diag_r (fun raw out => out = column_outputs raw)); [apply columnwise_l; auto| |].
  - intros name ds H. apply declared_rd in H as (-> & ->). split; [exact has_column|reflexivity].
  - intros raw out' (v & t & E). exists (column_outputs raw). split; [reflexivity|]. intros name ds H. apply declared_rd in H as (-> & ->). injection E as _ _ <-. reflexivity.
Qed.

(** The columns with x = 1 and y = 1, 2. *)
Definition g_r : cut :=
  mkcut (fun d i => if String.eqb d "x" then S i else if String.eqb d "y" then S i else i) (fun _ => None) True (fun d => d = "z") (fun name _ => name = "T").

Definition st_r : state Qc := st_l1.
Definition st_p : state Qc :=
  [ ("time", VTime 0%Z);
    ("T", VDA (cut_da g_r ["x"; "z"; "y"] [1; 4; 2] (mkda ["x"; "z"; "y"] (build [2; 4; 3] (fun i => temp_at (ix i 0) (ix i 2) (ix i 1))) [("units", "K")])));
    ("wind", VDA (cut_da g_r ["y"; "x"] [2; 1] (mkda ["y"; "x"] (build [3; 2] (fun i => wind_at (ix i 1) (ix i 0))) [("units", "km s^-1")]))) ].

Lemma r_part : part_state g_r st_r st_p.
Proof.
  assert (Hw : forall d, whole g_r d -> String.eqb d "z" = true) by (intros d ->; reflexivity).
  constructor; [split; reflexivity|]. constructor; [|constructor; [|constructor]]; (split; [reflexivity|]); cbn [fst snd part_value]; split; try discriminate; split.
  - apply (cut_part g_r (fun d => String.eqb d "z")); [exact Hw|reflexivity|vm_compute; reflexivity|vm_compute; reflexivity].
  - intros d _ _. reflexivity.
  - apply (cut_part g_r (fun d => String.eqb d "z")); [exact Hw|reflexivity|vm_compute; reflexivity|vm_compute; reflexivity].
  - intros d [<-|[<-|[]]] X; discriminate X.
Qed.

Lemma heat_setting : forall g, whole g = (fun d => d = "z") -> may g = (fun name _ => name = "T") -> fixed g "z" = None -> (forall i, pick g "z" i = i) -> whole_kept g /\
  t_packer c_r = None /\ proper_inputs (t_inp c_r) /\
  NoDup (keys (t_tend c_r)) /\ stars_ok (t_tend c_r) (t_inp c_r) /\ NoDup (keys (t_diag c_r)) /\ stars_ok (t_diag c_r) (t_inp c_r) /\
  column_physics g (t_inp c_r) (t_tend c_r) /\ may_output g (t_inp c_r) (t_tend c_r) /\ ~ In "time" (keys (t_tend c_r)) /\ column_physics g (t_inp c_r) (t_diag c_r) /\
  (forall u dt, columnwise (t_inp c_r) (t_tend c_r) (fun raw out => exists v d, ac_r u raw dt = (v, Ok (out, d)))) /\
  (forall u dt, columnwise (t_inp c_r) (t_diag c_r) (fun raw out => exists v t, ac_r u raw dt = (v, Ok (t, out)))) /\
  (forall u raw dt v t d, ac_r u raw dt = (v, Ok (t, d)) -> forall k a, In (k, a) t \/ In (k, a) d -> wf_nd a) /\
  (forall u raw raw' dt, fst (ac_r u raw dt) = fst (ac_r u raw' dt)).
Proof.
  intros g Hw Hm Hf Hp. destruct g as [pk fx od wh my]. cbn [whole may fixed pick] in Hw, Hm, Hf, Hp. subst wh my.
  assert (Cp : (forall d, input_dim inp_l d -> d <> "*" -> d = "z") /\ (forall name p ds d, In (name, p) inp_l -> p_dims p = Some ds -> d = "z" -> name = "T" -> In d ds)).
  { split.
    - intros d H N. apply input_dim_l in H as [-> | ->]; [reflexivity|congruence].
    - intros name p ds d [E|[E|[]]] Hd Hw Hm; injection E as <- <-; cbn in Hd; injection Hd as <-; cbn in Hw, Hm; [subst d; left; reflexivity|discriminate Hm]. }
  split; [intros d Hd; cbn in Hd; subst d; split; [exact Hf|exact Hp]|]. split; [reflexivity|]. split; [apply proper_inputsb_ok; reflexivity|].
  split; [apply nodupb_ok; reflexivity|]. split; [apply stars_okb_ok; reflexivity|]. split; [apply nodupb_ok; reflexivity|]. split; [apply stars_okb_ok; reflexivity|].
  split. { split; [apply Cp|]. split; [apply Cp|]. intros name ds H. apply declared_rt in H as (_ & ->). split; [apply nodupb_ok; reflexivity|]. split; [cbn; auto|]. intros d [<-|[<-|[]]] _; apply input_dim_l; auto. }
  split. { intros name ds d H _ _. apply declared_rt in H as (-> & _). reflexivity. }
  split. { intros [E|[]]. discriminate E. }
  split. { split; [apply Cp|]. split; [apply Cp|]. intros name ds H. apply declared_rd in H as (_ & ->). split; [apply nodupb_ok; reflexivity|]. split; [cbn; auto|]. intros d [<-|[]] _; apply input_dim_l; auto. }
  split; [exact columnwise_rt|]. split; [exact columnwise_rd|]. split; [|reflexivity].
  intros u raw dt v t d E k a H. injection E as _ <- <-. cbn in H. destruct H as [[H|[]]|[H|[]]]; injection H as _ <-; apply wf_build.
Qed.

Lemma r_setting : whole_kept g_r /\
  t_packer c_r = None /\ proper_inputs (t_inp c_r) /\
  NoDup (keys (t_tend c_r)) /\ stars_ok (t_tend c_r) (t_inp c_r) /\ NoDup (keys (t_diag c_r)) /\ stars_ok (t_diag c_r) (t_inp c_r) /\
  column_physics g_r (t_inp c_r) (t_tend c_r) /\ may_output g_r (t_inp c_r) (t_tend c_r) /\ ~ In "time" (keys (t_tend c_r)) /\ column_physics g_r (t_inp c_r) (t_diag c_r) /\
  (forall u dt, columnwise (t_inp c_r) (t_tend c_r) (fun raw out => exists v d, ac_r u raw dt = (v, Ok (out, d)))) /\
  (forall u dt, columnwise (t_inp c_r) (t_diag c_r) (fun raw out => exists v t, ac_r u raw dt = (v, Ok (t, out)))) /\
  (forall u raw dt v t d, ac_r u raw dt = (v, Ok (t, d)) -> forall k a, In (k, a) t \/ In (k, a) d -> wf_nd a) /\
  (forall u raw raw' dt, fst (ac_r u raw dt) = fst (ac_r u raw' dt)).
Proof. apply heat_setting; reflexivity. Qed.

Lemma r_local : local g_r eq prog_r prog_r.
Proof.
  destruct r_setting as (H0 & H1 & H2 & H3 & H4 & H5 & H6 & H7 & H8 & H9 & H10 & H11 & H12 & H13 & H14).
  exact (region_component g_r H0 empty_treg c_r ac_r H1 H2 H3 H4 H5 H6 H7 H8 H9 H10 H11 H12 H13 H14).
Qed.

(** ** Runs *)
Fixpoint calls {U X} (call : U -> state Qc -> Z -> U * res X) (u : U) (l : list (state Qc * Z)) : option (list (state Qc * Z * X)) :=
  match l with
  | [] => Some []
  | (st, dt) :: l => match call u st dt with
                     | (u', Ok x) => match calls call u' l with Some log => Some ((st, dt, x) :: log) | None => None end
                     | (_, Err _) => None
                     end
  end.

Lemma calls_ok : forall {U X} (call : U -> state Qc -> Z -> U * res X) l u log, calls call u l = Some log -> returned call u log /\ map fst log = l.
Proof.
  intros U X call. induction l as [|[st dt] l IH]; intros u log H; cbn [calls] in H.
  - injection H as <-. split; [exact I|reflexivity].
  - destruct (call u st dt) as [u' [x|]] eqn:E; [|discriminate H]. destruct (calls call u' l) as [log'|] eqn:E'; [|discriminate H]. injection H as <-.
    destruct (IH _ _ E') as (K1 & K2). split; [exists u'; auto|]. cbn. rewrite K2. reflexivity.
Qed.

Definition sec_r : Z := 1000000.
Definition both_r : list (icaller (T:=Qc) nat + caller (T:=Qc) nat) := [inl prog_r; inr (fun u st => prog_r u st 0%Z)].
Definition prog2_r : icaller (T:=Qc) nat := fun u st dt => implicit_composite_call both_r dt u st.

Lemma both_local : Forall2 (fun c c' => match c, c' with
    | inl p, inl q => local g_r eq p q
    | inr p, inr q => local_call g_r eq p q
    | _, _ => False
    end) both_r both_r.
Proof.
  constructor; [exact r_local|]. constructor; [|constructor]. intros u v st st' dt u' v' t d t' d' H1 H2 H3 H4. exact (r_local u v st st' 0%Z u' v' t d t' d' H1 H2 H3 H4).
Qed.

Lemma r_local2 : local g_r eq prog2_r prog2_r.
Proof. exact (region_composite g_r eq both_r both_r both_local). Qed.

Lemma r_case : forall {S X} (call : S -> state Qc -> Z -> S * res X) s log log',
  calls call s [(st_r, sec_r); (st_r, sec_r)] = Some log -> calls call s [(st_p, sec_r); (st_p, sec_r)] = Some log' ->
  returned call s log /\ returned call s log' /\ length log = 2 /\
  Forall2 (fun x y => part_state g_r (fst (fst x)) (fst (fst y)) /\ snd (fst x) = snd (fst y)) log log'.
Proof.
  intros S X call s log log' H H'. apply calls_ok in H as (H1 & H2). apply calls_ok in H' as (H1' & H2'). split; [exact H1|]. split; [exact H1'|].
  split. { rewrite <- (map_length fst), H2. reflexivity. }
  assert (K : Forall2 (fun x y : state Qc * Z => part_state g_r (fst x) (fst y) /\ snd x = snd y) (map fst log) (map fst log')).
  { rewrite H2, H2'. repeat (constructor; [split; [exact r_part|reflexivity]|]). constructor. }
  clear -K. revert log' K. induction log as [|x log IH]; intros [|y log'] K; cbn in K; inversion K; subst; constructor; auto.
Qed.

Definition isSome {X} (x : option X) : bool := match x with Some _ => true | None => false end.

Lemma r_ab_case : exists a0 log log', new_ab (T:=Qc) (OInt 2) = Ok a0 /\ returned (adams_bashforth cfg_r prog2_r) (a0, 0) log /\ returned (adams_bashforth cfg_r prog2_r) (a0, 0) log' /\ length log = 2 /\
  Forall2 (fun x y => part_state g_r (fst (fst x)) (fst (fst y)) /\ snd (fst x) = snd (fst y)) log log'.
Proof.
  assert (E : isSome (calls (adams_bashforth cfg_r prog2_r) (mkab 2 None [], 0) [(st_r, sec_r); (st_r, sec_r)]) && isSome (calls (adams_bashforth cfg_r prog2_r) (mkab 2 None [], 0) [(st_p, sec_r); (st_p, sec_r)]) = true) by (vm_compute; reflexivity).
  exists (mkab 2 None []). destruct (calls _ _ [(st_r, sec_r); (st_r, sec_r)]) as [log|] eqn:E1; [|discriminate E]. destruct (calls _ _ [(st_p, sec_r); (st_p, sec_r)]) as [log'|] eqn:E2; [|discriminate E].
  exists log, log'. split; [reflexivity|]. exact (r_case _ _ _ _ E1 E2).
Qed.

Lemma r_rk_case : exists k0 log log', new_rk (T:=Qc) 3 = Ok k0 /\ returned (ssp_rk cfg_r prog2_r) (k0, 0) log /\ returned (ssp_rk cfg_r prog2_r) (k0, 0) log' /\ length log = 2 /\
  Forall2 (fun x y => part_state g_r (fst (fst x)) (fst (fst y)) /\ snd (fst x) = snd (fst y)) log log'.
Proof.
  assert (E : isSome (calls (ssp_rk cfg_r prog2_r) (mkrk 3 (mkab 1 None []), 0) [(st_r, sec_r); (st_r, sec_r)]) && isSome (calls (ssp_rk cfg_r prog2_r) (mkrk 3 (mkab 1 None []), 0) [(st_p, sec_r); (st_p, sec_r)]) = true) by (vm_compute; reflexivity).
  exists (mkrk 3 (mkab 1 None [])). destruct (calls _ _ [(st_r, sec_r); (st_r, sec_r)]) as [log|] eqn:E1; [|discriminate E]. destruct (calls _ _ [(st_p, sec_r); (st_p, sec_r)]) as [log'|] eqn:E2; [|discriminate E].
  exists log, log'. split; [reflexivity|]. exact (r_case _ _ _ _ E1 E2).
Qed.

Lemma r_leap_case : exists log log', returned (with_filtered cfg_r prog2_r) (new_leap (Q2Qc (1 # 20)) (Q2Qc (1 # 2)), 0) log /\
  returned (with_filtered cfg_r prog2_r) (new_leap (Q2Qc (1 # 20)) (Q2Qc (1 # 2)), 0) log' /\ length log = 2 /\
  Forall2 (fun x y => part_state g_r (fst (fst x)) (fst (fst y)) /\ snd (fst x) = snd (fst y)) log log'.
Proof.
  assert (E : isSome (calls (with_filtered cfg_r prog2_r) (new_leap (Q2Qc (1 # 20)) (Q2Qc (1 # 2)), 0) [(st_r, sec_r); (st_r, sec_r)]) && isSome (calls (with_filtered cfg_r prog2_r) (new_leap (Q2Qc (1 # 20)) (Q2Qc (1 # 2)), 0) [(st_p, sec_r); (st_p, sec_r)]) = true) by (vm_compute; reflexivity).
  destruct (calls _ _ [(st_r, sec_r); (st_r, sec_r)]) as [log|] eqn:E1; [|discriminate E]. destruct (calls _ _ [(st_p, sec_r); (st_p, sec_r)]) as [log'|] eqn:E2; [|discriminate E].
  exists log, log'. exact (r_case _ _ _ _ E1 E2).
Qed.

(** A monitor that counts on the large grid, and none on the small one. *)
Definition mon_r (m : nat) (st : state Qc) : nat * res unit := (S m, Ok tt).
Definition mon_p (m : unit) (st : state Qc) : unit * res unit := (m, Ok tt).

Definition done {W} (r : (W * list (state Qc)) * option (res (state Qc))) : bool :=
  match r with ((_, log), Some (Ok _)) => length log =? 3 | _ => false end.

Lemma done_ok : forall {W} (r : (W * list (state Qc)) * option (res (state Qc))), done r = true -> exists w log e, r = ((w, log), Some (Ok e)) /\ length log = 3.
Proof. intros W [[w log] [[e|]|]] H; try discriminate H. exists w, log, e. split; [reflexivity|apply Nat.eqb_eq, H]. Qed.

Lemma r_ab_loop_case : exists a0 w log e w' log' e', new_ab (T:=Qc) (OInt 2) = Ok a0 /\ part_state g_r st_r st_p /\ length log = 3 /\
  main_loop 4 [beside (adams_bashforth cfg_r prog2_r)] (fun w st => let (m1, r) := mon_r (fst w) st in ((m1, snd w), r)) (3 * sec_r) sec_r (0, (a0, 0)) st_r = ((w, log), Some (Ok e)) /\
  main_loop 4 [beside (adams_bashforth cfg_r prog2_r)] (fun w st => let (m1, r) := mon_p (fst w) st in ((m1, snd w), r)) (3 * sec_r) sec_r (tt, (a0, 0)) st_p = ((w', log'), Some (Ok e')).
Proof.
  exists (mkab 2 None []).
  destruct (done_ok (main_loop 4 [beside (adams_bashforth cfg_r prog2_r)] (fun w st => let (m1, r) := mon_r (fst w) st in ((m1, snd w), r)) (3 * sec_r) sec_r (0, (mkab 2 None [], 0)) st_r)) as (w & log & e & E & L); [vm_compute; reflexivity|].
  destruct (done_ok (main_loop 4 [beside (adams_bashforth cfg_r prog2_r)] (fun w st => let (m1, r) := mon_p (fst w) st in ((m1, snd w), r)) (3 * sec_r) sec_r (tt, (mkab 2 None [], 0)) st_p)) as (w' & log' & e' & E' & L'); [vm_compute; reflexivity|].
  exists w, log, e, w', log', e'. split; [reflexivity|]. split; [exact r_part|]. split; [exact L|]. split; [exact E|exact E'].
Qed.

Lemma r_rk_loop_case : exists k0 w log e w' log' e', new_rk (T:=Qc) 2 = Ok k0 /\ part_state g_r st_r st_p /\ length log = 3 /\
  main_loop 4 [beside (ssp_rk cfg_r prog2_r)] (fun w st => let (m1, r) := mon_r (fst w) st in ((m1, snd w), r)) (3 * sec_r) sec_r (0, (k0, 0)) st_r = ((w, log), Some (Ok e)) /\
  main_loop 4 [beside (ssp_rk cfg_r prog2_r)] (fun w st => let (m1, r) := mon_p (fst w) st in ((m1, snd w), r)) (3 * sec_r) sec_r (tt, (k0, 0)) st_p = ((w', log'), Some (Ok e')).
Proof.
  exists (mkrk 2 (mkab 1 None [])).
  destruct (done_ok (main_loop 4 [beside (ssp_rk cfg_r prog2_r)] (fun w st => let (m1, r) := mon_r (fst w) st in ((m1, snd w), r)) (3 * sec_r) sec_r (0, (mkrk 2 (mkab 1 None []), 0)) st_r)) as (w & log & e & E & L); [vm_compute; reflexivity|].
  destruct (done_ok (main_loop 4 [beside (ssp_rk cfg_r prog2_r)] (fun w st => let (m1, r) := mon_p (fst w) st in ((m1, snd w), r)) (3 * sec_r) sec_r (tt, (mkrk 2 (mkab 1 None []), 0)) st_p)) as (w' & log' & e' & E' & L'); [vm_compute; reflexivity|].
  exists w, log, e, w', log', e'. split; [reflexivity|]. split; [exact r_part|]. split; [exact L|]. split; [exact E|exact E'].
Qed.

Lemma r_leap_loop_case : exists s1 w1 log e s1' w1' log' e', part_state g_r st_r st_p /\ length log = 3 /\
  leap_main_loop 4 cfg_r prog2_r [] mon_r (3 * sec_r) sec_r (new_leap (Q2Qc (1 # 20)) (Q2Qc (1 # 2)), 0) 0 st_r = ((s1, w1, log), Some (Ok e)) /\
  leap_main_loop 4 cfg_r prog2_r [] mon_p (3 * sec_r) sec_r (new_leap (Q2Qc (1 # 20)) (Q2Qc (1 # 2)), 0) tt st_p = ((s1', w1', log'), Some (Ok e')).
Proof.
  destruct (done_ok (leap_main_loop 4 cfg_r prog2_r [] mon_r (3 * sec_r) sec_r (new_leap (Q2Qc (1 # 20)) (Q2Qc (1 # 2)), 0) 0 st_r)) as ([s w] & log & e & E & L); [vm_compute; reflexivity|].
  destruct (done_ok (leap_main_loop 4 cfg_r prog2_r [] mon_p (3 * sec_r) sec_r (new_leap (Q2Qc (1 # 20)) (Q2Qc (1 # 2)), 0) tt st_p)) as ([s' w'] & log' & e' & E' & L'); [vm_compute; reflexivity|].
  exists s, w, log, e, s', w', log', e'. split; [exact r_part|]. split; [exact L|]. split; [exact E|exact E'].
Qed.

(** ** A Stepper *)
Definition ac_rs (u : nat) (raw : dict (rval Qc)) (dt : Z) : nat * res (dict (nd Qc) * dict (nd Qc)) :=
  (S u, let o := column_outputs raw in Ok (ddel "t" o, ddel "column" o)).
Definition s_r : scomp := mkscomp true inp_l diag_r tend_r "heat" false [] None 0%Z.

Lemma s_setting : whole_kept g_r /\
  s_packer s_r = None /\ s_tid s_r = false /\ proper_inputs (s_inp s_r) /\
  NoDup (keys (s_out s_r)) /\ stars_ok (s_out s_r) (s_inp s_r) /\ NoDup (keys (s_diag s_r)) /\ stars_ok (s_diag s_r) (s_inp s_r) /\
  column_physics g_r (s_inp s_r) (s_out s_r) /\ may_output g_r (s_inp s_r) (s_out s_r) /\ ~ In "time" (keys (s_out s_r)) /\ column_physics g_r (s_inp s_r) (s_diag s_r) /\
  (forall u dt, columnwise (s_inp s_r) (s_out s_r) (fun raw out => exists v d, ac_rs u raw dt = (v, Ok (d, out)))) /\
  (forall u dt, columnwise (s_inp s_r) (s_diag s_r) (fun raw out => exists v n, ac_rs u raw dt = (v, Ok (out, n)))) /\
  (forall u raw dt v d n, ac_rs u raw dt = (v, Ok (d, n)) -> forall k a, In (k, a) d \/ In (k, a) n -> wf_nd a) /\
  (forall u raw raw' dt, fst (ac_rs u raw dt) = fst (ac_rs u raw' dt)) /\
  (exists u' d n, stepper_process empty_treg s_r ac_rs 0 st_r sec_r = (u', Ok (d, n))) /\ (exists u' d n, stepper_process empty_treg s_r ac_rs 0 st_p sec_r = (u', Ok (d, n))).
Proof.
  destruct r_setting as (H0 & H1 & H2 & H3 & H4 & H5 & H6 & H7 & H8 & H9 & H10 & H11 & H12 & H13 & H14).
  split; [exact H0|]. split; [reflexivity|]. split; [reflexivity|]. split; [exact H2|]. split; [exact H3|]. split; [exact H4|]. split; [exact H5|]. split; [exact H6|].
  split; [exact H7|]. split; [exact H8|]. split; [exact H9|]. split; [exact H10|].
  split. { intros u dt. apply (columnwise_sub inp_l tend_r tend_r _ _ (H11 u dt)); [auto|]. intros raw out (v & d & E). exists out. split; [|auto]. injection E as <- <- <-. exists (S u), (ddel "t" (column_outputs raw)). reflexivity. }
  split. { intros u dt. apply (columnwise_sub inp_l diag_r diag_r _ _ (H12 u dt)); [auto|]. intros raw out (v & d & E). exists out. split; [|auto]. injection E as <- <- <-. exists (S u), (ddel "column" (column_outputs raw)). reflexivity. }
  split. { intros u raw dt v t d E k a H. injection E as _ <- <-. cbn in H. destruct H as [[H|[]]|[H|[]]]; injection H as _ <-; apply wf_build. }
  split; [reflexivity|]. split.
  - destruct (stepper_process empty_treg s_r ac_rs 0 st_r sec_r) as [u' [[d n]|e]] eqn:E; [eauto|]. exfalso. revert E. vm_compute. discriminate.
  - destruct (stepper_process empty_treg s_r ac_rs 0 st_p sec_r) as [u' [[d n]|e]] eqn:E; [eauto|]. exfalso. revert E. vm_compute. discriminate.
Qed.

(** ** A single column, without its horizontal dims; and arrays held in another order *)
Definition g_1 : cut :=
  mkcut (fun _ i => i) (fun d => if String.eqb d "x" then Some 1 else if String.eqb d "y" then Some 2 else None) False (fun d => d = "z") (fun name _ => name = "T").
Definition g_o : cut := mkcut (fun _ i => i) (fun _ => None) False (fun d => d = "z") (fun name _ => name = "T").

Definition T_r : da Qc := mkda ["x"; "z"; "y"] (build [2; 4; 3] (fun i => temp_at (ix i 0) (ix i 2) (ix i 1))) [("units", "K")].
Definition wind_r : da Qc := mkda ["y"; "x"] (build [3; 2] (fun i => wind_at (ix i 1) (ix i 0))) [("units", "km s^-1")].
Definition st_1 : state Qc := [("time", VTime 0%Z); ("T", VDA (cut_da g_1 ["z"] [4] T_r)); ("wind", VDA (cut_da g_1 [] [] wind_r))].
Definition st_o : state Qc := [("time", VTime 0%Z); ("T", VDA (cut_da g_o ["y"; "x"; "z"] [3; 2; 4] T_r)); ("wind", VDA (cut_da g_o ["x"; "y"] [2; 3] wind_r))].

Definition dims_of (v : pval Qc) : list string := match v with VDA a => dims a | VTime _ => [] end.
Lemma column_part : part_state g_1 st_r st_1 /\ map (fun kv => dims_of (snd kv)) st_1 = [[]; ["z"]; []].
Proof.
  split; [|reflexivity]. assert (Hw : forall d, whole g_1 d -> String.eqb d "z" = true) by (intros d ->; reflexivity).
  constructor; [split; reflexivity|]. constructor; [|constructor; [|constructor]]; (split; [reflexivity|]); cbn [fst snd part_value]; split; try discriminate; split.
  - apply (cut_part g_1 (fun d => String.eqb d "z")); [exact Hw|intros []|vm_compute; reflexivity|vm_compute; reflexivity].
  - intros d _ _. reflexivity.
  - apply (cut_part g_1 (fun d => String.eqb d "z")); [exact Hw|intros []|vm_compute; reflexivity|vm_compute; reflexivity].
  - intros d [<-|[<-|[]]] X; discriminate X.
Qed.

Lemma column_local : whole_kept g_1 /\ local g_1 eq prog_r prog_r /\ local g_1 eq prog2_r prog2_r.
Proof.
  destruct (heat_setting g_1 eq_refl eq_refl eq_refl (fun _ => eq_refl)) as (H0 & H1 & H2 & H3 & H4 & H5 & H6 & H7 & H8 & H9 & H10 & H11 & H12 & H13 & H14).
  assert (K := region_component g_1 H0 empty_treg c_r ac_r H1 H2 H3 H4 H5 H6 H7 H8 H9 H10 H11 H12 H13 H14). fold prog_r in K.
  split; [exact H0|]. split; [exact K|]. refine (region_composite g_1 eq both_r both_r _). constructor; [exact K|]. constructor; [|constructor].
  intros u v st st' dt u' v' t d t' d' X1 X2 X3 X4. exact (K u v st st' 0%Z u' v' t d t' d' X1 X2 X3 X4).
Qed.

Definition cfg_1 : tstep := mktstep true "step" inp_l diag_r [("T", qprops ["z"; "*"] "K")].
Lemma column_run : exists w log e w' log' e', length log = 3 /\
  main_loop 4 [beside (ssp_rk cfg_1 prog2_r)] (fun w st => let (m1, r) := mon_r (fst w) st in ((m1, snd w), r)) (3 * sec_r) sec_r (0, (mkrk 3 (mkab 1 None []), 0)) st_r = ((w, log), Some (Ok e)) /\
  main_loop 4 [beside (ssp_rk cfg_1 prog2_r)] (fun w st => let (m1, r) := mon_p (fst w) st in ((m1, snd w), r)) (3 * sec_r) sec_r (tt, (mkrk 3 (mkab 1 None []), 0)) st_1 = ((w', log'), Some (Ok e')) /\
  Forall2 (part_record g_1) log log' /\ part_state g_1 e e'.
Proof.
  destruct (done_ok (main_loop 4 [beside (ssp_rk cfg_1 prog2_r)] (fun w st => let (m1, r) := mon_r (fst w) st in ((m1, snd w), r)) (3 * sec_r) sec_r (0, (mkrk 3 (mkab 1 None []), 0)) st_r)) as (w & log & e & E & L); [vm_compute; reflexivity|].
  destruct (done_ok (main_loop 4 [beside (ssp_rk cfg_1 prog2_r)] (fun w st => let (m1, r) := mon_p (fst w) st in ((m1, snd w), r)) (3 * sec_r) sec_r (tt, (mkrk 3 (mkab 1 None []), 0)) st_1)) as (w' & log' & e' & E' & L'); [vm_compute; reflexivity|].
  exists w, log, e, w', log', e'. split; [exact L|]. split; [exact E|]. split; [exact E'|].
  destruct column_local as (_ & _ & Hl). exact (region_rk_loop g_1 eq prog2_r prog2_r Hl mon_r mon_p cfg_1 3 _ 0 0 eq_refl eq_refl 4 _ _ 0 tt st_r st_1 w w' log log' e e' (proj1 column_part) E E').
Qed.

Lemma order_part : part_state g_o st_r st_o.
Proof.
  assert (Hw : forall d, whole g_o d -> String.eqb d "z" = true) by (intros d ->; reflexivity).
  constructor; [split; reflexivity|]. constructor; [|constructor; [|constructor]]; (split; [reflexivity|]); cbn [fst snd part_value]; split; try discriminate; split.
  - apply (cut_part g_o (fun d => String.eqb d "z")); [exact Hw|intros []|vm_compute; reflexivity|vm_compute; reflexivity].
  - intros d _ _. reflexivity.
  - apply (cut_part g_o (fun d => String.eqb d "z")); [exact Hw|intros []|vm_compute; reflexivity|vm_compute; reflexivity].
  - intros d [<-|[<-|[]]] X; discriminate X.
Qed.

Lemma order_local : whole_kept g_o /\ local g_o eq prog_r prog_r.
Proof.
  destruct (heat_setting g_o eq_refl eq_refl eq_refl (fun _ => eq_refl)) as (H0 & H1 & H2 & H3 & H4 & H5 & H6 & H7 & H8 & H9 & H10 & H11 & H12 & H13 & H14).
  split; [exact H0|]. exact (region_component g_o H0 empty_treg c_r ac_r H1 H2 H3 H4 H5 H6 H7 H8 H9 H10 H11 H12 H13 H14).
Qed.
