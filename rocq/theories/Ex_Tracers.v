(** Concrete cases for the property theorems about tracers (C45-C48, C65). *)
From Coq Require Import String List Bool Arith ZArith QArith Qcanon Lia.
From Verif Require Import Prelude PreludeFacts ArithM NdArray NdFacts Units DataArrayM
  Wildcard GetNp SpecArrays Restore InitNp SpecUnits ExampleRegistry Checks Tracers SpecTracers TracersFacts TracersMain TracersInit TracersCalls
  Components SpecComponents SpecCalls Ex_Components.
Import ListNotations.
Open Scope string_scope.
Open Scope nat_scope.
Open Scope list_scope.

#[local] Existing Instance ex_registry | 5.

Definition nats_eq (a b : list nat) : bool := if list_eq_dec Nat.eq_dec a b then true else false.

(** A vapour that is prepended, two registered tracers, one of them registered twice. *)
Definition ops_tr : list tracer_op := [Register "soot" "kg"; Register "ash" "g"; Register "soot" "kg"].
Definition g_tr : treg := registry_after ops_tr.
Definition p_tr : packer := mkpacker [("vapour", "kg")] ["*"; "tracer"; "z"] ["temperature"].
Definition qd_tr : list string := ["*"; "z"].
Definition tp_tr : pdict := get_tracer_input_properties g_tr (pk_prepend p_tr) (pk_dims p_tr).

Definition st_tr : state Qc :=
  [ ("time", VTime 0%Z);
    ("vapour", VDA (mkda ["z"; "y"; "x"] (cramp [2; 2; 3]) [("units", "g")]));
    ("soot", VDA (mkda ["y"; "z"] (cramp [2; 2]) [("units", "kg"); ("note", "a")]));
    ("ash", VDA (mkda ["z"] (cramp [2]) [("units", "kg")]));
    ("temperature", VDA (mkda ["z"; "y"; "x"] (cramp [2; 2; 3]) [("units", "K")])) ].

Lemma ex_tracer_order : tracer_order g_tr p_tr = ["vapour"; "soot"; "ash"].
Proof. reflexivity. Qed.

Lemma ex_consistent : consistent g_tr.
Proof. apply main_registry_consistent. Qed.

Lemma ex_has_dims : has_dims p_tr qd_tr.
Proof. exists ["*"], ["z"]. split; auto. split; auto. intros [H|[H|[]]]; discriminate H. Qed.

Lemma ex_pack_hyps : consistent g_tr /\ has_dims p_tr qd_tr /\ one_star qd_tr /\ wf_state st_tr /\ exists arr, pack g_tr p_tr st_tr = Ok arr /\ shape arr = [6; 3; 2].
Proof.
  split; [exact ex_consistent|]. split; [exact ex_has_dims|]. split; [apply one_starb_ok; reflexivity|]. split; [apply wf_stateb_ok; reflexivity|].
  assert (E : match pack g_tr p_tr st_tr with Ok a => nats_eq (shape a) [6; 3; 2] | Err _ => false end = true) by (vm_compute; reflexivity).
  destruct (pack g_tr p_tr st_tr) as [a|]; [|discriminate E]. exists a. split; auto. unfold nats_eq in E. destruct (list_eq_dec _ _ _); auto. discriminate E.
Qed.

Lemma ex_wildcard : wildcard_dims st_tr tp_tr = ["y"; "x"].
Proof. vm_compute. reflexivity. Qed.

Lemma ex_unpack_hyps : NoDup (map fst (pk_prepend p_tr)) /\ complete st_tr tp_tr /\ ~ length_conflict st_tr tp_tr /\ ~ unexpected_dim st_tr tp_tr /\
  NoDup (expand_dims (wildcard_dims st_tr tp_tr) qd_tr) /\
  (forall m u, tracer_units g_tr p_tr m = Some u -> exists x, parse u = Some x) /\
  exists L, common_lengths st_tr tp_tr L /\ exists a : nd Qc, wf_nd a /\ shape a = tracer_shape g_tr p_tr (wildcard_dims st_tr tp_tr) L.
Proof.
  split; [apply nodupb_ok; reflexivity|].
  assert (E : is_ok (get_numpy_arrays_with_properties st_tr tp_tr) = true) by (vm_compute; reflexivity).
  apply is_ok_ex in E as (raw & Er). assert (Hwf : wf_state st_tr) by (apply wf_stateb_ok; reflexivity).
  destruct (extraction_facts st_tr tp_tr raw Hwf Er) as (Hc & Hn & Hu). split; auto. split; auto. split; auto.
  split; [rewrite ex_wildcard; apply nodupb_ok; reflexivity|]. split.
  - intros m u H. assert (Hin : In u ["kg"; "g"]).
    { unfold tracer_units in H. destruct (dget m (rev (pk_prepend p_tr))) as [v|] eqn:Ev.
      - injection H as <-. apply dget_In in Ev. destruct Ev as [Ev|[]]. injection Ev as _ <-. left; auto.
      - apply dget_In in H. destruct H as [H|[H|[]]]; injection H as _ <-; cbn; auto. }
    destruct Hin as [<-|[<-|[]]]; vm_compute; eauto.
  - destruct (pack_raw g_tr p_tr qd_tr st_tr ex_consistent ex_has_dims) with (raw := raw) as (arr & L & _ & Hw & HL & _ & Hs & _); auto. { apply one_starb_ok; reflexivity. }
    exists L. split; auto. exists arr. auto.
Qed.

(** Packing and unpacking give the tracers back, in their units. *)
Definition da_is (o : option (da Qc)) (ds : list string) (sh : list nat) (u : string) (l : list Qc) : bool :=
  match o with
  | Some q => list_eqb (dims q) ds && nats_eq (shape (arr q)) sh && (match dget "units" (attrs q) with Some v => String.eqb u v | None => false end) &&
              (if list_eq_dec Qc_eq_dec (data (arr q)) l then true else false)
  | None => false
  end.

Lemma ex_pack_unpack : match pack g_tr p_tr st_tr with
  | Ok arr => match unpack g_tr p_tr arr st_tr "s^-1" with
              | Ok out => list_eqb (keys out) ["soot"; "ash"; "vapour"] &&
                          da_is (dget "ash" out) ["y"; "x"; "z"] [2; 3; 2] "g s^-1" (map cz [0; 1000; 0; 1000; 0; 1000; 0; 1000; 0; 1000; 0; 1000]%Z)
              | Err _ => false
              end
  | Err _ => false
  end = true.
Proof. vm_compute. reflexivity. Qed.

(** 'tracer' listed twice in tracer_dims is accepted; the packed arrays then have
    fewer axes than tracer_dims. *)
Lemma ex_tracer_twice : exists (g : treg) (p : packer) (st : state Qc) arr, In p (tr_packers (registry_after [Register "soot" "kg"; NewPacker [] ["tracer"; "tracer"] []])) /\
  pack (registry_after [Register "soot" "kg"; NewPacker [] ["tracer"; "tracer"] []]) p st = Ok arr /\ length (shape arr) <> length (pk_dims p).
Proof.
  exists g_tr, (mkpacker [] ["tracer"; "tracer"] []), [("time", VTime 0%Z); ("soot", VDA (mkda [] (cramp []) [("units", "kg")]))].
  eexists. split; [left; reflexivity|]. split; [vm_compute; reflexivity|]. cbn. discriminate.
Qed.

(** ** Histories *)

(** A registration refused because of a live component's output, after a refused
    change of units and a second, equal registration. *)
Definition ops_h : list tracer_op :=
  [Register "soot" "kg"; NewPacker [("vapour", "kg")] ["tracer"] ["ash"]; Register "soot" "g"; Register "soot" "kg"; Register "ash" "g"].
Definition p_h : packer := mkpacker [("vapour", "kg")] ["tracer"] ["ash"].

Lemma ex_history : In p_h (tr_packers (registry_after ops_h)) /\ In "ash" (pk_outs p_h) /\ In "ash" (keys (tr_units (registry_after ops_h))) /\
  outcome [Register "soot" "kg"] (Register "soot" "g") = Err EValue /\
  units_are_same "kg" "g" = Ok false /\ dget "soot" (tr_units (registry_after [Register "soot" "kg"])) = Some "kg".
Proof.
  split; [left; reflexivity|]. split; [left; reflexivity|]. split; [right; left; reflexivity|].
  split; [vm_compute; reflexivity|]. split; vm_compute; reflexivity.
Qed.

Lemma ex_units_kept : dget "soot" (tr_units (registry_after [Register "soot" "kg"])) = Some "kg" /\
  ~ In ResetTracers (tl ops_h) /\ dget "soot" (tr_units (registry_after ([Register "soot" "kg"] ++ tl ops_h))) = Some "kg".
Proof.
  split; [vm_compute; reflexivity|]. split; [|vm_compute; reflexivity]. intros [H|[H|[H|[H|[]]]]]; discriminate H.
Qed.

Lemma ex_refused_packer : outcome [Register "soot" "kg"] (NewPacker [] ["tracer"] ["soot"]) = Err EInvalidProps /\
  outcome [] (NewPacker [] ["z"] []) = Err EValue.
Proof. split; vm_compute; reflexivity. Qed.

(** The refused registration has been recorded. *)
Lemma ex_refused_recorded : exists ops name u, outcome ops (Register name u) = Err EInvalidProps /\
  dget name (tr_units (registry_after ops)) = None /\ dget name (tr_units (registry_after (ops ++ [Register name u]))) = Some u.
Proof. exists (firstn 4 ops_h), "ash", "g". split; [vm_compute; reflexivity|]. split; vm_compute; reflexivity. Qed.

(** Registering a tracer again lists its name twice. *)
Lemma ex_listed_twice : exists ops, outcome (removelast ops) (last ops ResetPackers) = Ok tt /\ ~ NoDup (tr_names (registry_after ops)).
Proof.
  exists ops_tr. split; [vm_compute; reflexivity|]. intros N. change (NoDup ["soot"; "ash"; "soot"]) in N. inversion N as [|? ? H _]. apply H. right. left. reflexivity.
Qed.

(** ** Initialised arrays *)

Definition g_i : treg := registry_after [Register "soot" "kg"; Register "ash" "g"].
Definition p_i : packer := mkpacker [("vapour", "kg")] ["*"; "tracer"; "z"] [].
Definition inp_i : pdict := [("temperature", qprops ["z"; "*"] "K")].
Definition tp_i : pdict := get_tracer_input_properties g_i (pk_prepend p_i) (pk_dims p_i).

Lemma ex_init_hyps : consistent g_i /\ has_dims p_i qd_tr /\ one_star qd_tr /\ wf_state st_tr /\ wf_pdict inp_i /\
  NoDup (map (fun np => raw_name (fst np) (snd np)) inp_i) /\ NoDup (tr_names g_i ++ map fst (pk_prepend p_i)) /\ tracer_order g_i p_i <> [] /\
  wildcard_dims st_tr inp_i = wildcard_dims st_tr tp_i /\ shared_dims st_tr inp_i tp_i (expand_dims (wildcard_dims st_tr tp_i) qd_tr) /\
  exists raw arr out, get_numpy_arrays_with_properties st_tr inp_i = Ok raw /\ pack g_i p_i st_tr = Ok arr /\
    initialize_numpy_arrays_with_properties [] raw inp_i (Some (pk_dims p_i)) (tr_names g_i ++ map fst (pk_prepend p_i)) = Ok out.
Proof.
  split; [apply main_registry_consistent|]. split; [exists ["*"], ["z"]; split; auto; split; auto; intros [H|[H|[]]]; discriminate H|].
  split; [apply one_starb_ok; reflexivity|]. split; [apply wf_stateb_ok; reflexivity|]. split; [apply wf_pdictb_ok; reflexivity|].
  split; [apply nodupb_ok; reflexivity|]. split; [apply nodupb_ok; reflexivity|]. split; [discriminate|].
  split; [vm_compute; reflexivity|]. split.
  - assert (E : expand_dims (wildcard_dims st_tr tp_i) qd_tr = ["y"; "x"; "z"]) by (vm_compute; reflexivity). rewrite E.
    assert (G : forall d n, has_dim (mkda ["z"; "y"; "x"] (cramp [2; 2; 3]) [("units", "K")]) d n -> has_dim (mkda ["z"; "y"; "x"] (cramp [2; 2; 3]) [("units", "g")]) d n ->
      exists n, (exists name pr dl a, listed st_tr inp_i name pr dl a /\ has_dim a d n) /\ (exists name pr dl a, listed st_tr tp_i name pr dl a /\ has_dim a d n)).
    { intros d n H1 H2. exists n. split.
      - exists "temperature", (qprops ["z"; "*"] "K"), ["z"; "*"], (mkda ["z"; "y"; "x"] (cramp [2; 2; 3]) [("units", "K")]). split; auto. split; [left; reflexivity|]. split; reflexivity.
      - exists "vapour", (qprops ["*"; "z"] "kg"), ["*"; "z"], (mkda ["z"; "y"; "x"] (cramp [2; 2; 3]) [("units", "g")]). split; auto. split; [right; right; left; reflexivity|]. split; reflexivity. }
    intros d [<-|[<-|[<-|[]]]]; [apply (G _ 2)|apply (G _ 3)|apply (G _ 2)].
    all: cbn; tauto.
  - assert (E : match get_numpy_arrays_with_properties st_tr inp_i with
                | Ok raw => is_ok (pack g_i p_i st_tr) && is_ok (initialize_numpy_arrays_with_properties [] raw inp_i (Some (pk_dims p_i)) (tr_names g_i ++ map fst (pk_prepend p_i)))
                | Err _ => false end = true) by (vm_compute; reflexivity).
    destruct (get_numpy_arrays_with_properties st_tr inp_i) as [raw|]; [|discriminate E]. apply andb_true_iff in E as (E1 & E2).
    apply is_ok_ex in E1 as (arr & E1). apply is_ok_ex in E2 as (out & E2). exists raw, arr, out. auto.
Qed.

(** What makes the shapes differ: both arrays exist. *)
Definition shapes_differ (g : treg) (p : packer) (st : state Qc) (inp : pdict) : Prop :=
  exists raw arr out z, get_numpy_arrays_with_properties st inp = Ok raw /\ pack g p st = Ok arr /\
    initialize_numpy_arrays_with_properties [] raw inp (Some (pk_dims p)) (tr_names g ++ map fst (pk_prepend p)) = Ok out /\
    dget "tracers" out = Some z /\ shape z <> shape arr.

Definition shapes_differb (g : treg) (p : packer) (st : state Qc) (inp : pdict) : bool :=
  match get_numpy_arrays_with_properties st inp with
  | Err _ => false
  | Ok raw =>
      match pack g p st, initialize_numpy_arrays_with_properties [] raw inp (Some (pk_dims p)) (tr_names g ++ map fst (pk_prepend p)) with
      | Ok arr, Ok out => match dget "tracers" out with Some z => negb (nats_eq (shape z) (shape arr)) | None => false end
      | _, _ => false
      end
  end.

Lemma shapes_differb_ok : forall g p st inp, shapes_differb g p st inp = true -> shapes_differ g p st inp.
Proof.
  intros g p st inp H. unfold shapes_differb in H. destruct (get_numpy_arrays_with_properties st inp) as [raw|] eqn:E1; [|discriminate H].
  destruct (pack g p st) as [arr|] eqn:E2; [|discriminate H]. destruct (initialize_numpy_arrays_with_properties _ _ _ _ _) as [out|] eqn:E3; [|discriminate H].
  destruct (dget "tracers" out) as [z|] eqn:E4; [|discriminate H]. exists raw, arr, out, z. repeat (split; auto).
  apply negb_true_iff in H. unfold nats_eq in H. destruct (list_eq_dec _ _ _); auto. discriminate H.
Qed.

(** A tracer registered twice; registered and prepended; none at all; all tracers
    without a dim that the other inputs have. *)
Lemma ex_shapes_differ :
  (exists ops p (st : state Qc) inp, ops = [Register "soot" "kg"; Register "soot" "kg"] /\ shapes_differ (registry_after ops) p st inp) /\
  (exists ops p (st : state Qc) inp, ops = [Register "soot" "kg"] /\ pk_prepend p = [("soot", "kg")] /\ shapes_differ (registry_after ops) p st inp) /\
  (exists p (st : state Qc) inp, pk_prepend p = [] /\ shapes_differ empty_treg p st inp) /\
  (exists ops p (st : state Qc) inp, ops = [Register "ash" "g"] /\ pk_prepend p = [] /\ shapes_differ (registry_after ops) p st inp).
Proof.
  split; [|split; [|split]].
  - exists [Register "soot" "kg"; Register "soot" "kg"], (mkpacker [] ["tracer"; "y"; "z"] []), st_tr, [("temperature", qprops ["y"; "*"; "z"] "K")].
    split; auto. apply shapes_differb_ok. vm_compute. reflexivity.
  - exists [Register "soot" "kg"], (mkpacker [("soot", "kg")] ["tracer"; "y"; "z"] []), st_tr, [("temperature", qprops ["y"; "*"; "z"] "K")].
    split; auto. split; auto. apply shapes_differb_ok. vm_compute. reflexivity.
  - exists (mkpacker [] ["tracer"; "y"; "z"] []), st_tr, [("temperature", qprops ["y"; "*"; "z"] "K")].
    split; auto. apply shapes_differb_ok. vm_compute. reflexivity.
  - exists [Register "ash" "g"], (mkpacker [] ["tracer"; "y"; "z"] []), st_tr, [("temperature", qprops ["y"; "*"; "z"] "K")].
    split; auto. split; auto. apply shapes_differb_ok. vm_compute. reflexivity.
Qed.

(** ** Columns *)

(** Temperature on (y, x) and a tracer on (x, y): column 1 of the raw temperature is
    another point of the grid than column 1 of the packed tracers. *)
Definition st_col : state Qc :=
  [ ("time", VTime 0%Z);
    ("temperature", VDA (mkda ["y"; "x"] (cramp [2; 3]) [("units", "K")]));
    ("soot", VDA (mkda ["x"; "y"] (mknd [3; 2] (map cz [0; 3; 1; 4; 2; 5]%Z)) [("units", "kg")])) ].

(** Soot and temperature are the same numbers at the same coordinates. *)
Lemma ex_columns : exists g p (st : state Qc) inp raw arr t s tr, consistent g /\ has_dims p ["*"] /\ wf_state st /\
  dget "temperature" st = Some (VDA t) /\ dget "soot" st = Some (VDA s) /\
  (forall x y, x < 3 -> y < 2 -> let c := fun d => if String.eqb d "x" then x else y in da_at t c = da_at s c) /\
  get_numpy_arrays_with_properties st inp = Ok raw /\ pack g p st = Ok arr /\
  tracer_order g p = ["soot"] /\ pk_dims p = ["tracer"; "*"] /\ dget "temperature" raw = Some tr /\ shape tr = [6] /\ shape arr = [1; 6] /\
  at_ tr [1] <> at_ arr [0; 1].
Proof.
  exists (registry_after [Register "soot" "kg"]), (mkpacker [] ["tracer"; "*"] []), st_col, [("temperature", qprops ["*"] "K")].
  do 2 eexists. exists (mkda ["y"; "x"] (cramp [2; 3]) [("units", "K")]), (mkda ["x"; "y"] (mknd [3; 2] (map cz [0; 3; 1; 4; 2; 5]%Z)) [("units", "kg")]).
  eexists. split; [apply main_registry_consistent|].
  split; [exists [], ["*"]; split; auto; split; auto; intros [H|[]]; discriminate H|]. split; [apply wf_stateb_ok; reflexivity|].
  split; [reflexivity|]. split; [reflexivity|]. split.
  { intros x y Hx Hy. do 3 (destruct x as [|x]; [do 2 (destruct y as [|y]; [vm_compute; reflexivity|]); lia|]). lia. }
  split; [vm_compute; reflexivity|]. split; [vm_compute; reflexivity|]. split; [reflexivity|]. split; [reflexivity|].
  split; [reflexivity|]. split; [reflexivity|]. split; [reflexivity|].
  intros H. apply (f_equal (fun x => Qc_eqb x (cz 1))) in H. vm_compute in H. discriminate H.
Qed.

(** ** Calls *)

(** A component with temperature and tracer tendencies, reporting them in diagnostics;
    the tracer tendencies are twice the tracers. *)
Definition inp_m : pdict := [("temperature", qprops ["*"; "z"] "K")].
Definition tend_m : pdict := [("temperature", qprops ["*"; "z"] "K s^-1")].
Definition made_m := make_tendency_component false g_tr inp_m tend_m [] "mixer" true (Some (Some ["*"; "tracer"; "z"], [("vapour", "kg")])) "s^-1".
Definition c_m : tcomp := match snd made_m with Ok c => c | Err _ => mktcomp false [] [] [] "" false [] None "" end.
Definition get_arr (k : string) (raw : dict (rval Qc)) : nd Qc := match dget k raw with Some (RArr a) => a | _ => cramp [] end.
Definition ac_m (n : nat) (raw : dict (rval Qc)) : nat * res (dict (nd Qc) * dict (nd Qc)) :=
  (S n, Ok ([("tracers", nd_map (fun x => (x + x)%Qc) (get_arr "tracers" raw)); ("temperature", get_arr "temperature" raw)], [])).

Lemma c_m_made : made_m = (fst made_m, Ok c_m) /\ t_packer c_m = Some p_tr.
Proof. split; vm_compute; reflexivity. Qed.

Lemma ex_tendency_tracers : consistent (fst made_m) /\ t_packer c_m = Some p_tr /\ has_dims p_tr qd_tr /\ one_star qd_tr /\ NoDup (map fst (pk_prepend p_tr)) /\ wf_state st_tr /\
  NoDup (keys (t_tend c_m)) /\ stars_ok (t_tend c_m) (t_inp c_m) /\ (forall m, In m (tracer_order (fst made_m) p_tr) -> ~ In m (keys (t_tend c_m))) /\
  exists u' t d, tendency_call (fst made_m) c_m ac_m 0 st_tr = (u', Ok (t, d)).
Proof.
  split; [change (consistent g_tr); exact ex_consistent|]. split; [apply c_m_made|]. split; [exact ex_has_dims|]. split; [apply one_starb_ok; reflexivity|].
  split; [apply nodupb_ok; reflexivity|]. split; [apply wf_stateb_ok; reflexivity|]. split; [apply nodupb_ok; reflexivity|]. split; [apply stars_okb_ok; reflexivity|].
  split. { intros m Hm [<-|[]]. destruct Hm as [H|[H|[H|[]]]]; discriminate H. }
  assert (E : is_ok (snd (tendency_call (fst made_m) c_m ac_m 0 st_tr)) = true) by (vm_compute; reflexivity).
  destruct (tendency_call (fst made_m) c_m ac_m 0 st_tr) as [u' [[t d]|]]; [|discriminate E]. eauto.
Qed.

Lemma ex_tendency_tracers_case : match snd (tendency_call (fst made_m) c_m ac_m 0 st_tr) with
  | Ok (t, d) => da_is (dget "ash" t) ["y"; "x"; "z"] [2; 3; 2] "g s^-1" (map cz [0; 2000; 0; 2000; 0; 2000; 0; 2000; 0; 2000; 0; 2000]%Z)
  | Err _ => false
  end = true.
Proof. vm_compute. reflexivity. Qed.

(** The diagnostics it returns include undeclared ones. *)
Lemma ex_undeclared_diagnostics : exists (g g' : treg) inp tend diag name tro tunit c (ac : nat -> dict (rval Qc) -> nat * res (dict (nd Qc) * dict (nd Qc))) u (st : state Qc) u' t d X,
  make_tendency_component false g inp tend diag name true tro tunit = (g', Ok c) /\ tendency_call g' c ac u st = (u', Ok (t, d)) /\
  In X (keys d) /\ ~ In X (keys (t_diag c)).
Proof.
  exists g_tr, (fst made_m), inp_m, tend_m, [], "mixer", (Some (Some ["*"; "tracer"; "z"], [("vapour", "kg")])), "s^-1", c_m, ac_m, 0, st_tr.
  assert (E : match snd (tendency_call (fst made_m) c_m ac_m 0 st_tr) with Ok (t, d) => mem "ash_tendency_from_mixer" (keys d) | Err _ => false end = true) by (vm_compute; reflexivity).
  destruct (tendency_call (fst made_m) c_m ac_m 0 st_tr) as [u' [[t d]|]] eqn:Ec; [|discriminate E]. cbn [snd] in E.
  exists u', t, d, "ash_tendency_from_mixer". split; [exact (proj1 c_m_made)|]. split; [reflexivity|]. split; [apply mem_In; exact E|].
  assert (K : keys (t_diag c_m) = ["temperature_tendency_from_mixer"]) by (vm_compute; reflexivity). rewrite K. intros [H|[]]; discriminate H.
Qed.

(** A stepper that halves its tracers. *)
Definition made_k := make_stepper g_tr inp_m [] [("temperature", qprops ["*"; "z"] "K")] "sink" false (Some (Some ["*"; "tracer"; "z"], [("vapour", "kg")])) 1000000%Z.
Definition c_k : scomp := match snd made_k with Ok c => c | Err _ => mkscomp false [] [] [] "" false [] None 0%Z end.
Definition ac_k (n : nat) (raw : dict (rval Qc)) (dt : Z) : nat * res (dict (nd Qc) * dict (nd Qc)) :=
  (S n, Ok ([], [("tracers", nd_map (fun x => (x / cz 2)%Qc) (get_arr "tracers" raw)); ("temperature", get_arr "temperature" raw)])).

Lemma ex_stepper_tracers : consistent (fst made_k) /\ s_packer c_k = Some p_tr /\ has_dims p_tr qd_tr /\ one_star qd_tr /\ NoDup (map fst (pk_prepend p_tr)) /\ wf_state st_tr /\
  NoDup (keys (s_out c_k)) /\ stars_ok (s_out c_k) (s_inp c_k) /\ (forall m, In m (tracer_order (fst made_k) p_tr) -> ~ In m (keys (s_out c_k))) /\
  exists u' d n, stepper_call (fst made_k) c_k ac_k 0 st_tr 10%Z = (u', Ok (d, n)).
Proof.
  split; [change (consistent g_tr); exact ex_consistent|]. split; [vm_compute; reflexivity|]. split; [exact ex_has_dims|]. split; [apply one_starb_ok; reflexivity|].
  split; [apply nodupb_ok; reflexivity|]. split; [apply wf_stateb_ok; reflexivity|]. split; [apply nodupb_ok; reflexivity|]. split; [apply stars_okb_ok; reflexivity|].
  split. { intros m Hm [<-|[]]. destruct Hm as [H|[H|[H|[]]]]; discriminate H. }
  assert (E : is_ok (snd (stepper_call (fst made_k) c_k ac_k 0 st_tr 10%Z)) = true) by (vm_compute; reflexivity).
  destruct (stepper_call (fst made_k) c_k ac_k 0 st_tr 10%Z) as [u' [[d n]|]]; [|discriminate E]. eauto.
Qed.

(** C05, the other way round, with a degenerate case of a missing dim ("ash" has no y, x). *)
Lemma ex_restore_extract : wf_state st_tr /\ wf_pdict tp_tr /\ NoDup (keys tp_tr) /\ NoDup (map (fun np => raw_name (fst np) (snd np)) tp_tr) /\
  complete st_tr tp_tr /\ ~ length_conflict st_tr tp_tr /\ ~ unexpected_dim st_tr tp_tr /\ no_repeated_dims st_tr tp_tr /\
  (forall name p u, In (name, p) tp_tr -> p_units p = Some u -> exists x, parse u = Some x) /\
  exists raw L out, common_lengths st_tr tp_tr L /\
    (forall name p ds, In (name, p) tp_tr -> p_dims p = Some ds ->
       exists ra, dget (raw_name name p) raw = Some ra /\ wf_nd ra /\ shape ra = map (axis_len (wildcard_dims st_tr tp_tr) L) ds) /\
    restore_data_arrays_with_properties raw tp_tr st_tr tp_tr [] false = Ok out /\
    wf_state (map (fun kv => (fst kv, VDA (snd kv))) out).
Proof.
  split; [apply wf_stateb_ok; reflexivity|]. split; [apply wf_pdictb_ok; reflexivity|]. split; [apply nodupb_ok; reflexivity|]. split; [apply nodupb_ok; reflexivity|].
  assert (E : match get_numpy_arrays_with_properties st_tr tp_tr with
              | Ok raw => match restore_data_arrays_with_properties raw tp_tr st_tr tp_tr [] false with
                          | Ok out => wf_stateb (map (fun kv => (fst kv, VDA (snd kv))) out) | Err _ => false end
              | Err _ => false end = true) by (vm_compute; reflexivity).
  destruct (get_numpy_arrays_with_properties st_tr tp_tr) as [raw|] eqn:Er; [|discriminate E].
  destruct (restore_data_arrays_with_properties raw tp_tr st_tr tp_tr [] false) as [out|] eqn:Eo; [|discriminate E].
  assert (Hwf : wf_state st_tr) by (apply wf_stateb_ok; reflexivity).
  destruct (extraction_facts st_tr tp_tr raw Hwf Er) as (Hc & Hn & Hu). split; auto. split; auto. split; auto.
  split; [apply no_repeatedb_ok; reflexivity|]. split.
  { intros name p u Hin Hp. destruct Hin as [H|[H|[H|[]]]]; injection H as <- <-; cbn in Hp; injection Hp as <-; vm_compute; eauto. }
  destruct (ExtractFacts.extraction_spec st_tr tp_tr raw) as (L & HL & Hk & Hx); auto. { apply wf_pdictb_ok; reflexivity. } { apply nodupb_ok; reflexivity. }
  exists raw, L, out. split; auto. split; [|split; [auto|apply wf_stateb_ok; exact E]].
  intros name p ds Hin Hds. destruct (Hx name p Hin) as (r & Hr & ds' & u & a & q & E1 & _ & _ & _ & E5 & E6 & _). rewrite Hds in E1. injection E1 as <-. eauto.
Qed.
