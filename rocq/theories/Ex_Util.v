(** Concrete cases for the property theorems about helpers (C58-C63, C68). *)
From Coq Require Import String Ascii List Bool Arith ZArith QArith Qcanon Permutation Lia.
From Verif Require Import Prelude PreludeFacts ArithM NdArray NdFacts DataArrayM SpecArrays Checks StrFun NetCDF SpecNetCDF UtilM SpecUtil UtilMain UtilAlias
  Duck SpecDuck DuckMain Calendar CalendarMain MonComp SpecMonComp MonCompMain Ex_Components Ex_NetCDF.
Import ListNotations.
Open Scope string_scope.
Open Scope nat_scope.
Open Scope list_scope.

(** ** C59 *)

Definition wind_yxh : da Qc := mkda ["y"; "x"; "height"] (cramp [2; 3; 2]) [("units", "m s^-1")].

Definition nats_are (l : list Qc) (ns : list nat) : bool := if list_eq_dec Qc_eq_dec l (map (fun n => cz (Z.of_nat n)) ns) then true else false.
Definition shape_is (s s' : list nat) : bool := if list_eq_dec Nat.eq_dec s s' then true else false.

Lemma ex_get_hyps : wf_da wind_yxh /\ ~ In "*" (dims wind_yxh) /\ describes wind_yxh ["height"; "*"] /\ describes wind_yxh ["x"; "z"; "height"; "y"] /\ ~ describes wind_yxh ["x"; "height"] /\ ~ describes wind_yxh ["*"; "lat"].
Proof.
  split. apply wf_dab_ok; reflexivity. split. cbn; intuition discriminate. split.
  - split. cbn; intuition auto. split. cbn; intuition auto. split. intros d Hd. cbn in Hd. destruct Hd as [<-|[<-|[<-|[]]]]; cbn; lia. intros _. cbn. lia.
  - split.
    + split. cbn; intuition auto. split. cbn; intuition auto. split. intros d Hd. cbn in Hd. destruct Hd as [<-|[<-|[<-|[]]]]; cbn; lia. intros _. cbn. lia.
    + split.
      * intros (_ & H & _). specialize (H "y"). cbn in H. destruct H as [[E|[E|[]]]|[E|[E|[]]]]; auto; discriminate E.
      * intros (H & _). specialize (H "lat"). cbn in H. destruct H as [[E|[E|[E|[]]]]|[E|[E|[E|[E|[]]]]]]; auto; discriminate E.
Qed.

(** height first, then y and x flattened *)
Lemma ex_get_case : match get_numpy wind_yxh ["height"; "*"] None with
                    | Ok (r, w) => shape_is (shape r) [2; 6] && nats_are (data r) [0; 2; 4; 6; 8; 10; 1; 3; 5; 7; 9; 11] && (match dget "*" w with Some l => list_eqb l ["y"; "x"] | None => false end)
                    | Err _ => false
                    end = true.
Proof. vm_compute. reflexivity. Qed.

Lemma ex_restore_case : match restore_dims (cramp [2; 6]) ["height"; "*"] wind_yxh [("units", "K")] with
                        | Ok b => list_eqb (dims b) ["y"; "x"; "height"] && shape_is (shape (arr b)) [2; 3; 2] && nats_are (data (arr b)) [0; 6; 1; 7; 2; 8; 3; 9; 4; 10; 5; 11]
                        | Err _ => false
                        end = true.
Proof. vm_compute. reflexivity. Qed.

Definition differs (a b : da Qc) : bool := if list_eq_dec Qc_eq_dec (data (arr a)) (data (arr b)) then false else true.

Lemma ex_required_order : exists (a : da Qc) out w r w' b, wf_da a /\ ~ In "*" (dims a) /\ get_numpy a out (Some w) = Ok (r, w') /\ restore_dims r out a (attrs a) = Ok b /\ arr b <> arr a.
Proof.
  assert (H : match get_numpy wind_yxh ["height"; "*"] (Some [("*", ["x"; "y"])]) with
              | Ok (r, w) => match restore_dims r ["height"; "*"] wind_yxh (attrs wind_yxh) with Ok b => differs b wind_yxh | Err _ => false end
              | Err _ => false
              end = true) by (vm_compute; reflexivity).
  destruct (get_numpy wind_yxh ["height"; "*"] (Some [("*", ["x"; "y"])])) as [(r & w')|] eqn:E1; [|discriminate H].
  destruct (restore_dims r ["height"; "*"] wind_yxh (attrs wind_yxh)) as [b|] eqn:E2; [|discriminate H].
  exists wind_yxh, ["height"; "*"], [("*", ["x"; "y"])], r, w', b. destruct ex_get_hyps as (W & S & _). split; [exact W|]. split; [exact S|]. split; [exact E1|]. split; [exact E2|].
  intros E. unfold differs in H. rewrite E in H. destruct (list_eq_dec Qc_eq_dec (data (arr wind_yxh)) (data (arr wind_yxh))); [discriminate H|contradiction].
Qed.

(** ** C60 *)

Definition aliased (al : string) : props := mkprops None false (Some "m") (Some al) false.
Definition unaliased : props := mkprops None false (Some "m") None false.
Definition cs_alias : list propsets :=
  [mkpropsets (Some [("wind", aliased "u")]) None (Some [("cloud", aliased "c1"); ("rain", aliased "r")]) (Some [("wind", aliased "t")]);
   mkpropsets (Some [("wind", unaliased); ("cloud", unaliased)]) (Some [("cloud", aliased "c2")]) None None;
   mkpropsets (Some [("wind", aliased "v")]) None (Some [("cloud", aliased "c3")]) None].

Lemma ex_aliases : get_component_aliases cs_alias = [("wind", "v"); ("cloud", "c2"); ("rain", "r")].
Proof. reflexivity. Qed.

(** ** C63 *)

Lemma ex_same_list : NoDup ["x"; "y"; "z"] /\ same_list ["x"; "y"; "z"] ["z"; "x"; "y"] = true /\ same_list ["x"; "y"; "z"] ["x"; "y"; "y"] = false.
Proof. split. apply nodupb_ok; reflexivity. split; reflexivity. Qed.

Lemma ex_same_list_refuted : exists a b, same_list a b = true /\ ~ Permutation a b.
Proof.
  exists ["x"; "x"; "y"], ["x"; "y"; "y"]. split. reflexivity. intros H. apply Permutation_cons_inv in H.
  assert (H' : Permutation ["y"; "x"] ["y"; "y"]) by (eapply Permutation_trans; [apply perm_swap|exact H]). apply Permutation_cons_inv, Permutation_length_1 in H'. discriminate H'.
Qed.

(** ** C61, C68 *)

Definition stepper_attrs : list string := ["input_properties"; "diagnostic_properties"; "output_properties"; "array_call"; "tendencies_in_diagnostics"].
Definition tendency_attrs : list string := ["input_properties"; "tendency_properties"; "diagnostic_properties"; "array_call"; "tendencies_in_diagnostics"; "name"].
Definition diagnostic_attrs : list string := ["input_properties"; "diagnostic_properties"; "array_call"].
Definition args_plain : list (string * arg_default) := [("self", Required); ("state", Required)].
Definition args_timestep (d : arg_default) : list (string * arg_default) := args_plain ++ [("timestep", d)].

Lemma ex_duck : map (fun k => is_instance k (mkobj [] stepper_attrs (Some (args_timestep Required)))) [KStepper; KTendency; KImplicit; KDiagnostic] = [true; false; false; false]
  /\ map (fun k => is_instance k (mkobj [] tendency_attrs (Some args_plain))) [KStepper; KTendency; KImplicit; KDiagnostic] = [false; true; false; false]
  /\ map (fun k => is_instance k (mkobj [] tendency_attrs (Some (args_timestep DefaultOther)))) [KStepper; KTendency; KImplicit; KDiagnostic] = [false; false; true; false]
  /\ map (fun k => is_instance k (mkobj [] tendency_attrs (Some (args_timestep DefaultNone)))) [KStepper; KTendency; KImplicit; KDiagnostic] = [false; true; true; false]
  /\ map (fun k => is_instance k (mkobj [] diagnostic_attrs (Some args_plain))) [KStepper; KTendency; KImplicit; KDiagnostic] = [false; false; false; true]
  /\ map (fun k => is_instance k (mkobj [] diagnostic_attrs (Some (args_timestep Required)))) [KStepper; KTendency; KImplicit; KDiagnostic] = [false; false; false; false].
Proof. repeat split. Qed.

Definition a_stepper : obj := mkobj [KStepper] ("name" :: stepper_attrs) (Some (args_timestep Required)).
Definition an_implicit : obj := mkobj [KImplicit] tendency_attrs (Some (args_timestep Required)).
Definition a_tendency : obj := mkobj [KTendency] tendency_attrs (Some args_plain).
Definition a_diagnostic : obj := mkobj [KDiagnostic] diagnostic_attrs (Some args_plain).

Ltac has_them := unfold attributes_of, common, has; cbn; intuition discriminate.

Lemma ex_attributes : attributes_of KStepper a_stepper /\ attributes_of KImplicit an_implicit /\ attributes_of KTendency a_tendency /\ attributes_of KDiagnostic a_diagnostic
  /\ o_bases a_stepper = [KStepper] /\ o_bases an_implicit = [KImplicit] /\ o_bases a_tendency = [KTendency] /\ o_bases a_diagnostic = [KDiagnostic].
Proof. repeat split; try reflexivity; try has_them; unfold has; cbn; intuition discriminate. Qed.

(** A body that gives back the timestep it was called with. *)
Definition echo (ts : option Z) : res (option Z) := Ok ts.

Lemma ex_nested : ~ scaling_outside [Frequency; Frequency; Scaling] /\ call_through [Frequency; Frequency; Scaling] an_implicit KImplicit echo (Some 60%Z) = Ok (Some 60%Z)
  /\ call_through [Scaling; Frequency; Scaling] a_stepper KStepper echo (Some 60%Z) = Ok (Some 60%Z)
  /\ call_through [Scaling; Frequency] a_tendency KTendency echo (Some 60%Z) = Ok None
  /\ call_through [Frequency; Scaling] a_diagnostic KDiagnostic echo (Some 60%Z) = Ok None.
Proof.
  split. { intros (a & w & b & E). destruct a as [|x a]. discriminate E. injection E as _ E. destruct a as [|y a]. discriminate E. injection E as _ E. destruct a as [|z a]; injection E as E. discriminate E. destruct a; discriminate H. }
  repeat split.
Qed.

Lemma ex_scaling_outside : exists ws o dt, o_bases o = [KImplicit] /\ attributes_of KImplicit o /\ is_instance KImplicit (wrap_all ws o) = true /\ scaling_accepts (wrap_all (tl ws) o) = true
  /\ forall body : option Z -> res unit, call_through ws o KImplicit body (Some dt) = Err EType.
Proof.
  exists [Scaling; Frequency], an_implicit, 60%Z. split. reflexivity. split. apply ex_attributes. split. reflexivity. split. reflexivity.
  intros body. apply main_implicit_fails. reflexivity. apply ex_attributes. exists [], Frequency, []. reflexivity.
Qed.

(** A class that inherits from Stepper but lacks the attributes: it stops being one when wrapped. *)
Definition bare_stepper : obj := mkobj [KStepper] ["input_properties"; "diagnostic_properties"; "output_properties"; "array_call"; "tendencies_in_diagnostics"; "tendency_properties"] (Some (args_timestep Required)).
Lemma ex_extra_attribute : exists o w, is_instance KStepper o = true /\ forall k, is_instance k (wrap_all [w] o) = false.
Proof. exists bare_stepper, Scaling. split. reflexivity. intros []; reflexivity. Qed.

(** ** C62 *)

Definition keep (c : calendar) (fields : nat) (tz : option unit) : res (calendar * nat) := Ok (c, fields).
Lemma ex_calendar : In ("360_day", Day360) documented /\ same_but_case "360_DAY" "360_day" /\ datetime keep 7 None "360_DAY" true = Ok (Some (Day360, 7))
  /\ datetime keep 7 (Some tt) "Julian" true = Err EValue /\ datetime keep 7 None "Julian" false = Err EImport /\ datetime keep 7 (Some tt) "Proleptic_Gregorian" false = Ok (Some (PythonDatetime, 7)).
Proof. split. cbn; auto 10. split. apply same_but_case_lower; reflexivity. repeat split. Qed.

Lemma ex_unknown_calendar : exists name, (forall n c, In (n, c) documented -> ~ same_but_case name n) /\ datetime keep 7 None name true = Ok None.
Proof.
  exists "standard". split; [|reflexivity]. intros n c Hi H. apply same_but_case_lower in H. cbn [documented In] in Hi.
  repeat (destruct Hi as [Hi|Hi]; [injection Hi as <- _; discriminate H|]). destruct Hi.
Qed.

(** ** C58 *)

(** Monitors that add up the states, the second refusing 3. *)
Definition adder : storer (list nat) nat := fun w st => (w ++ [st], Ok tt).
Definition picky : storer (list nat) nat := fun w st => if Nat.eqb st 3 then (w ++ [100], Err EValue) else (w, Ok tt).
Lemma ex_composite : composite_run (recordings 0 [adder; picky; adder]) ([], []) [2; 3] =
  (([2; 2; 3; 100], [(0, 2, Ok tt); (1, 2, Ok tt); (2, 2, Ok tt); (0, 3, Ok tt); (1, 3, Err EValue)]), [Ok tt; Err EValue]).
Proof. reflexivity. Qed.

Definition both (t k : Z) : state Qc := ("pressure", VDA (mkda [] (cramp []) [("units", "Pa")])) :: lone t k.
Definition mons : list monitor := [mkmon "a.nc" "seconds" (Some ["x_wind"]) true [] false; mkmon "b.nc" "seconds" None true [] false; mkmon "c.nc" "seconds" (Some ["x_wind"]) true [] false].
Definition file_times (fs : files Qc) (f : string) : list Z := match dget f fs with Some f => times_of f | None => [] end.
Lemma ex_nc_composite : NoDup (map m_file mons) /\ length mons = length [[]; []; [] : cache_t Qc] /\
  match composite_run (nc_storers ident 0 mons) ([], [[]; []; []]) [lone 0 1; both second 2; lone (2 * second) 3] with
  | ((fs, cs), os) => match os with [Ok _; Err _; Err _] => true | _ => false end
                      && zs_eq (file_times fs "a.nc") [0; 1; 2]%Z && zs_eq (file_times fs "c.nc") [0]%Z
  end = true.
Proof. split. apply nodupb_ok; reflexivity. split. reflexivity. vm_compute. reflexivity. Qed.
