(** Concrete cases of the theorems about constants. *)
From Coq Require Import String Ascii List Bool Arith ZArith QArith Qcanon Lia.
From Verif Require Import Prelude PreludeFacts ArithM NdArray Units UnitsFacts DataArrayM StrFun Constants SpecUnits ExampleRegistry SpecConstants Checks
  ConstantsFacts ConstantsList Ex_Components.
Import ListNotations.
Open Scope string_scope.
Open Scope nat_scope.
Open Scope list_scope.

#[local] Existing Instance ex_registry | 5.

Definition gives (r : res Qc) (x : Qc) : bool := match r with Ok y => Qc_eqb y x | Err _ => false end.

(** Another condensible, one of its constants set through the general name, a radius in other units. *)
Definition methane_ops : list (const_op Qc) :=
  [SetConstant "freezing_temperature_of_liquid_phase" (cz 200) "K"; SetCondensible "methane"; SetConstant "freezing_temperature_of_liquid_phase" (cz 90) "K";
   SetConstant "planetary_radius" (cz 5000) "km"; SetConstant "planetary_radius" (cz 3) "furlong"; SetConstant "moons" (cz 2) "dimensionless"].

Lemma ex_history :
  gives (get_constant (lib_after methane_ops) "freezing_temperature_of_liquid_methane" "K") (cz 90)
  && gives (get_constant (lib_after methane_ops) "freezing_temperature_of_liquid_phase" "K") (cz 90)
  && gives (get_constant (lib_after methane_ops) "freezing_temperature_of_liquid_water" "K") (cz 200)
  && gives (get_constant (lib_after methane_ops) "planetary_radius" "m") (cz 5000000)
  && match get_constant (lib_after methane_ops) "planetary_radius" "s" with Err EValue => true | _ => false end
  && match get_constant (lib_after methane_ops) "density_of_liquid_methane" "kg" with Err EKey => true | _ => false end = true.
Proof. vm_compute. reflexivity. Qed.

Lemma ex_set_get : exists l' : clib Qc, set_constant (lib_after methane_ops) "freezing_temperature_of_liquid_phase" (cz 91) "K" = Ok l' /\
  get_alias (c_alias l') "freezing_temperature_of_liquid_methane" = get_alias (c_alias l') "freezing_temperature_of_liquid_phase" /\
  get_alias (c_alias l') "planetary_radius" <> get_alias (c_alias l') "freezing_temperature_of_liquid_phase".
Proof.
  eexists. split. { vm_compute. reflexivity. } split. { vm_compute. reflexivity. }
  intros H. apply (f_equal (fun r => match r with Ok k => String.eqb k "planetary_radius" | Err _ => false end)) in H. vm_compute in H. discriminate H.
Qed.

Lemma ex_set_refused : set_constant (lib_after methane_ops) "planetary_radius" (cz 3) "furlong" = Err EValue.
Proof. vm_compute. reflexivity. Qed.

Lemma ex_two_hops : condensible (library_after methane_ops) <> "phase" /\
  resolves (c_alias (lib_after methane_ops)) "density_of_ice" 2 "density_of_solid_methane_as_ice".
Proof.
  split. { vm_compute. discriminate. }
  eapply resolves_hop. { vm_compute. reflexivity. } eapply resolves_hop. { vm_compute. reflexivity. } constructor. apply mem_false. vm_compute. reflexivity.
Qed.

(** Names that go round in a circle, and one that joins it. *)
Definition circle : dict string := [("a", "b"); ("b", "a"); ("c", "a"); ("d", "e"); ("f", "d")].

Lemma ex_circle : length circle <= 100 /\ get_alias circle "c" = Err ERuntime /\ get_alias circle "f" = Ok "e".
Proof. split. { cbn. lia. } split; vm_compute; reflexivity. Qed.

Lemma ex_listing : NoDup (keys circle) /\ NoDup (keys [("e", 1); ("b", 2)]) /\
  proxy_loop 6 circle [("e", 1); ("b", 2)] = Some [("e", 1); ("b", 2); ("a", 2); ("d", 1); ("c", 2); ("f", 1)].
Proof. split. { apply nodupb_ok. reflexivity. } split. { apply nodupb_ok. reflexivity. } vm_compute. reflexivity. Qed.

Lemma ex_items : match const_items (lib_after methane_ops) with
  | Some d => Nat.ltb 30 (length d) && mem "freezing_temperature_of_liquid_phase" (keys d) && mem "freezing_temperature_of_liquid_methane" (keys d)
              && negb (mem "density_of_liquid_phase" (keys d)) && mem "moons" (keys d)
  | None => false end = true.
Proof. vm_compute. reflexivity. Qed.

Definition water_ops : list (const_op Qc) := [SetCondensible "methane"; ResetConstants; SetConstant "moons" (cz 2) "dimensionless"; SetConstant "solar_constant" (cz 1300) "kg"].

Lemma ex_repr : condensible (library_after water_ops) = "water" /\
  match const_repr (lib_after water_ops) with
  | Ok r => list_eqb (keys r) ["planetary"; "physical"; "condensible"; "atmospheric"; "stellar"; "chemical"; "user defined"] &&
            existsb (fun line => match line with (n, x, u) => String.eqb n "stellar_irradiance" && Qc_eqb x (cz 1300) && String.eqb u "kg" end) (listing_lines r) &&
            existsb (fun line => match line with (n, x, u) => String.eqb n "moons" && Qc_eqb x (cz 2) && String.eqb u "dimensionless" end) (listing_lines r)
  | Err _ => false end = true.
Proof. split. { reflexivity. } vm_compute. reflexivity. Qed.

(** After choosing another condensible, the constants cannot be listed. *)
Lemma ex_repr_fails : exists ops : list (const_op Qc), ops = [SetCondensible "methane"] /\ const_repr (lib_after ops) = Err EKey.
Proof. eexists. split. { reflexivity. } vm_compute. reflexivity. Qed.
