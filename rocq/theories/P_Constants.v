(** Property theorems about constants (C49-C52, C66). *)
From Coq Require Import String List Bool Arith ZArith QArith Qcanon.
From Verif Require Import Prelude ArithM NdArray Units DataArrayM SpecUnits ExampleRegistry StrFun Constants SpecConstants ConstantsFacts ConstantsList
  Ex_Components Ex_Constants.
Import ListNotations.
Open Scope string_scope.
Open Scope nat_scope.
Open Scope list_scope.

#[local] Existing Instance ex_registry | 5.

(** C49: after every history of calls, asking for a constant gives the last number written
    to it, through whatever name, in the units asked for; see [library_step] and [lookup]. *)
Theorem c49_history : forall {T : Type} {A : Arith T} {R : Registry}, forall (ops : list (const_op T)) name u, get_constant (lib_after ops) name u = lookup (library_after ops) name u.
Proof. exact @main_constants_history. Qed.
Print Assumptions c49_history.

(** C49: a write is read back through every name of the constant; constants with other
    names keep their values; a refused write changes nothing. *)
Theorem c49_set_get : forall {T : Type} {A : Arith T} {R : Registry}, forall (ops : list (const_op T)) name v u,
  (forall l', set_constant (lib_after ops) name v u = Ok l' ->
  l' = lib_after (ops ++ [SetConstant name v u]) /\ get_constant l' name u = Ok v /\
  (forall m, get_alias (c_alias l') m = get_alias (c_alias l') name -> forall u', get_constant l' m u' = in_units v u u') /\
  (forall m, get_alias (c_alias l') m <> get_alias (c_alias l') name -> forall u', get_constant l' m u' = get_constant (lib_after ops) m u')) /\
  (forall e, set_constant (lib_after ops) name v u = Err e -> lib_after (ops ++ [SetConstant name v u]) = lib_after ops /\
  (is_valid_unit u = false /\ e = EValue \/ is_valid_unit u = true /\ get_alias (c_alias (lib_after ops)) name = Err ERuntime /\ e = ERuntime)).
Proof. exact @main_set_get. Qed.
Print Assumptions c49_set_get.

(** Two condensibles, general and specific names, other units, a refused write. *)
Example c49_history_case : gives (get_constant (lib_after methane_ops) "freezing_temperature_of_liquid_methane" "K") (cz 90)
  && gives (get_constant (lib_after methane_ops) "freezing_temperature_of_liquid_phase" "K") (cz 90)
  && gives (get_constant (lib_after methane_ops) "freezing_temperature_of_liquid_water" "K") (cz 200)
  && gives (get_constant (lib_after methane_ops) "planetary_radius" "m") (cz 5000000)
  && match get_constant (lib_after methane_ops) "planetary_radius" "s" with Err EValue => true | _ => false end
  && match get_constant (lib_after methane_ops) "density_of_liquid_methane" "kg" with Err EKey => true | _ => false end = true.
Proof. exact @ex_history. Qed.

(** Two names for one constant and one for another. *)
Example c49_set_get_hypotheses_met : exists l' : clib Qc, set_constant (lib_after methane_ops) "freezing_temperature_of_liquid_phase" (cz 91) "K" = Ok l' /\
  get_alias (c_alias l') "freezing_temperature_of_liquid_methane" = get_alias (c_alias l') "freezing_temperature_of_liquid_phase" /\
  get_alias (c_alias l') "planetary_radius" <> get_alias (c_alias l') "freezing_temperature_of_liquid_phase".
Proof. exact @ex_set_get. Qed.

(** A unit that is not known. *)
Example c49_set_refused_case : set_constant (lib_after methane_ops) "planetary_radius" (cz 3) "furlong" = Err EValue.
Proof. exact @ex_set_refused. Qed.

(** C49: the same for every table of aliases in which the names resolve. *)
Theorem c49_set_any_table : forall {T : Type} {A : Arith T} {R : Registry}, forall (l : clib T) name v u h k, resolves (c_alias l) name h k -> h <= 100 -> is_valid_unit u = true ->
  exists l', set_constant l name v u = Ok l' /\ c_alias l' = c_alias l /\
  (forall m hm, resolves (c_alias l) m hm k -> hm <= 100 ->
  get_constant l' m u = Ok v /\ forall u', get_constant l' m u' = (let* a := to_units (scalar_da v u) u' in item a)) /\
  (forall m hm k', resolves (c_alias l) m hm k' -> hm <= 100 -> k' <> k -> forall u', get_constant l' m u' = get_constant l m u').
Proof. exact @main_set_constant. Qed.
Print Assumptions c49_set_any_table.

(** C50: after every history whose last condensible is not 'phase', every name resolves
    in at most two steps. *)
Theorem c50_two_hops : forall {T : Type} {A : Arith T} {R : Registry}, forall (ops : list (const_op T)) name, condensible (library_after ops) <> "phase" ->
  exists h k, h <= 2 /\ resolves (c_alias (lib_after ops)) name h k /\ get_alias (c_alias (lib_after ops)) name = Ok k /\ meaning (condensible (library_after ops)) name = Some k.
Proof. exact @main_aliases_after. Qed.
Print Assumptions c50_two_hops.

(** Two steps from the density of ice. *)
Example c50_two_hops_hypotheses_met : condensible (library_after methane_ops) <> "phase" /\
  resolves (c_alias (lib_after methane_ops)) "density_of_ice" 2 "density_of_solid_methane_as_ice".
Proof. exact @ex_two_hops. Qed.

(** C50: the names of the phases stand for the constants of the condensible chosen last. *)
Theorem c50_condensible : forall {T : Type} {A : Arith T} {R : Registry}, forall (ops : list (const_op T)) c name before after, c <> "phase" -> In (name, (before, after)) condensible_affixes ->
  forall u, get_constant (lib_after (ops ++ [SetCondensible c])) name u = get_constant (lib_after (ops ++ [SetCondensible c])) (before ++ c ++ after)%string u.
Proof. exact @main_condensible. Qed.
Print Assumptions c50_condensible.

(** C50: what get_alias finds, for every table. *)
Theorem c50_get_alias : forall al name k, get_alias al name = Ok k <-> exists h, h <= 100 /\ resolves al name h k.
Proof. exact @main_get_alias. Qed.
Print Assumptions c50_get_alias.

(** C50: for tables of up to a hundred aliases, the error means exactly that the aliases go round in a circle. *)
Theorem c50_circle : forall al name, length al <= 100 -> (get_alias al name = Err ERuntime <-> forall h k, ~ resolves al name h k).
Proof. exact @main_circle. Qed.
Print Assumptions c50_circle.

(** A name that leads into a circle. *)
Example c50_circle_case : length circle <= 100 /\ get_alias circle "c" = Err ERuntime /\ get_alias circle "f" = Ok "e".
Proof. exact @ex_circle. Qed.

(** C50: with the condensible 'phase' the density of the liquid phase cannot be looked up. *)
Theorem c50_phase_circular : forall {T : Type} {A : Arith T} {R : Registry}, forall (ops : list (const_op T)) u,
  get_constant (lib_after (ops ++ [SetCondensible "phase"])) "density_of_liquid_phase" u = Err ERuntime.
Proof. exact @main_phase. Qed.
Print Assumptions c50_phase_circular.

(** C51: resetting forgets everything that came before. *)
Theorem c51_reset : forall {T : Type} {A : Arith T} {R : Registry}, forall ops ops' : list (const_op T), lib_after (ops ++ ResetConstants :: ops') = lib_after ops'.
Proof. exact @main_reset. Qed.
Print Assumptions c51_reset.

(** C51: the values at import. *)
Theorem c51_import : forall {T : Type} {A : Arith T} {R : Registry}, forall name u, get_constant (lib_after (T := T) []) name u =
  match meaning "water" name with
  | None => Err ERuntime
  | Some k => match dget k default_values with Some (q, u0) => in_units (aofQ q) u0 u | None => Err EKey end
  end.
Proof. exact @main_import. Qed.
Print Assumptions c51_import.

(** After choosing methane and resetting, the constants of water are listed again. *)
Example c51_case : condensible (library_after water_ops) = "water" /\
  match const_repr (lib_after water_ops) with
  | Ok r => list_eqb (keys r) ["planetary"; "physical"; "condensible"; "atmospheric"; "stellar"; "chemical"; "user defined"] &&
  existsb (fun line => match line with (n, x, u) => String.eqb n "stellar_irradiance" && Qc_eqb x (cz 1300) && String.eqb u "kg" end) (listing_lines r) &&
  existsb (fun line => match line with (n, x, u) => String.eqb n "moons" && Qc_eqb x (cz 2) && String.eqb u "dimensionless" end) (listing_lines r)
  | Err _ => false end = true.
Proof. exact @ex_repr. Qed.

(** C52: for every table of aliases, circular or not, the loop ends after at most one pass
    per alias and one more, and lists exactly the names that lead to a stored one. *)
Theorem c52_listing : forall {V : Type}, forall al (st : dict V), NoDup (keys al) -> NoDup (keys st) ->
  exists d, (forall passes, length al < passes -> proxy_loop passes al st = Some d) /\ NoDup (keys d) /\ forall n v, dget n d = Some v <-> reaches al st n v.
Proof. exact @main_listing. Qed.
Print Assumptions c52_listing.

(** A circle with a stored name in it. *)
Example c52_listing_hypotheses_met : NoDup (keys circle) /\ NoDup (keys [("e", 1); ("b", 2)]) /\
  proxy_loop 6 circle [("e", 1); ("b", 2)] = Some [("e", 1); ("b", 2); ("a", 2); ("d", 1); ("c", 2); ("f", 1)].
Proof. exact @ex_listing. Qed.

(** C52: after every history the listing has exactly the names that can be looked up, with
    the values that looking them up gives. *)
Theorem c52_items : forall {T : Type} {A : Arith T} {R : Registry}, forall ops : list (const_op T), exists d, const_items (lib_after ops) = Some d /\ NoDup (keys d) /\
  forall n a, dget n d = Some a <-> const_getitem (lib_after ops) n = Ok a.
Proof. exact @main_items_after. Qed.
Print Assumptions c52_items.

(** After choosing methane. *)
Example c52_items_case : match const_items (lib_after methane_ops) with
  | Some d => Nat.ltb 30 (length d) && mem "freezing_temperature_of_liquid_phase" (keys d) && mem "freezing_temperature_of_liquid_methane" (keys d)
  && negb (mem "density_of_liquid_phase" (keys d)) && mem "moons" (keys d)
  | None => false end = true.
Proof. exact @ex_items. Qed.

(** C66: if the text can be made, it has one line for every name that stands for a constant,
    with its number and units. *)
Theorem c66_listing : forall {T : Type} {A : Arith T} {R : Registry}, forall (ops : list (const_op T)) r, const_repr (lib_after ops) = Ok r ->
  NoDup (map (fun line => fst (fst line)) (listing_lines r)) /\
  forall n v w, In (n, v, w) (listing_lines r) <-> exists u, stands_for (library_after ops) n = Some (v, u) /\ w = shown_units n u.
Proof. exact @main_repr. Qed.
Print Assumptions c66_listing.

(** C66: the text can be made exactly when every name in the categories stands for a constant. *)
Theorem c66_listing_iff : forall {T : Type} {A : Arith T} {R : Registry}, forall ops : list (const_op T), (exists r, const_repr (lib_after ops) = Ok r) <-> forall n, In n categorised -> exists vu, stands_for (library_after ops) n = Some vu.
Proof. exact @main_repr_iff. Qed.
Print Assumptions c66_listing_iff.

(** C66: while the condensible is water, it can. *)
Theorem c66_water : forall {T : Type} {A : Arith T} {R : Registry}, forall ops : list (const_op T), condensible (library_after ops) = "water" -> exists r, const_repr (lib_after ops) = Ok r.
Proof. exact @main_repr_water. Qed.
Print Assumptions c66_water.

(** A constant under its two names, and a new one. *)
Example c66_case : condensible (library_after water_ops) = "water" /\
  match const_repr (lib_after water_ops) with
  | Ok r => list_eqb (keys r) ["planetary"; "physical"; "condensible"; "atmospheric"; "stellar"; "chemical"; "user defined"] &&
  existsb (fun line => match line with (n, x, u) => String.eqb n "stellar_irradiance" && Qc_eqb x (cz 1300) && String.eqb u "kg" end) (listing_lines r) &&
  existsb (fun line => match line with (n, x, u) => String.eqb n "moons" && Qc_eqb x (cz 2) && String.eqb u "dimensionless" end) (listing_lines r)
  | Err _ => false end = true.
Proof. exact @ex_repr. Qed.

(** C66 fails after choosing another condensible: listing the constants raises KeyError. *)
Theorem c66_condensible_refuted : exists ops : list (const_op Qc), ops = [SetCondensible "methane"] /\ const_repr (lib_after ops) = Err EKey.
Proof. exact @ex_repr_fails. Qed.
Print Assumptions c66_condensible_refuted.
