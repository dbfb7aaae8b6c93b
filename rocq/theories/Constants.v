(** sympl/_core/constants.py
    The module globals [constants] and [constant_aliases] are a value of type [clib].
    A stored constant is a DataArray without dims holding one number, with its units.
    dict.update of or from a ConstantDict copies the stored entries as they are (CPython
    does not call overridden keys and __getitem__ of a dict subclass there). *)
From Coq Require Import String List Bool Arith ZArith QArith.
From Verif Require Import Prelude ArithM NdArray Units DataArrayM StrFun.
Import ListNotations.
Open Scope string_scope.
Open Scope nat_scope.
Open Scope list_scope.

(** constants.py 84-94: default_constant_aliases *)
Definition default_aliases : dict string :=
  [ ("latent_heat_of_condensation", "latent_heat_of_vaporization");
    ("enthalpy_of_fusion", "latent_heat_of_fusion");
    ("stellar_irradiance", "solar_constant");
    ("heat_capacity_of_ice", "heat_capacity_of_solid_phase_as_ice");
    ("heat_capacity_of_snow", "heat_capacity_of_solid_phase_as_snow");
    ("thermal_conductivity_of_ice", "thermal_conductivity_of_solid_phase_as_ice");
    ("thermal_conductivity_of_snow", "thermal_conductivity_of_solid_phase_as_snow");
    ("density_of_ice", "density_of_solid_phase_as_ice");
    ("density_of_snow", "density_of_solid_phase_as_snow") ].

(** constants.py 96-129: default_constants; the literals as rationals. *)
Definition default_values : dict (Q * string) :=
  [ ("stefan_boltzmann_constant", ((5670367 # 100000000000000)%Q, "W m^-2 K^-4"));
    ("gravitational_acceleration", ((196133 # 20000)%Q, "m s^-2"));
    ("heat_capacity_of_dry_air_at_constant_pressure", ((25116 # 25)%Q, "J kg^-1 K^-1"));
    ("heat_capacity_of_water_vapor_at_constant_pressure", ((1846 # 1)%Q, "J kg^-1 K^-1"));
    ("specific_enthalpy_of_water_vapor", ((2500 # 1)%Q, "J kg^-1"));
    ("heat_capacity_of_liquid_water", ((8371 # 2)%Q, "J kg^-1 K^-1"));
    ("freezing_temperature_of_liquid_water", ((273 # 1)%Q, "K"));
    ("thermal_conductivity_of_liquid_water", ((57 # 100)%Q, "W m^-1 K^-1"));
    ("heat_capacity_of_solid_water_as_ice", ((2108 # 1)%Q, "J kg^-1 K^-1"));
    ("thermal_conductivity_of_solid_water_as_ice", ((111 # 50)%Q, "W m^-1 K^-1"));
    ("heat_capacity_of_solid_water_as_snow", ((2108 # 1)%Q, "J kg^-1 K^-1"));
    ("thermal_conductivity_of_solid_water_as_snow", ((1 # 5)%Q, "W m^-1 K^-1"));
    ("reference_air_pressure", ((101320 # 1)%Q, "Pa"));
    ("reference_air_temperature", ((300 # 1)%Q, "degK"));
    ("thermal_conductivity_of_dry_air", ((13 # 500)%Q, "W m^-1 K^-1"));
    ("gas_constant_of_dry_air", ((287 # 1)%Q, "J kg^-1 K^-1"));
    ("gas_constant_of_water_vapor", ((923 # 2)%Q, "J kg^-1 K^-1"));
    ("planetary_rotation_rate", ((1823 # 25000000)%Q, "s^-1"));
    ("planetary_radius", ((6371000 # 1)%Q, "m"));
    ("latent_heat_of_vaporization_of_water", ((2500000 # 1)%Q, "J kg^-1"));
    ("latent_heat_of_fusion_of_water", ((333550 # 1)%Q, "J kg^-1"));
    ("density_of_liquid_water", ((1000 # 1)%Q, "kg m^-3"));
    ("density_of_solid_water_as_ice", ((9167 # 10)%Q, "kg m^-3"));
    ("density_of_solid_water_as_snow", ((100 # 1)%Q, "kg m^-3"));
    ("solar_constant", ((1367 # 1)%Q, "W m^-2"));
    ("planck_constant", ((165651751 # 250000000000000000000000000000000000000000)%Q, "J s"));
    ("speed_of_light", ((299792458 # 1)%Q, "m s^-1"));
    ("seconds_per_day", ((86400 # 1)%Q, "dimensionless"));
    ("avogadro_constant", ((602214085700000000000000 # 1)%Q, "mole^-1"));
    ("boltzmann_constant", ((34516213 # 2500000000000000000000000000000)%Q, "J K^-1"));
    ("loschmidt_constant", ((26516467000000000000000000 # 1)%Q, "m^-3"));
    ("universal_gas_constant", ((41572299 # 5000000)%Q, "J mole^-1 K^-1")) ].

(** constants.py 131-209: constant_names_by_category *)
Definition categories : dict (list string) :=
  [ ("planetary", ["gravitational_acceleration"; "planetary_radius"; "planetary_rotation_rate"; "seconds_per_day"]);
    ("physical", ["stefan_boltzmann_constant"; "avogadro_constant"; "speed_of_light"; "boltzmann_constant"; "loschmidt_constant"; "universal_gas_constant"; "planck_constant"]);
    ("condensible", ["density_of_liquid_phase"; "heat_capacity_of_liquid_phase"; "heat_capacity_of_vapor_phase"; "specific_enthalpy_of_vapor_phase"; "gas_constant_of_vapor_phase"; "latent_heat_of_condensation"; "latent_heat_of_fusion"; "density_of_solid_phase_as_ice"; "density_of_solid_phase_as_snow"; "heat_capacity_of_solid_phase_as_ice"; "heat_capacity_of_solid_phase_as_snow"; "thermal_conductivity_of_solid_phase_as_ice"; "thermal_conductivity_of_solid_phase_as_snow"; "thermal_conductivity_of_liquid_phase"; "freezing_temperature_of_liquid_phase"; "enthalpy_of_fusion"; "latent_heat_of_vaporization"]);
    ("atmospheric", ["heat_capacity_of_dry_air_at_constant_pressure"; "gas_constant_of_dry_air"; "thermal_conductivity_of_dry_air"; "reference_air_pressure"; "reference_air_temperature"]);
    ("stellar", ["stellar_irradiance"; "solar_constant"]);
    ("oceanographic", []);
    ("chemical", ["heat_capacity_of_water_vapor_at_constant_pressure"; "density_of_liquid_water"; "gas_constant_of_water_vapor"; "latent_heat_of_vaporization_of_water"; "heat_capacity_of_liquid_water"; "latent_heat_of_fusion_of_water"; "heat_capacity_of_solid_water_as_ice"; "heat_capacity_of_solid_water_as_snow"; "thermal_conductivity_of_solid_water_as_ice"; "thermal_conductivity_of_solid_water_as_snow"; "thermal_conductivity_of_liquid_water"; "density_of_solid_water_as_ice"; "density_of_solid_water_as_snow"; "freezing_temperature_of_liquid_water"; "specific_enthalpy_of_water_vapor"; "density_of_snow"; "heat_capacity_of_snow"; "heat_capacity_of_ice"; "density_of_ice"; "thermal_conductivity_of_ice"; "thermal_conductivity_of_snow"]) ].

(** constants.py 212-229: the entries of get_condensible_map, with what precedes and
    what follows the name of the condensible. *)
Definition condensible_affixes : dict (string * string) :=
  [ ("gas_constant_of_vapor_phase", ("gas_constant_of_", "_vapor"));
    ("heat_capacity_of_vapor_phase", ("heat_capacity_of_", "_vapor_at_constant_pressure"));
    ("specific_enthalpy_of_vapor_phase", ("specific_enthalpy_of_", "_vapor"));
    ("density_of_liquid_phase", ("density_of_liquid_", ""));
    ("heat_capacity_of_liquid_phase", ("heat_capacity_of_liquid_", ""));
    ("latent_heat_of_vaporization", ("latent_heat_of_vaporization_of_", ""));
    ("freezing_temperature_of_liquid_phase", ("freezing_temperature_of_liquid_", ""));
    ("thermal_conductivity_of_liquid_phase", ("thermal_conductivity_of_liquid_", ""));
    ("latent_heat_of_fusion", ("latent_heat_of_fusion_of_", ""));
    ("density_of_solid_phase_as_ice", ("density_of_solid_", "_as_ice"));
    ("density_of_solid_phase_as_snow", ("density_of_solid_", "_as_snow"));
    ("heat_capacity_of_solid_phase_as_ice", ("heat_capacity_of_solid_", "_as_ice"));
    ("heat_capacity_of_solid_phase_as_snow", ("heat_capacity_of_solid_", "_as_snow"));
    ("thermal_conductivity_of_solid_phase_as_ice", ("thermal_conductivity_of_solid_", "_as_ice"));
    ("thermal_conductivity_of_solid_phase_as_snow", ("thermal_conductivity_of_solid_", "_as_snow")) ].

(** constants.py 212-229: get_condensible_map *)
Definition condensible_map (name : string) : dict string :=
  map (fun ka => (fst ka, (fst (snd ka) ++ name ++ snd (snd ka))%string)) condensible_affixes.

(** constants.py 236-238: the loop of get_alias. *)
Fixpoint chase (n : nat) (al : dict string) (name : string) : string :=
  match n with
  | 0 => name
  | S n' => match dget name al with
            | Some m => chase n' al m
            | None => name
            end
  end.

(** constants.py 232-241: get_alias *)
Definition get_alias (al : dict string) (name : string) : res string :=
  let m := chase 100 al name in
  if dmem m al then Err ERuntime else Ok m.

(** constants.py 45-48: the names added by one pass over the aliases. *)
Definition proxy_step {V} (al : dict string) (d : dict V) : dict V :=
  fold_left (fun new ao => match dget (snd ao) d with
                           | Some v => if dmem (fst ao) d then new else dset (fst ao) v new
                           | None => new
                           end) al [].

(** constants.py 43-54: the while loop of _proxy_dict.  n_iterations is never
    increased, so the loop ends only by the break; [None] is a loop that has not
    ended after [fuel] passes. *)
Fixpoint proxy_loop {V} (fuel : nat) (al : dict string) (d : dict V) : option (dict V) :=
  match fuel with
  | 0 => None
  | S fuel' => match proxy_step al d with
               | [] => Some d
               | new => proxy_loop fuel' al (dupdate d new)
               end
  end.

Section Constants.
  Context {T : Type} {A : Arith T} {R : Registry}.

  Record clib : Type := mkclib {
    c_store : dict (da T);
    c_alias : dict string
  }.

  (** get_container_type()(value, attrs={'units': units}) *)
  Definition scalar_da (v : T) (units : string) : da T := mkda [] (mknd [] [v]) [("units", units)].

  (** .values.item() *)
  Definition item (a : da T) : res T := match data (arr a) with [x] => Ok x | _ => Err EValue end.

  Definition default_constants : dict (da T) :=
    map (fun nv => (fst nv, scalar_da (aofQ (fst (snd nv))) (snd (snd nv)))) default_values.

  (** constants.py 297-309: reset_constants *)
  Definition reset_constants : clib :=
    mkclib (dupdate [] default_constants)
           (dupdate (dupdate [] default_aliases) (condensible_map "water")).

  (** constants.py 68-72: ConstantDict.__setitem__ *)
  Definition const_setitem (l : clib) (key : string) (v : da T) : res clib :=
    let* k := if dmem key (c_alias l) then get_alias (c_alias l) key else Ok key in
    Ok (mkclib (dset k v (c_store l)) (c_alias l)).

  (** constants.py 74-78: ConstantDict.__getitem__ *)
  Definition const_getitem (l : clib) (key : string) : res (da T) :=
    let* k := if dmem key (c_alias l) then get_alias (c_alias l) key else Ok key in
    dgetE k (c_store l).

  (** constants.py 244-260: set_constant *)
  Definition set_constant (l : clib) (name : string) (v : T) (units : string) : res clib :=
    if is_valid_unit units then
      let* k := get_alias (c_alias l) name in const_setitem l k (scalar_da v units)
    else Err EValue.

  (** constants.py 263-279: get_constant *)
  Definition get_constant (l : clib) (name units : string) : res T :=
    let* k := get_alias (c_alias l) name in
    let* a := const_getitem l k in
    let* a := to_units a units in
    item a.

  (** constants.py 293-294: set_condensible_name *)
  Definition set_condensible_name (l : clib) (name : string) : clib :=
    mkclib (c_store l) (dupdate (c_alias l) (condensible_map name)).

  (** constants.py 35-66: _proxy_dict, keys, values, items.  By then enough passes
      have been made (see the theorems); [None] would be a loop that never ends. *)
  Definition const_items (l : clib) : option (dict (da T)) :=
    proxy_loop (S (length (c_alias l))) (c_alias l) (c_store l).

  (** constants.py 10-33: _repr, as a list of headings with the names, numbers and units
      below them; the formatting of numbers and white space is left out. *)
  Definition repr_line (l : clib) (strip : bool) (name : string) : res (string * T * string) :=
    let* a := const_getitem l name in
    let* u := dgetE "units" (attrs a) in
    let* x := item a in
    Ok (name, x, if strip then str_replace "dimensionless" "" u else u).

  Definition const_repr (l : clib) : res (list (string * list (string * T * string))) :=
    let* cats := mapM (fun cn => let* lines := mapM (repr_line l true) (snd cn) in Ok (fst cn, lines)) categories in
    let printed := concat (map snd categories) in
    match const_items l with
    | None => Err ERuntime
    | Some d =>
        let others := filter (fun n => negb (mem n printed)) (keys d) in
        let* user := mapM (repr_line l false) others in
        Ok (filter (fun c => negb (Nat.eqb (length (snd c)) 0)) cats ++
            match user with [] => [] | _ => [("user defined", user)] end)
    end.

  (** ** Histories *)

  Inductive const_op : Type :=
  | SetConstant (name : string) (value : T) (units : string)
  | SetCondensible (name : string)
  | ResetConstants.

  (** What one call does to the globals; a call that raises changes nothing. *)
  Definition const_step (l : clib) (op : const_op) : clib :=
    match op with
    | SetConstant n v u => match set_constant l n v u with Ok l' => l' | Err _ => l end
    | SetCondensible n => set_condensible_name l n
    | ResetConstants => reset_constants
    end.

  (** constants.py 312: the module resets the constants when it is imported. *)
  Definition lib_after (ops : list const_op) : clib := fold_left const_step ops reset_constants.
End Constants.
Arguments clib T : clear implicits.
Arguments const_op T : clear implicits.
