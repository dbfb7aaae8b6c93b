(** Specification vocabulary for constants (C49-C52, C66). *)
From Coq Require Import String List Bool Arith QArith.
From Verif Require Import Prelude ArithM Units DataArrayM StrFun Constants.
Import ListNotations.
Open Scope string_scope.
Open Scope nat_scope.
Open Scope list_scope.

(** Following aliases from [name] leads to [k], which is not an alias, in [h] steps. *)
Inductive resolves (al : dict string) : string -> nat -> string -> Prop :=
| resolves_here : forall n, ~ In n (keys al) -> resolves al n 0 n
| resolves_hop : forall n m h k, dget n al = Some m -> resolves al m h k -> resolves al n (S h) k.

(** Following aliases from [name] leads to a stored name, with value [v]. *)
Inductive reaches {V} (al : dict string) (store : dict V) : string -> V -> Prop :=
| reaches_stored : forall n v, dget n store = Some v -> reaches al store n v
| reaches_alias : forall n m v, dget n store = None -> dget n al = Some m -> reaches al store m v -> reaches al store n v.

(** What a constant's name denotes while the condensible is [c]; [None] when the aliases
    go round in a circle. *)
Definition phase_name (c name : string) : option string :=
  match dget name condensible_affixes with
  | Some (before, after) => let k := (before ++ c ++ after)%string in if mem k (keys condensible_affixes) then None else Some k
  | None => Some name
  end.

Definition meaning (c name : string) : option string :=
  match dget name default_aliases with
  | Some other => phase_name c other
  | None => phase_name c name
  end.

Section History.
  Context {T : Type} {A : Arith T} {R : Registry}.

  (** A number given in units [u], in units [u']. *)
  Definition in_units (v : T) (u u' : string) : res T :=
    let* x := parseE u in
    let* x' := parseE u' in
    if one_eqb x x' then Ok v else if udim_eqb x x' then Ok (uconv x x' v) else Err EValue.

  (** The library as a user thinks of it: the condensible, and each constant's number and units. *)
  Record library : Type := mklibrary { condensible : string; known : string -> option (T * string) }.

  Definition at_import : library :=
    mklibrary "water" (fun k => option_map (fun qu : Q * string => (aofQ (fst qu), snd qu)) (dget k default_values)).

  Definition library_step (s : library) (op : const_op T) : library :=
    match op with
    | SetConstant n v u =>
        match meaning (condensible s) n with
        | Some k => if is_valid_unit u then mklibrary (condensible s) (fun k' => if String.eqb k' k then Some (v, u) else known s k') else s
        | None => s
        end
    | SetCondensible c => mklibrary c (known s)
    | ResetConstants => at_import
    end.

  Definition library_after (ops : list (const_op T)) : library := fold_left library_step ops at_import.

  (** What asking for a constant gives. *)
  Definition lookup (s : library) (name u : string) : res T :=
    match meaning (condensible s) name with
    | None => Err ERuntime
    | Some k => match known s k with
                | Some (v, u0) => in_units v u0 u
                | None => Err EKey
                end
    end.
  (** The number and units a name stands for. *)
  Definition stands_for (s : library) (n : string) : option (T * string) :=
    match meaning (condensible s) n with Some k => known s k | None => None end.
End History.
Arguments library T : clear implicits.

(** The constants sympl lists under a category. *)
Definition categorised : list string := concat (map snd categories).

(** The units as printed. *)
Definition shown_units (name u : string) : string := if mem name categorised then str_replace "dimensionless" "" u else u.

(** The lines of a listing. *)
Definition listing_lines {L} (r : list (string * list L)) : list L := concat (map snd r).
