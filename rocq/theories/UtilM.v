(** The public helpers of sympl/_core/util.py that the components do not use:
    get_numpy_array, restore_dimensions, get_component_aliases. *)
From Coq Require Import String List Bool Arith ZArith.
From Verif Require Import Prelude ArithM NdArray DataArrayM NetCDF.
Import ListNotations.
Open Scope string_scope.
Open Scope nat_scope.
Open Scope list_scope.

Section UtilM.
  Context {T : Type} {A : Arith T}.

  (** xarray: a.transpose( *ds).values; ValueError unless [ds] are the dims of [a], each
      once.  The length of a dim is len(a.coords[d]). *)
  Definition transpose_to (a : da T) (ds : list string) : res (nd T) :=
    if same_list ds (dims a) then
      Ok (build (map (fun d => or1 (dim_len a d)) ds) (fun idx => at_ (arr a) (map (coord ds idx) (dims a))))
    else Err EValue.

  (** util.py 234-272: get_input_array_dim_names, with the dim_names of 85-88 and 153-156,
      in which every direction but '*' stands for itself *)
  Definition dim_names (a : da T) (out_dims : list string) : res (dict (list string)) :=
    let* m := foldM (fun m d =>
                       if String.eqb d "*" then Ok m
                       else let ns := filter (fun x => String.eqb x d) (dims a) in
                            if negb (mem d ["x"; "y"; "z"; "*"]) && Nat.eqb (length ns) 0 then Err ENoMatch
                            else Ok (dset d ns m)) out_dims [] in
    if mem "*" out_dims then Ok (dset "*" (filter (fun x => negb (existsb (fun ns => mem x (snd ns)) m)) (dims a)) m)
    else Ok m.

  (** util.py 275-285: get_target_dimension_order *)
  Definition target_order (m : dict (list string)) (out_dims : list string) : res (list string) :=
    foldM (fun acc d => let* ns := dgetE d m in Ok (acc ++ ns)) out_dims [].

  (** util.py 288-310: get_slices_and_placeholder_nones.  The slices select everything and
      the placeholders add axes of length one, which is left to the reshape; what is kept is
      the exception. *)
  Definition check_slices (m : dict (list string)) (out_dims : list string) : res unit :=
    foldM (fun _ d => let* ns := dgetE d m in
                      raise_if (negb (String.eqb d "*") && Nat.ltb 1 (length ns)) EValue) out_dims tt.

  (** util.py 313-328: get_final_shape *)
  Definition final_shape (a : da T) (m : dict (list string)) (out_dims : list string) : res (list nat) :=
    mapM (fun d => let* ns := dgetE d m in
                   Ok (match ns with [] => 1 | _ => prod (map (fun x => or1 (dim_len a x)) ns) end)) out_dims.

  (** util.py 91-103: require_wildcard_matches *)
  Definition require_matches (w : dict (list string)) (out_dims : list string) (m : dict (list string)) : res (dict (list string)) :=
    foldM (fun m d => match dget d w with
                      | Some ws => let* ns := dgetE d m in Ok (if same_list ns ws then dset d ws m else m)
                      | None => Ok m
                      end) out_dims m.

  (** util.py 34-116: get_numpy_array, with the wildcard matches it returns if asked *)
  Definition get_numpy (a : da T) (out_dims : list string) (required : option (dict (list string))) : res (nd T * dict (list string)) :=
    match shape (arr a), out_dims with
    | [], [] => Ok (arr a, [])
    | _, _ =>
        let* m := dim_names a out_dims in
        let* m := match required with Some w => require_matches w out_dims m | None => Ok m end in
        let* target := target_order m out_dims in
        if forallb (fun d => mem d target) (dims a) then
          let* _ := check_slices m out_dims in
          let* sh := final_shape a m out_dims in
          let* t := transpose_to a target in
          let* r := reshape t sh in
          Ok (r, filter (fun kv => String.eqb (fst kv) "*") m)
        else Err EDimNotInOut
    end.

  (** util.py 119-180: restore_dimensions.  Coordinates are left out. *)
  Definition restore_dims (v : nd T) (from_dims : list string) (like : da T) (result_attrs : dict string) : res (da T) :=
    let* m := dim_names like from_dims in
    let* ds := target_order m from_dims in
    let sh := map (fun d => or1 (dim_len like d)) ds in
    if negb (Nat.eqb (prod (shape v)) (prod sh)) then Err EShapeMismatch else
    let* r := reshape v sh in
    let* t := transpose_to (mkda ds r []) (dims like) in
    Ok (mkda (dims like) t result_attrs).
End UtilM.

(** The property dictionaries a component has, if any. *)
Record propsets : Type := mkpropsets {
  ps_input : option pdict;
  ps_output : option pdict;
  ps_diagnostic : option pdict;
  ps_tendency : option pdict
}.

(** util.py 331-362: get_component_aliases *)
Definition get_component_aliases (cs : list propsets) : dict string :=
  fold_left (fun d get =>
    fold_left (fun d c =>
      match get c with
      | None => d
      | Some pd => fold_left (fun d np => match p_alias (snd np) with Some al => dset (fst np) al d | None => d end) pd d
      end) cs d) [ps_tendency; ps_diagnostic; ps_output; ps_input] [].
