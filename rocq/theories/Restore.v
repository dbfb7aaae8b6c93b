(** sympl/_core/restore_dataarray.py and create_quantity in backend.py *)
From Coq Require Import String List Bool Arith ZArith.
From Verif Require Import Prelude ArithM NdArray Units DataArrayM Wildcard.
Import ListNotations.
Open Scope string_scope.
Open Scope nat_scope.
Open Scope list_scope.

Section Restore.
  Context {T : Type} {A : Arith T}.

  (** restore_dataarray.py 18-25: get_alias_or_name.  [output_properties[name]]
      is always present at the call site. *)
  Definition get_alias_or_name (name : string) (outp inp : pdict) : res string :=
    let* p := dgetE name outp in
    match p_alias p with
    | Some al => Ok al
    | None =>
        match dget name inp with
        | Some q => match p_alias q with Some al => Ok al | None => Ok name end
        | None => Ok name
        end
    end.

  (** restore_dataarray.py 28-43: check_array_shape *)
  Definition check_array_shape (out_dims : list string) (a : nd T) (dl : dict nat)
      : res unit :=
    if negb (Nat.eqb (length out_dims) (length (shape a))) then Err EInvalidProps
    else
      foldM (fun _ dn => match dget (fst dn) dl with
                         | Some n => if Nat.eqb n (snd dn) then Ok tt else Err EInvalidProps
                         | None => Ok tt
                         end) (combine out_dims (shape a)) tt.

  (** backend.py 88-89: create_quantity.  xarray raises ValueError when the
      number of dims differs from the rank. *)
  Definition create_quantity (a : nd T) (units : string) (ds : list string) : res (da T) :=
    if Nat.eqb (length ds) (length (shape a))
    then Ok (mkda ds a [("units", units)])
    else Err EValue.

  (** restore_dataarray.py 140-157: extract_output_dims_properties *)
  Definition extract_dims_step (inp : pdict) (ignore : list string)
      (acc : dict (list string)) (np : string * props) : res (dict (list string)) :=
    let name := fst np in
    if mem name ignore then Ok acc
    else match p_dims (snd np) with
         | Some ds => Ok (dset name ds acc)
         | None =>
             match dget name inp with
             | None => Err EInvalidProps
             | Some q => match p_dims q with
                         | None => Err EInvalidProps
                         | Some ds => Ok (dset name ds acc)
                         end
             end
         end.

  Definition extract_output_dims_properties (outp inp : pdict) (ignore : list string)
      : res (dict (list string)) :=
    foldM (extract_dims_step inp ignore) outp [].

  (** restore_dataarray.py 117-119: lengths of new named dims, taken from the raw
      array before the wildcard is expanded. *)
  Definition note_new_dims (ds : list string) (sh : list nat) (dl : dict nat) : dict nat :=
    fold_left (fun acc dn => if negb (dmem (fst dn) acc) && negb (String.eqb (fst dn) "*")
                             then dset (fst dn) (snd dn) acc else acc)
              (combine ds sh) dl.

  (** restore_dataarray.py 112-136: one iteration of the restoring loop; the
      accumulator carries dim_lengths, which the loop extends. *)
  Definition restore_step (raw : dict (nd T)) (outp inp : pdict)
      (wn : option (list string)) (ignore : list string)
      (acc : dict nat * dict (da T)) (nd_ : string * list string)
      : res (dict nat * dict (da T)) :=
    let (name, out_dims) := nd_ in
    let (dl, out) := acc in
    if mem name ignore then Ok acc
    else
      let* rn := get_alias_or_name name outp inp in
      let* r :=
        (if mem "*" out_dims then
          let* ra := dgetE rn raw in
          let dl' := note_new_dims out_dims (shape ra) dl in
          let* (ds, target) := fill_dims_wildcard out_dims dl' wn in
          let* oa := expand_array_wildcard_dims ra target in
          Ok (dl', ds, oa)
        else
          let* ra := dgetE rn raw in
          let* _ := check_array_shape out_dims ra dl in
          Ok (dl, out_dims, ra)) in
      let '(dl', ds, oa) := r in
      let* p := dgetE name outp in
      let* u := match p_units p with Some u => Ok u | None => Err EKey end in
      let* q := create_quantity oa u ds in
      Ok (dl', dset name q out).

  (** restore_dataarray.py 46-137: restore_data_arrays_with_properties.  Values of
      raw_arrays are arrays here, so ensure_values_are_arrays (12-15) is the
      identity. *)
  Definition restore_data_arrays_with_properties (raw : dict (nd T)) (outp : pdict)
      (st : state T) (inp : pdict) (ignore_names : list string) (ignore_missing : bool)
      : res (dict (da T)) :=
    let ignore :=
      if ignore_missing
      then filter (fun n => negb (dmem n raw)) (keys outp) ++ ignore_names
      else ignore_names in
    let* (wn, dl) := get_wildcard_matches_and_dim_lengths st inp in
    let* dd := extract_output_dims_properties outp inp ignore in
    let* (_, out) := foldM (restore_step raw outp inp wn ignore) dd (dl, []) in
    Ok out.
End Restore.
