(** sympl/_core/get_np_arrays.py and DataArrayBackend in sympl/_core/backend.py *)
From Coq Require Import String List Bool Arith ZArith.
From Verif Require Import Prelude ArithM NdArray Units DataArrayM Wildcard.
Import ListNotations.
Open Scope string_scope.
Open Scope nat_scope.
Open Scope list_scope.

(** Last position of [x] in [l]: the value of a dict comprehension
    [{dim: i for i, dim in enumerate(l)}] at [x]. *)
Fixpoint last_index (x : string) (l : list string) : option nat :=
  match l with
  | [] => None
  | y :: r =>
      match last_index x r with
      | Some n => Some (S n)
      | None => if String.eqb x y then Some 0 else None
      end
  end.

Section GetNp.
  Context {T : Type} {A : Arith T} {R : Registry}.

  (** backend.py 106-164: DataArrayBackend._get_numpy_array; get_np_arrays.py
      39-95 is the same text. *)
  Definition get_numpy_array (a : da T) (out_dims : list string) (dl : dict nat)
      : res (nd T) :=
    let values := arr a in
    if Nat.eqb (length (shape values)) 0 && Nat.eqb (length out_dims) 0 then Ok values
    else if list_eqb (dims a) out_dims then Ok values
    else
      let missing := filter (fun d => negb (mem d (dims a))) out_dims in
      let has_missing := negb (Nat.eqb (length missing) 0) in
      let* values' :=
        if has_missing then reshape values (repeat 1 (length missing) ++ shape values)
        else Ok values in
      let current := if has_missing then rev missing ++ dims a else dims a in
      let extra := filter (fun d => negb (mem d out_dims)) current in
      let target := out_dims ++ extra in
      let* na :=
        if list_eqb current target then Ok values'
        else
          let* axes := mapM (fun d => match last_index d current with
                                      | Some i => Ok i
                                      | None => Err EValue
                                      end) target in
          transpose values' axes in
      if has_missing then
        let out_shape := map (fun n => or1 (dget n dl)) out_dims
                         ++ skipn (length out_dims) (shape na) in
        if nats_eqb out_shape (shape na) then Ok na else broadcast_to na out_shape
      else Ok na.

  (** backend.py 75-86: DataArrayBackend.get_array *)
  Definition get_array (v : pval T) (target_units : string) (out_dims : list string)
      (dl : dict nat) : res (nd T) :=
    match v with
    | VTime _ => Err EAttr
    | VDA a =>
        if negb (dmem "units" (attrs a)) then Err EInvalidState
        else
          let* q := match to_units a target_units with
                    | Err EValue => Err EInvalidState
                    | r => r
                    end in
          get_numpy_array q out_dims dl
    end.

  (** get_np_arrays.py 18-21: replace the first '*' by the wildcard names. *)
  Fixpoint splice_wildcard (wn ds : list string) : list string :=
    match ds with
    | [] => []
    | d :: r => if String.eqb d "*" then wn ++ r else d :: splice_wildcard wn r
    end.

  (** get_np_arrays.py 15-35: one iteration of the extraction loop.  [wn] is only
      None when no entry has a wildcard. *)
  Definition extract_step (st : state T) (wn : option (list string)) (dl : dict nat)
      (out : dict (nd T)) (np : string * props) : res (dict (nd T)) :=
    let* (pd, u) := dims_and_units (snd np) in
    let* v := dgetE (fst np) st in
    let* a :=
      match index_of "*" pd with
      | Some i =>
          match wn with
          | None => Err EType
          | Some names =>
              let* b := get_array v u (splice_wildcard names pd) dl in
              flatten_wildcard_dims b i (i + length names)
          end
      | None => get_array v u pd dl
      end in
    Ok (dset (raw_name (fst np) (snd np)) a out).

  (** get_np_arrays.py 8-36: get_numpy_arrays_with_properties *)
  Definition get_numpy_arrays_with_properties (st : state T) (pd : pdict)
      : res (dict (nd T)) :=
    let* (wn, dl) := get_wildcard_matches_and_dim_lengths st pd in
    foldM (extract_step st wn dl) pd [].
End GetNp.
