(** sympl/_core/wildcard.py *)
From Coq Require Import String List Bool Arith ZArith.
From Verif Require Import Prelude ArithM NdArray Units DataArrayM.
Import ListNotations.
Open Scope string_scope.
Open Scope nat_scope.
Open Scope list_scope.

Section Wildcard.
  Context {T : Type}.

  (** wildcard.py 16-23: record or check the length of one dimension. *)
  Definition check_dim_length (dl : dict nat) (dn : string * nat) : res (dict nat) :=
    match dget (fst dn) dl with
    | None => Ok (dset (fst dn) (snd dn) dl)
    | Some n => if Nat.eqb (snd dn) n then Ok dl else Err EInvalidState
    end.

  (** wildcard.py 101-109: ensure_properties_have_dims_and_units *)
  Definition dims_and_units (p : props) : res (list string * string) :=
    match p_dims p with
    | None => Err EInvalidProps
    | Some ds =>
        match p_units p with
        | None => Err EInvalidProps
        | Some u => Ok (ds, u)
        end
    end.

  (** wildcard.py 12-35: one iteration of the loop over the property dictionary.
      A non-DataArray value (time) has no dims: AttributeError. *)
  Definition wildcard_step (st : state T) (acc : list string * dict nat)
      (np : string * props) : res (list string * dict nat) :=
    let* (pd, _) := dims_and_units (snd np) in
    let* v := dgetE (fst np) st in
    match v with
    | VTime _ => Err EAttr
    | VDA a =>
        let* dl := foldM check_dim_length (combine (dims a) (shape (arr a))) (snd acc) in
        let new := filter (fun d => negb (mem d pd)) (dims a) in
        if negb (Nat.eqb (length new) 0) && negb (mem "*" pd) then Err EInvalidState
        else Ok (fst acc ++ filter (fun d => negb (mem d (fst acc))) new, dl)
    end.

  (** wildcard.py 36-38: does some entry list '*'? *)
  Definition has_wildcard (p : props) : bool :=
    match p_dims p with Some ds => mem "*" ds | None => false end.

  (** wildcard.py 7-44: get_wildcard_matches_and_dim_lengths *)
  Definition get_wildcard_matches_and_dim_lengths (st : state T) (pd : pdict)
      : res (option (list string) * dict nat) :=
    let* (wn, dl) := foldM (wildcard_step st) pd ([], []) in
    if existsb (fun np => has_wildcard (snd np)) pd then Ok (Some wn, dl)
    else Ok (None, dl).

  (** wildcard.py 47-69: flatten_wildcard_dims (indices are naturals, so the test
      [i_start < 0] is void) *)
  Definition flatten_wildcard_dims (a : nd T) (i_start i_end : nat) : res (nd T) :=
    if Nat.ltb (length (shape a)) i_end then Err EValue
    else if Nat.ltb i_end i_start then Err EValue
    else if Nat.eqb i_start i_end then
      reshape a (firstn i_start (shape a) ++ [1] ++ skipn i_start (shape a))
    else
      reshape a (firstn i_start (shape a)
                 ++ [prod (firstn (i_end - i_start) (skipn i_start (shape a)))]
                 ++ skipn i_end (shape a)).

  (** wildcard.py 72-85: fill_dims_wildcard with expand_wildcard=True (the only
      use).  [None] for wildcard_names is Python's None: iterating over it is a
      TypeError.  Only the first '*' is expanded; a second one is looked up in
      dim_lengths like any other name. *)
  Fixpoint fill_dims (out_dims : list string) (dl : dict nat)
      (wn : option (list string)) (seen : bool) : res (list string * list nat) :=
    match out_dims with
    | [] => Ok ([], [])
    | d :: r =>
        if String.eqb d "*" && negb seen then
          match wn with
          | None => Err EType
          | Some names =>
              let* ls := mapM (fun n => dgetE n dl) names in
              let* (ds, sh) := fill_dims r dl wn true in
              Ok (names ++ ds, ls ++ sh)
          end
        else
          let* l := dgetE d dl in
          let* (ds, sh) := fill_dims r dl wn seen in
          Ok (d :: ds, l :: sh)
    end.

  Definition fill_dims_wildcard (out_dims : list string) (dl : dict nat)
      (wn : option (list string)) : res (list string * list nat) :=
    match index_of "*" out_dims with
    | None => Err EValue
    | Some _ => fill_dims out_dims dl wn false
    end.

  (** wildcard.py 88-98: expand_array_wildcard_dims *)
  Definition expand_array_wildcard_dims (a : nd T) (target : list nat) : res (nd T) :=
    match reshape a target with
    | Ok b => Ok b
    | Err _ => Err EInvalidProps
    end.
End Wildcard.
