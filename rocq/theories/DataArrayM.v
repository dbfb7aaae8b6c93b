(** xarray DataArrays as used by sympl: sympl/_core/dataarray.py and
    sympl/_core/units.py 77-86, plus xarray's broadcasting by dimension name.
    Simplification: no coordinates, no encoding; attrs are strings. *)
From Coq Require Import String List Bool Arith ZArith QArith Qcanon.
From Verif Require Import Prelude ArithM NdArray Units.
Import ListNotations.
Open Scope string_scope.
Open Scope nat_scope.
Open Scope list_scope.

Record da (T : Type) : Type := mkda {
  dims : list string;
  arr : nd T;
  attrs : dict string
}.
Arguments mkda {T} _ _ _.
Arguments dims {T} _.
Arguments arr {T} _.
Arguments attrs {T} _.

(** What xarray guarantees about any DataArray. *)
Definition wf_da {T} (a : da T) : Prop :=
  length (dims a) = length (shape (arr a)) /\ NoDup (dims a) /\ wf_nd (arr a).

(** Length of dimension [d] of [a], as in [a.sizes.get(d)]. *)
Definition dim_len {T} (a : da T) (d : string) : option nat :=
  dget d (combine (dims a) (shape (arr a))).

Definition or1 (o : option nat) : nat := match o with Some n => n | None => 1 end.

(** Coordinates given for a list of dimension names, read by name. *)
Fixpoint coord (ds : list string) (idx : list nat) (d : string) : nat :=
  match ds, idx with
  | d' :: ds', i :: idx' => if String.eqb d d' then i else coord ds' idx' d
  | _, _ => 0
  end.

Section DA.
  Context {T : Type} {A : Arith T} {R : Registry}.

  (** Value at named coordinates. *)
  Definition da_at (a : da T) (c : string -> nat) : T := at_ (arr a) (map c (dims a)).

  (** Elementwise function keeping dims; attrs given. *)
  Definition da_map (f : T -> T) (at' : dict string) (a : da T) : da T :=
    mkda (dims a) (nd_map f (arr a)) at'.

  (** units.py 77-86: data_array_to_units (the hasattr test is covered by
      DataArray.to_units) and dataarray.py 24-54: DataArray.to_units. *)
  Definition to_units (a : da T) (units : string) : res (da T) :=
    match dget "units" (attrs a) with
    | None => Err EKey
    | Some own =>
        let* u1 := parseE own in
        let* u2 := parseE units in
        if negb (one_eqb u1 u2) then
          if udim_eqb u1 u2
          then Ok (da_map (uconv u1 u2) (dset "units" units (attrs a)) a)
          else Err EValue
        else Ok a
    end.

  (** xarray binary operation between DataArrays: dims of the left operand, then
      those of the right operand the left one lacks; ValueError when a shared
      dimension has different lengths. *)
  Definition bin_dims (a b : da T) : list string :=
    dims a ++ filter (fun d => negb (mem d (dims a))) (dims b).

  Definition sizes_agree (a b : da T) : bool :=
    forallb (fun d => match dim_len a d, dim_len b d with
                      | Some n, Some m => Nat.eqb n m
                      | _, _ => true
                      end) (dims a).

  Definition bin_len (a b : da T) (d : string) : nat :=
    match dim_len a d with Some n => n | None => or1 (dim_len b d) end.

  Definition da_binop (op : T -> T -> T) (at' : dict string) (a b : da T) : res (da T) :=
    if sizes_agree a b then
      let ds := bin_dims a b in
      Ok (mkda ds
            (build (map (bin_len a b) ds)
               (fun idx => op (at_ (arr a) (map (coord ds idx) (dims a)))
                              (at_ (arr b) (map (coord ds idx) (dims b)))))
            at')
    else Err EValue.

  (** dataarray.py 10-15: DataArray.__add__ keeps the left attrs. *)
  Definition da_add (a b : da T) : res (da T) := da_binop aadd (attrs a) a b.

  (** dataarray.py 17-22: DataArray.__sub__ keeps the left attrs. *)
  Definition da_sub (a b : da T) : res (da T) := da_binop asub (attrs a) a b.

  (** DataArray * scalar and DataArray / scalar: xarray drops attrs. *)
  Definition da_scale (a : da T) (x : T) : da T := da_map (fun y => amul y x) [] a.
  Definition da_divs (a : da T) (x : T) : da T := da_map (fun y => adiv y x) [] a.

  (** scalar * DataArray *)
  Definition da_lscale (x : T) (a : da T) : da T := da_map (fun y => amul x y) [] a.
End DA.

(** A value of a model state dictionary: a DataArray, or the 'time' entry
    (datetime or timedelta, in microseconds). *)
Inductive pval (T : Type) : Type :=
| VDA (a : da T)
| VTime (t : Z).
Arguments VDA {T} a.
Arguments VTime {T} t.

Definition state (T : Type) : Type := dict (pval T).

(** Properties of one quantity in a property dictionary.  [p_tuple] records
    whether dims is a tuple (a list and a tuple never compare equal in Python);
    dims is always a sequence of strings. *)
Record props : Type := mkprops {
  p_dims : option (list string);
  p_tuple : bool;
  p_units : option string;
  p_alias : option string;
  p_tracer : bool
}.

Definition pdict : Type := dict props.

(** Plain entry {'dims': ds, 'units': u}. *)
Definition qprops (ds : list string) (u : string) : props :=
  mkprops (Some ds) false (Some u) None false.

(** get_np_arrays.py 31-34: key of a quantity in the raw dictionary. *)
Definition raw_name (name : string) (p : props) : string :=
  match p_alias p with Some al => al | None => name end.
