(** sympl/_core/tracers.py
    The module-level registry (_tracer_unit_dict, _tracer_names, _packers) is a
    value of type [treg] passed around.  Simplification: a packer keeps the names
    of the outputs of its component as they are when the packer is made. *)
From Coq Require Import String List Bool Arith ZArith.
From Verif Require Import Prelude ArithM NdArray Units DataArrayM Wildcard GetNp Restore InitNp.
Import ListNotations.
Open Scope string_scope.
Open Scope nat_scope.
Open Scope list_scope.

(** tracers.py 104-122: the data of a TracerPacker.  [pk_outs] are the keys of the
    component's tendency_properties, or of its output_properties. *)
Record packer : Type := mkpacker {
  pk_prepend : list (string * string);
  pk_dims : list string;
  pk_outs : list string
}.

(** tracers.py 7-9: the module state. *)
Record treg : Type := mktreg {
  tr_units : dict string;
  tr_names : list string;
  tr_packers : list packer
}.

Definition empty_treg : treg := mktreg [] [] [].

(** tracers.py 12-17 *)
Definition reset_tracers (g : treg) : treg := mktreg [] [] (tr_packers g).

(** tracers.py 20-22 *)
Definition reset_packers (g : treg) : treg := mktreg (tr_units g) (tr_names g) [].

(** tracers.py 124-147: ensure_tracer_not_in_outputs *)
Definition ensure_tracer_not_in_outputs (p : packer) (name : string) : res unit :=
  raise_if (mem name (pk_outs p)) EInvalidProps.

(** [l.remove(x)]: first occurrence only. *)
Fixpoint remove_first (x : string) (l : list string) : list string :=
  match l with
  | [] => []
  | y :: r => if String.eqb x y then r else y :: remove_first x r
  end.

(** tracers.py 96-101: get_quantity_dims *)
Definition get_quantity_dims (tracer_dims : list string) : res (list string) :=
  if mem "tracer" tracer_dims then Ok (remove_first "tracer" tracer_dims) else Err EValue.

(** tracers.py 104-122: TracerPacker.__init__.  The component always has
    tendency_properties or output_properties (lines 110-116 are not modelled).
    [_packers] is a set; a packer object is always a new element. *)
Definition new_packer (g : treg) (prepend : list (string * string)) (tracer_dims outs : list string)
    : treg * res packer :=
  match get_quantity_dims tracer_dims with
  | Err e => (g, Err e)
  | Ok _ =>
      let p := mkpacker prepend tracer_dims outs in
      match foldM (fun _ nu => if dmem (fst nu) (tr_units g) then Ok tt
                               else ensure_tracer_not_in_outputs p (fst nu)) prepend tt with
      | Err e => (g, Err e)
      | Ok _ =>
          match foldM (fun _ nu => ensure_tracer_not_in_outputs p (fst nu)) (tr_units g) tt with
          | Err e => (g, Err e)
          | Ok _ => (mktreg (tr_units g) (tr_names g) (tr_packers g ++ [p]), Ok p)
          end
      end
  end.

Section Tracers.
  Context {T : Type} {A : Arith T} {R : Registry}.

  (** tracers.py 25-44: register_tracer.  The registry is changed before the
      packers are asked. *)
  Definition register_tracer (g : treg) (name units : string) : treg * res unit :=
    let clash :=
      match dget name (tr_units g) with
      | None => Ok false
      | Some u => let* s := units_are_same u units in Ok (negb s)
      end in
    match clash with
    | Err e => (g, Err e)
    | Ok true => (g, Err EValue)
    | Ok false =>
        let g' := mktreg (dset name units (tr_units g)) (tr_names g ++ [name]) (tr_packers g) in
        (g', foldM (fun _ p => ensure_tracer_not_in_outputs p name) (tr_packers g) tt)
    end.

  (** tracers.py 70-93: get_tracer_input_properties *)
  Definition get_tracer_input_properties (g : treg) (prepend : list (string * string))
      (tracer_dims : list string) : pdict :=
    let ds := remove_first "tracer" tracer_dims in
    map (fun nu => (fst nu, qprops ds (snd nu)))
        (dupdate (tr_units g) (dupdate [] prepend)).

  (** tracers.py 165-173: tracer_names *)
  Definition tracer_names (g : treg) (p : packer) : list string :=
    fold_left (fun acc n => if mem n acc then acc else acc ++ [n])
              (tr_names g) (map fst (pk_prepend p)).

  (** tracers.py 175-177: _tracer_index (new_packer made sure 'tracer' is there) *)
  Definition tracer_index (p : packer) : nat :=
    match index_of "tracer" (pk_dims p) with Some i => i | None => 0 end.

  (** The quantity dims of a packer (tracers.py 109). *)
  Definition quantity_dims (p : packer) : list string := remove_first "tracer" (pk_dims p).

  (** [l.insert(k, x)] *)
  Definition insert_at {B} (k : nat) (x : B) (l : list B) : list B := firstn k l ++ x :: skipn k l.
  (** [l] without position [k] *)
  Definition remove_at {B} (k : nat) (l : list B) : list B := firstn k l ++ skipn (S k) l.

  (** tracers.py 199-202: array[:, ..., i, ..., :] = sub, axis [k] fixed to [i].
      Simplification: numpy would also broadcast [sub]; all tracers have the same
      shape here, see the theorems. *)
  Definition set_slice (a : nd T) (k i : nat) (sub : nd T) : res (nd T) :=
    if Nat.ltb i (nth k (shape a) 0) then
      if nats_eqb (shape sub) (remove_at k (shape a)) then
        Ok (build (shape a) (fun idx => if Nat.eqb (nth k idx 0) i then at_ sub (remove_at k idx)
                                        else at_ a idx))
      else Err EValue
    else Err EIndex.

  (** tracers.py 227-229: array[:, ..., i, ..., :] *)
  Definition get_slice (a : nd T) (k i : nat) : res (nd T) :=
    match nth_error (shape a) k with
    | None => Err EIndex
    | Some n =>
        if Nat.ltb i n then
          Ok (build (remove_at k (shape a)) (fun idx => at_ a (insert_at k i idx)))
        else Err EIndex
    end.

  (** tracers.py 179-203: pack.  np.empty is an array of zeros here; every element
      is assigned by the loop (or there is none). *)
  Definition pack (g : treg) (p : packer) (st : state T) : res (nd T) :=
    let tp := get_tracer_input_properties g (pk_prepend p) (quantity_dims p) in
    let* raw := get_numpy_arrays_with_properties st tp in
    let names := tracer_names g p in
    let* sh := match names with
               | [] => Ok (map (fun _ => 0) (pk_dims p))
               | n0 :: _ => let* a := dgetE n0 raw in
                            Ok (insert_at (tracer_index p) (length names) (shape a))
               end in
    foldM (fun a iname => let* sub := dgetE (snd iname) raw in
                          set_slice a (tracer_index p) (fst iname) sub)
          (enumerate names) (full sh azero).

  (** tracers.py 230-235: units of the unpacked tracers. *)
  Definition multiply_units (mult : string) (pr : props) : props :=
    if String.eqb mult "" then pr
    else mkprops (p_dims pr) (p_tuple pr)
           (match p_units pr with Some u => Some (u ++ " " ++ mult)%string | None => None end)
           (p_alias pr) (p_tracer pr).

  (** tracers.py 205-238: unpack *)
  Definition unpack (g : treg) (p : packer) (a : nd T) (st : state T) (mult : string)
      : res (dict (da T)) :=
    let tp := get_tracer_input_properties g (pk_prepend p) (quantity_dims p) in
    let* raw := foldM (fun raw iname =>
                         let* sub := get_slice a (tracer_index p) (fst iname) in
                         Ok (dset (snd iname) sub raw))
                      (enumerate (tracer_names g p)) [] in
    restore_data_arrays_with_properties raw
      (map (fun np => (fst np, multiply_units mult (snd np))) tp) st tp [] false.
End Tracers.
