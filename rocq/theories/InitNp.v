(** sympl/_core/init_np_arrays.py
    Simplification: the optional dtype of an output is ignored (every array has
    the element type of the model). *)
From Coq Require Import String List Bool Arith ZArith.
From Verif Require Import Prelude ArithM NdArray Units DataArrayM Wildcard Restore.
Import ListNotations.
Open Scope string_scope.
Open Scope nat_scope.
Open Scope list_scope.

Section InitNp.
  Context {T : Type} {A : Arith T}.

  (** [raw_input[name].shape[i]] *)
  Definition raw_axis (raw : dict (nd T)) (name : string) (i : nat) : res nat :=
    let* a := dgetE name raw in
    match nth_error (shape a) i with Some n => Ok n | None => Err EIndex end.

  (** init_np_arrays.py 69-77: the loop over the dims of one input. *)
  Definition dim_length_step (raw : dict (nd T)) (name : string) (dl : dict nat)
      (id_ : nat * string) : res (dict nat) :=
    let* n := raw_axis raw name (fst id_) in
    match dget (snd id_) dl with
    | Some m => if negb (Nat.eqb n m) then Err EInvalidState else Ok dl
    | None => Ok (dset (snd id_) n dl)
    end.

  (** enumerate(l) *)
  Definition enumerate {B} (l : list B) : list (nat * B) := combine (seq 0 (length l)) l.

  (** init_np_arrays.py 62-78: get_dim_lengths_from_raw_input *)
  Definition get_dim_lengths_from_raw_input (raw : dict (nd T)) (inp : pdict) : res (dict nat) :=
    foldM (fun dl np =>
             if p_tracer (snd np) then Ok dl
             else match p_dims (snd np) with
                  | None => Err EKey
                  | Some ds => foldM (dim_length_step raw (raw_name (fst np) (snd np)))
                                     (enumerate ds) dl
                  end) inp [].

  Definition zeros (sh : list nat) : nd T := full sh azero.

  (** init_np_arrays.py 45-51: the loop over the declared outputs. *)
  Definition init_step (dl : dict nat) (tracer_dims : option (list string))
      (tracer_names : list string) (out : dict (nd T)) (nds : string * list string)
      : res (dict (nd T)) :=
    if match tracer_dims with None => true | Some _ => negb (mem (fst nds) tracer_names) end
    then let* sh := mapM (fun d => dgetE d dl) (snd nds) in
         Ok (dset (fst nds) (zeros sh) out)
    else Ok out.

  (** init_np_arrays.py 7-59: initialize_numpy_arrays_with_properties.
      [tracer_names] is get_tracer_names() followed by the names in
      prepend_tracers (lines 43-44). *)
  Definition initialize_numpy_arrays_with_properties (outp : pdict) (raw : dict (nd T))
      (inp : pdict) (tracer_dims : option (list string)) (tracer_names : list string)
      : res (dict (nd T)) :=
    let* dl := get_dim_lengths_from_raw_input raw inp in
    let* dd := extract_output_dims_properties outp inp [] in
    let* out := foldM (init_step dl tracer_dims tracer_names) dd [] in
    match tracer_dims with
    | None => Ok out
    | Some td =>
        let* sh := mapM (fun d => dgetE d (dset "tracer" (length tracer_names) dl)) td in
        Ok (dset "tracers" (zeros sh) out)
    end.
End InitNp.
