(** Component calls with any state backend: sympl/_core/backend.py, and the functions of
    wildcard.py, get_np_arrays.py, restore_dataarray.py, tracers.py and base_components.py
    that go through get_backend().

    The other model files have the default backend built in.  Here the backend is a
    parameter, and a value of a state is of any type [V].  Simplifications: the methods of
    a backend are functions (it keeps no data of its own), raw arrays are numpy arrays, and
    the backend is not exchanged during a call. *)
From Coq Require Import String List Bool Arith ZArith.
From Verif Require Import Prelude ArithM NdArray Units DataArrayM Wildcard GetNp Restore InitNp Tracers Components.
Import ListNotations.
Open Scope string_scope.
Open Scope nat_scope.
Open Scope list_scope.

(** backend.py 9-66: the methods of StateBackend that calls use. *)
Record backend (T V : Type) : Type := mkbackend {
  b_dims : V -> res (list string);
  b_shape : V -> res (list nat);
  b_get : V -> string -> string -> list string -> dict nat -> res (nd T);     (* value, name, units, dims, lengths *)
  b_create : nd T -> string -> string -> list string -> dict V -> res V      (* data, name, units, dims, reference_state *)
}.
Arguments mkbackend {T V} _ _ _ _.
Arguments b_dims {T V} _ _.
Arguments b_shape {T V} _ _.
Arguments b_get {T V} _ _ _ _ _ _.
Arguments b_create {T V} _ _ _ _ _ _.

(** A value of the raw state given to array_call: an array, or the time of the state. *)
Inductive grval (T V : Type) : Type :=
| GArr (a : nd T)
| GTime (t : V).
Arguments GArr {T V} a.
Arguments GTime {T V} t.

(** backend.py 169-178: get_backend and set_backend, as the list of calls of set_backend;
    [valid]: isinstance(backend, StateBackend). *)
Definition set_backend {O} (valid : O -> bool) (current new : O) : O * res unit :=
  if valid new then (new, Ok tt) else (current, Err EType).

Section Default.
  Context {T : Type} {A : Arith T} {R : Registry}.

  (** backend.py 69-164: DataArrayBackend *)
  Definition da_backend : backend T (pval T) :=
    mkbackend (fun v => match v with VDA a => Ok (dims a) | VTime _ => Err EAttr end)
              (fun v => match v with VDA a => Ok (shape (arr a)) | VTime _ => Err EAttr end)
              (fun v _ u ds dl => get_array v u ds dl)
              (fun a _ u ds _ => let* q := create_quantity a u ds in Ok (VDA q)).
End Default.

Section Calls.
  Context {T V : Type} {A : Arith T}.
  Variable B : backend T V.

  (** wildcard.py 12-35 *)
  Definition gb_wildcard_step (st : dict V) (acc : list string * dict nat) (np : string * props)
      : res (list string * dict nat) :=
    let* (pd, _) := dims_and_units (snd np) in
    let* v := dgetE (fst np) st in
    let* ds := b_dims B v in
    let* sh := b_shape B v in
    let* dl := foldM check_dim_length (combine ds sh) (snd acc) in
    let new := filter (fun d => negb (mem d pd)) ds in
    if negb (Nat.eqb (length new) 0) && negb (mem "*" pd) then Err EInvalidState
    else Ok (fst acc ++ filter (fun d => negb (mem d (fst acc))) new, dl).

  (** wildcard.py 7-44 *)
  Definition gb_wildcard_matches (st : dict V) (pd : pdict) : res (option (list string) * dict nat) :=
    let* (wn, dl) := foldM (gb_wildcard_step st) pd ([], []) in
    if existsb (fun np => has_wildcard (snd np)) pd then Ok (Some wn, dl) else Ok (None, dl).

  (** get_np_arrays.py 15-35 *)
  Definition gb_extract_step (st : dict V) (wn : option (list string)) (dl : dict nat)
      (out : dict (nd T)) (np : string * props) : res (dict (nd T)) :=
    let* (pd, u) := dims_and_units (snd np) in
    let* v := dgetE (fst np) st in
    let* a :=
      match index_of "*" pd with
      | Some i =>
          match wn with
          | None => Err EType
          | Some names =>
              let* b := b_get B v (fst np) u (splice_wildcard names pd) dl in
              flatten_wildcard_dims b i (i + length names)
          end
      | None => b_get B v (fst np) u pd dl
      end in
    Ok (dset (raw_name (fst np) (snd np)) a out).

  (** get_np_arrays.py 8-36 *)
  Definition gb_get_arrays (st : dict V) (pd : pdict) : res (dict (nd T)) :=
    let* (wn, dl) := gb_wildcard_matches st pd in
    foldM (gb_extract_step st wn dl) pd [].

  (** restore_dataarray.py 112-136 *)
  Definition gb_restore_step (raw : dict (nd T)) (outp inp : pdict) (st : dict V)
      (wn : option (list string)) (ignore : list string)
      (acc : dict nat * dict V) (nd_ : string * list string) : res (dict nat * dict V) :=
    let (name, out_dims) := nd_ in
    let (dl, out) := acc in
    if mem name ignore then Ok acc
    else
      let* rn := get_alias_or_name name outp inp in
      let* r :=
        (if mem "*" out_dims then
          let* ra := dgetE rn raw in
          let dl' := note_new_dims out_dims (shape ra) dl in
          let* (ds, target) := fill_dims_wildcard out_dims dl' wn in
          let* oa := expand_array_wildcard_dims ra target in
          Ok (dl', ds, oa)
        else
          let* ra := dgetE rn raw in
          let* _ := check_array_shape out_dims ra dl in
          Ok (dl, out_dims, ra)) in
      let '(dl', ds, oa) := r in
      let* p := dgetE name outp in
      let* u := match p_units p with Some u => Ok u | None => Err EKey end in
      let* q := b_create B oa name u ds st in
      Ok (dl', dset name q out).

  (** restore_dataarray.py 46-137, with ignore_missing False *)
  Definition gb_restore (raw : dict (nd T)) (outp : pdict) (st : dict V) (inp : pdict) (ignore : list string)
      : res (dict V) :=
    let* (wn, dl) := gb_wildcard_matches st inp in
    let* dd := extract_output_dims_properties outp inp ignore in
    let* (_, out) := foldM (gb_restore_step raw outp inp st wn ignore) dd (dl, []) in
    Ok out.

  (** tracers.py 179-203 *)
  Definition gb_pack (g : treg) (p : packer) (st : dict V) : res (nd T) :=
    let tp := get_tracer_input_properties g (pk_prepend p) (quantity_dims p) in
    let* raw := gb_get_arrays st tp in
    let names := tracer_names g p in
    let* sh := match names with
               | [] => Ok (map (fun _ => 0) (pk_dims p))
               | n0 :: _ => let* a := dgetE n0 raw in
                            Ok (insert_at (tracer_index p) (length names) (shape a))
               end in
    foldM (fun a iname => let* sub := dgetE (snd iname) raw in
                          set_slice a (tracer_index p) (fst iname) sub)
          (enumerate names) (full sh azero).

  (** tracers.py 205-238 *)
  Definition gb_unpack (g : treg) (p : packer) (a : nd T) (st : dict V) (mult : string) : res (dict V) :=
    let tp := get_tracer_input_properties g (pk_prepend p) (quantity_dims p) in
    let* raw := foldM (fun raw iname =>
                         let* sub := get_slice a (tracer_index p) (fst iname) in
                         Ok (dset (snd iname) sub raw))
                      (enumerate (tracer_names g p)) [] in
    gb_restore raw (map (fun np => (fst np, multiply_units mult (snd np))) tp) st tp [].

  (** base_components.py 605-609, 834-838, 1060-1064, 1213-1215 *)
  Definition gb_raw_state (g : treg) (inp : pdict) (pk : option packer) (st : dict V) : res (dict (grval T V)) :=
    let* _ := check_inputs inp st in
    let* raw := gb_get_arrays st inp in
    let raw := map (fun kv => (fst kv, GArr (snd kv))) raw in
    let* raw := match pk with
                | None => Ok raw
                | Some p => let* t := gb_pack g p st in Ok (dset "tracers" (GArr t) raw)
                end in
    let* t := dgetE "time" st in
    Ok (dset "time" (GTime t) raw).

  Definition gb_unpack_tracers (g : treg) (pk : option packer) (mult : string) (raw : dict (nd T)) (st : dict V)
      : res (dict V * dict (nd T)) :=
    match pk with
    | None => Ok ([], raw)
    | Some p =>
        let* t := dgetE "tracers" raw in
        let* out := gb_unpack g p t st mult in
        Ok (out, ddel "tracers" raw)
    end.

  (** base_components.py 863-866 *)
  Definition gb_insert_tendencies (comp : string) (tend diag : dict V) : dict V :=
    fold_left (fun d nv => dset (tendency_name comp (fst nv)) (snd nv) d) tend diag.

  (** base_components.py 840-861 *)
  Definition gb_tendency_finish (g : treg) (c : tcomp) (st : dict V) (out : dict (nd T) * dict (nd T))
      : res (dict V * dict V) :=
    let* (tr, raw_tend) := gb_unpack_tracers g (t_packer c) (t_tunit c) (fst out) st in
    let* _ := check_outputs (t_tend c) (t_inp c) [] raw_tend in
    let* _ := check_outputs (t_diag c) (t_inp c) (t_added c) (snd out) in
    let* tend := gb_restore raw_tend (t_tend c) st (t_inp c) [] in
    let tend := dupdate tr tend in
    let* diag := gb_restore (snd out) (t_diag c) st (t_inp c) (t_added c) in
    Ok (tend, if t_tid c then gb_insert_tendencies (t_name c) tend diag else diag).

  (** base_components.py 808-861, 1031-1087 *)
  Definition gb_tendency_call {U} (g : treg) (c : tcomp)
      (ac : U -> dict (grval T V) -> U * res (dict (nd T) * dict (nd T)))
      (u : U) (st : dict V) : U * res (dict V * dict V) :=
    match (let* _ := raise_if (negb (t_init c)) ERuntime in gb_raw_state g (t_inp c) (t_packer c) st) with
    | Err e => (u, Err e)
    | Ok raw =>
        let (u', r) := ac u raw in
        (u', let* out := r in gb_tendency_finish g c st out)
    end.

  (** base_components.py 1191-1224 *)
  Definition gb_diagnostic_finish (c : dcomp) (st : dict V) (raw_diag : dict (nd T)) : res (dict V) :=
    let* _ := check_outputs (d_diag c) (d_inp c) [] raw_diag in
    gb_restore raw_diag (d_diag c) st (d_inp c) [].

  Definition gb_diagnostic_call {U} (c : dcomp) (ac : U -> dict (grval T V) -> U * res (dict (nd T)))
      (u : U) (st : dict V) : U * res (dict V) :=
    match (let* _ := raise_if (negb (d_init c)) ERuntime in gb_raw_state empty_treg (d_inp c) None st) with
    | Err e => (u, Err e)
    | Ok raw =>
        let (u', r) := ac u raw in
        (u', let* out := r in gb_diagnostic_finish c st out)
    end.

  Definition gb_raw_array (name : string) (raw : dict (grval T V)) : res (nd T) :=
    let* v := dgetE name raw in
    match v with GArr a => Ok a | GTime _ => Err EType end.

  (** base_components.py 636-642 *)
  Definition gb_stepper_insert (c : scomp) (dt : Z) (raw : dict (grval T V)) (raw_new raw_diag : dict (nd T))
      : res (dict (nd T)) :=
    foldM (fun d np =>
             let* new := dgetE (fst np) raw_new in
             let* old := gb_raw_array (fst np) raw in
             let* diff := np_binop asub new old in
             Ok (dset (tendency_name (s_name c) (fst np))
                      (nd_map (fun x => amul (adiv x (total_seconds dt)) (total_seconds (s_tu c))) diff) d))
          (s_out c) raw_diag.

  (** base_components.py 610-634 *)
  Definition gb_stepper_finish (g : treg) (c : scomp) (dt : Z) (st : dict V) (raw : dict (grval T V))
      (out : dict (nd T) * dict (nd T)) : res (dict V * dict V) :=
    let (raw_diag, raw_new) := out in
    let* (tr, raw_new) := gb_unpack_tracers g (s_packer c) "" raw_new st in
    let* _ := check_outputs (s_diag c) (s_inp c) (s_ign c) raw_diag in
    let* _ := check_outputs (s_out c) (s_inp c) [] raw_new in
    let* raw_diag := if s_tid c then gb_stepper_insert c dt raw raw_new raw_diag else Ok raw_diag in
    let* diag := gb_restore raw_diag (s_diag c) st (s_inp c) [] in
    let* new := gb_restore raw_new (s_out c) st (s_inp c) [] in
    Ok (diag, dupdate tr new).

  (** base_components.py 581-634 *)
  Definition gb_stepper_call {U} (g : treg) (c : scomp)
      (ac : U -> dict (grval T V) -> Z -> U * res (dict (nd T) * dict (nd T)))
      (u : U) (st : dict V) (dt : Z) : U * res (dict V * dict V) :=
    match (let* _ := raise_if (negb (s_init c)) ERuntime in gb_raw_state g (s_inp c) (s_packer c) st) with
    | Err e => (u, Err e)
    | Ok raw =>
        let (u', r) := ac u raw dt in
        (u', let* out := r in gb_stepper_finish g c dt st raw out)
    end.
End Calls.
