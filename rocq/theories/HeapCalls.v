(** Memory and component calls: which arrays array_call is given, and which arrays the
    call returns (C69, C70).

    Modelled: sympl/_core/get_np_arrays.py and backend.py 75-164 (extraction),
    sympl/_core/restore_dataarray.py (restoring), sympl/_core/tracers.py 179-238 and the
    __call__ methods of sympl/_core/base_components.py 581-642, 808-866, 1031-1087 and
    1191-1224, in the memory of Heap.v.

    A numpy array in memory is an [nd nat]: its elements are cells.  The functions that
    only rearrange elements are those of GetNp.v, Restore.v and Tracers.v, applied to
    arrays of cells: this is what a view is.  Here is where numpy makes a new array:
    - to_units, when the units differ (Heap.h_to_units);
    - np.empty followed by an assignment, when a missing dimension is broadcast;
    - reshape, when the elements cannot be addressed with strides in the new shape.  This
      depends on the layout of the array and on the new shape, so it is a parameter
      [cp : nd nat -> list nat -> bool] here, and theorems hold for every [cp];
    - the packed tracer array, and the tendencies a Stepper computes for diagnostics.
    Nothing else allocates: DataArray.values and DataArray(values, ...) do not copy. *)
From Coq Require Import String List Bool Arith ZArith QArith Qcanon.
From Verif Require Import Prelude ArithM NdArray Units DataArrayM Wildcard GetNp Restore InitNp Tracers Heap Components.
Import ListNotations.
Open Scope string_scope.
Open Scope nat_scope.
Open Scope list_scope.

(** Arrays of cells are only rearranged; an index out of range would give [d]. *)
Definition ArithCell (d : nat) : Arith nat :=
  Build_Arith nat d (fun a _ => a) (fun a _ => a) (fun a _ => a) (fun a _ => a) (fun _ => d) Nat.eqb.

(** A DataArray in memory, seen as an array of cells, and back. *)
Definition refs (a : hda) : da nat := mkda (h_dims a) (mknd (h_shape a) (h_cells a)) (h_attrs a).
Definition unrefs (a : da nat) : hda := mkhda (dims a) (shape (arr a)) (data (arr a)) (attrs a).
Definition refs_val (v : hval) : pval nat := match v with HDA a => VDA (refs a) | HTime t => VTime t end.
Definition refs_state (st : hstate) : state nat := map (fun kv => (fst kv, refs_val (snd kv))) st.

(** A value of the raw state: an array in memory, or the value of 'time'. *)
Inductive hrval : Type :=
| HRArr (a : nd nat)
| HRTime (v : hval).

Section HeapCalls.
  Context {T : Type} {A : Arith T} {R : Registry}.
  Variable cp : nd nat -> list nat -> bool.

  Definition load_nd (h : heap T) (a : nd nat) : nd T := mknd (shape a) (map (cell h) (data a)).
  Definition load_nds (h : heap T) (d : dict (nd nat)) : dict (nd T) := map (fun kv => (fst kv, load_nd h (snd kv))) d.
  Definition load_rval (h : heap T) (v : hrval) : rval T :=
    match v with HRArr a => RArr (load_nd h a) | HRTime t => RTime (load_val h t) end.
  Definition load_raw (h : heap T) (d : dict hrval) : dict (rval T) := map (fun kv => (fst kv, load_rval h (snd kv))) d.

  (** A new array. *)
  Definition alloc_nd (h : heap T) (v : nd T) : heap T * nd nat :=
    (h ++ data v, mknd (shape v) (seq (length h) (length (data v)))).

  (** Results that also change memory. *)
  Definition hbind {B C} (x : heap T * res B) (f : heap T -> B -> heap T * res C) : heap T * res C :=
    match x with
    | (h, Err e) => (h, Err e)
    | (h, Ok b) => f h b
    end.

  (** ** Extraction *)

  (** backend.py 106-164.  The result is a view unless broadcasting changed the number of
      elements (an array without elements has no memory to share).  The second test is
      true of every numpy array. *)
  Definition h_get_numpy_array (h : heap T) (a : hda) (out_dims : list string) (dl : dict nat) : heap T * res (nd nat) :=
    match get_numpy_array (A:=ArithCell (length h)) (refs a) out_dims dl with
    | Err e => (h, Err e)
    | Ok b => if Nat.eqb (prod (shape b)) (prod (h_shape a)) && Nat.eqb (length (h_cells a)) (prod (h_shape a))
              then (h, Ok b)
              else let (h', c) := alloc_nd h (load_nd h b) in (h', Ok c)
    end.

  (** backend.py 75-86 *)
  Definition h_get_array (h : heap T) (v : hval) (target_units : string) (out_dims : list string) (dl : dict nat)
      : heap T * res (nd nat) :=
    match v with
    | HTime _ => (h, Err EAttr)
    | HDA a =>
        if negb (dmem "units" (h_attrs a)) then (h, Err EInvalidState)
        else match h_to_units h a target_units with
             | (h', Err EValue) => (h', Err EInvalidState)
             | (h', Err e) => (h', Err e)
             | (h', Ok q) => h_get_numpy_array h' q out_dims dl
             end
    end.

  (** numpy.reshape: [b] is [a] in another shape; a view of [a], or a copy. *)
  Definition h_reshaped (h : heap T) (a b : nd nat) : heap T * nd nat :=
    if cp a (shape b) then alloc_nd h (load_nd h b) else (h, b).

  (** get_np_arrays.py 15-35 *)
  Definition h_extract_step (st : hstate) (wn : option (list string)) (dl : dict nat)
      (h : heap T) (out : dict (nd nat)) (np : string * props) : heap T * res (dict (nd nat)) :=
    hbind (h, let* pu := dims_and_units (snd np) in let* v := dgetE (fst np) st in Ok (pu, v)) (fun h '((pd, u), v) =>
    hbind (match index_of "*" pd with
           | Some i =>
               match wn with
               | None => (h, Err EType)
               | Some names =>
                   hbind (h_get_array h v u (splice_wildcard names pd) dl) (fun h b =>
                   match flatten_wildcard_dims b i (i + length names) with
                   | Err e => (h, Err e)
                   | Ok f => let (h', c) := h_reshaped h b f in (h', Ok c)
                   end)
               end
           | None => h_get_array h v u pd dl
           end) (fun h a =>
    (h, Ok (dset (raw_name (fst np) (snd np)) a out)))).

  Fixpoint h_extract (st : hstate) (wn : option (list string)) (dl : dict nat) (h : heap T) (pd : pdict)
      (out : dict (nd nat)) : heap T * res (dict (nd nat)) :=
    match pd with
    | [] => (h, Ok out)
    | np :: pd' => hbind (h_extract_step st wn dl h out np) (fun h out => h_extract st wn dl h pd' out)
    end.

  (** get_np_arrays.py 8-36; names and lengths of dimensions involve no memory. *)
  Definition h_get_numpy_arrays (h : heap T) (st : hstate) (pd : pdict) : heap T * res (dict (nd nat)) :=
    hbind (h, get_wildcard_matches_and_dim_lengths (refs_state st) pd) (fun h '(wn, dl) => h_extract st wn dl h pd []).

  (** base_components.py 605-609, 834-838, 1060-1064, 1213-1215.  The arrays from which
      tracers are packed are temporary. *)
  Definition h_raw_state (g : treg) (inp : pdict) (pk : option packer) (h : heap T) (st : hstate)
      : heap T * res (dict hrval) :=
    hbind (h, check_inputs inp (load_state h st)) (fun h _ =>
    hbind (h_get_numpy_arrays h st inp) (fun h raw =>
    let raw := map (fun kv => (fst kv, HRArr (snd kv))) raw in
    hbind (match pk with
           | None => (h, Ok raw)
           | Some p => match pack g p (load_state h st) with
                       | Err e => (h, Err e)
                       | Ok v => let (h', t) := alloc_nd h v in (h', Ok (dset "tracers" (HRArr t) raw))
                       end
           end) (fun h raw =>
    hbind (h, dgetE "time" st) (fun h t =>
    (h, Ok (dset "time" (HRTime t) raw)))))).

  (** ** Restoring *)

  (** restore_dataarray.py 112-124: the raw array that is reshaped to give output [k]. *)
  Definition reshaped_from (outp inp : pdict) (raw : dict (nd nat)) (k : string) : option (nd nat) :=
    match (match dget k outp with
           | None => None
           | Some p => match p_dims p with
                       | Some ds => Some ds
                       | None => match dget k inp with Some q => p_dims q | None => None end
                       end
           end) with
    | Some ds => if mem "*" ds
                 then match get_alias_or_name k outp inp with Ok rn => dget rn raw | Err _ => None end
                 else None
    | None => None
    end.

  (** The arrays whose reshape makes a copy get new memory. *)
  Fixpoint h_copy_reshaped (src : string -> option (nd nat)) (h : heap T) (d : dict (da nat)) : heap T * dict hda :=
    match d with
    | [] => (h, [])
    | (k, q) :: d' =>
        let (h1, a) := match src k with
                       | Some ra => if cp ra (shape (arr q)) then alloc h (load h (unrefs q)) else (h, unrefs q)
                       | None => (h, unrefs q)
                       end in
        let (h2, out) := h_copy_reshaped src h1 d' in
        (h2, (k, a) :: out)
    end.

  (** restore_dataarray.py 46-137 *)
  Definition h_restore (h : heap T) (raw : dict (nd nat)) (outp : pdict) (st : hstate) (inp : pdict)
      (ignore : list string) : heap T * res (dict hda) :=
    match restore_data_arrays_with_properties raw outp (refs_state st) inp ignore false with
    | Err e => (h, Err e)
    | Ok d => let (h', out) := h_copy_reshaped (reshaped_from outp inp raw) h d in (h', Ok out)
    end.

  (** tracers.py 205-238: the slices are views of the array that was returned. *)
  Definition h_unpack (g : treg) (p : packer) (h : heap T) (a : nd nat) (st : hstate) (mult : string)
      : heap T * res (dict hda) :=
    let tp := get_tracer_input_properties g (pk_prepend p) (quantity_dims p) in
    match foldM (fun raw iname =>
                   let* sub := get_slice (A:=ArithCell (length h)) a (tracer_index p) (fst iname) in
                   Ok (dset (snd iname) sub raw))
                (enumerate (tracer_names g p)) [] with
    | Err e => (h, Err e)
    | Ok raw => h_restore h raw (map (fun np => (fst np, multiply_units mult (snd np))) tp) st tp []
    end.

  Definition h_unpack_tracers (g : treg) (pk : option packer) (mult : string) (h : heap T) (raw : dict (nd nat)) (st : hstate)
      : heap T * res (dict hda * dict (nd nat)) :=
    match pk with
    | None => (h, Ok ([], raw))
    | Some p =>
        hbind (h, dgetE "tracers" raw) (fun h t =>
        hbind (h_unpack g p h t st mult) (fun h out =>
        (h, Ok (out, ddel "tracers" raw))))
    end.

  (** ** Calls *)

  (** base_components.py 863-866: the very tendency arrays are put into the diagnostics. *)
  Definition h_insert_tendencies (comp : string) (tend diag : dict hda) : dict hda :=
    fold_left (fun d nv => dset (tendency_name comp (fst nv)) (snd nv) d) tend diag.

  (** base_components.py 840-861 *)
  Definition h_tendency_finish (g : treg) (c : tcomp) (st : hstate) (h : heap T) (out : dict (nd nat) * dict (nd nat))
      : heap T * res (dict hda * dict hda) :=
    hbind (h_unpack_tracers g (t_packer c) (t_tunit c) h (fst out) st) (fun h '(tr, raw_tend) =>
    hbind (h, let* _ := check_outputs (t_tend c) (t_inp c) [] raw_tend in
              check_outputs (t_diag c) (t_inp c) (t_added c) (snd out)) (fun h _ =>
    hbind (h_restore h raw_tend (t_tend c) st (t_inp c) []) (fun h tend =>
    let tend := dupdate tr tend in
    hbind (h_restore h (snd out) (t_diag c) st (t_inp c) (t_added c)) (fun h diag =>
    (h, Ok (tend, if t_tid c then h_insert_tendencies (t_name c) tend diag else diag)))))).

  (** array_call in memory: any program. *)
  Definition harray (U O : Type) : Type := U -> heap T -> dict hrval -> Z -> (U * heap T) * res O.

  (** A call: build the raw state, run array_call, finish. *)
  Definition h_call {U O B} (init : bool) (extract : heap T -> heap T * res (dict hrval)) (hac : harray U O) (dt : Z)
      (finish : heap T -> dict hrval -> O -> heap T * res B) (u : U) (h : heap T) : (U * heap T) * res B :=
    match (if init then extract h else (h, Err ERuntime)) with
    | (h1, Err e) => ((u, h1), Err e)
    | (h1, Ok raw) =>
        match hac u h1 raw dt with
        | ((u', h2), Err e) => ((u', h2), Err e)
        | ((u', h2), Ok out) => let (h3, r) := finish h2 raw out in ((u', h3), r)
        end
    end.

  (** base_components.py 808-861 (array_call ignores the timestep) and 1031-1087 *)
  Definition h_tendency_call {U} (g : treg) (c : tcomp) (hac : harray U (dict (nd nat) * dict (nd nat))) : hicaller (T:=T) U :=
    fun u h st dt =>
      h_call (t_init c) (fun h => h_raw_state g (t_inp c) (t_packer c) h st) hac dt
             (fun h _ out => h_tendency_finish g c st h out) u h.

  (** base_components.py 1191-1224 *)
  Definition h_diagnostic_call {U} (c : dcomp) (hac : harray U (dict (nd nat))) (u : U) (h : heap T) (st : hstate)
      : (U * heap T) * res (dict hda) :=
    h_call (d_init c) (fun h => h_raw_state empty_treg (d_inp c) None h st) hac 0
           (fun h _ out => hbind (h, check_outputs (d_diag c) (d_inp c) [] out) (fun h _ =>
                           h_restore h out (d_diag c) st (d_inp c) [])) u h.

  Definition h_get_raw_array (name : string) (raw : dict hrval) : res (nd nat) :=
    let* v := dgetE name raw in
    match v with HRArr a => Ok a | HRTime _ => Err EType end.

  (** base_components.py 636-642: new arrays. *)
  Fixpoint h_stepper_insert (c : scomp) (dt : Z) (h : heap T) (raw : dict hrval) (raw_new diag : dict (nd nat))
      (out : pdict) : heap T * res (dict (nd nat)) :=
    match out with
    | [] => (h, Ok diag)
    | np :: out' =>
        match (let* new := dgetE (fst np) raw_new in
               let* old := h_get_raw_array (fst np) raw in
               let* diff := np_binop asub (load_nd h new) (load_nd h old) in
               Ok (nd_map (fun x => amul (adiv x (total_seconds dt)) (total_seconds (s_tu c))) diff)) with
        | Err e => (h, Err e)
        | Ok v => let (h', a) := alloc_nd h v in
                  h_stepper_insert c dt h' raw raw_new (dset (tendency_name (s_name c) (fst np)) a diag) out'
        end
    end.

  (** base_components.py 610-634 *)
  Definition h_stepper_finish (g : treg) (c : scomp) (dt : Z) (st : hstate) (h : heap T) (raw : dict hrval)
      (out : dict (nd nat) * dict (nd nat)) : heap T * res (dict hda * dict hda) :=
    hbind (h_unpack_tracers g (s_packer c) "" h (snd out) st) (fun h '(tr, raw_new) =>
    hbind (h, let* _ := check_outputs (s_diag c) (s_inp c) (s_ign c) (fst out) in
              check_outputs (s_out c) (s_inp c) [] raw_new) (fun h _ =>
    hbind (if s_tid c then h_stepper_insert c dt h raw raw_new (fst out) (s_out c) else (h, Ok (fst out))) (fun h raw_diag =>
    hbind (h_restore h raw_diag (s_diag c) st (s_inp c) []) (fun h diag =>
    hbind (h_restore h raw_new (s_out c) st (s_inp c) []) (fun h new =>
    (h, Ok (diag, dupdate tr new))))))).

  (** base_components.py 581-634; result (diagnostics, new_state). *)
  Definition h_stepper_call {U} (g : treg) (c : scomp) (hac : harray U (dict (nd nat) * dict (nd nat))) : hicaller (T:=T) U :=
    fun u h st dt =>
      h_call (s_init c) (fun h => h_raw_state g (s_inp c) (s_packer c) h st) hac dt
             (fun h raw out => h_stepper_finish g c dt st h raw out) u h.
End HeapCalls.
Arguments harray T U O : clear implicits.
