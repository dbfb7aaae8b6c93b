(** sympl/_core/combine_properties.py, sympl/_core/composite.py and
    update_dict_by_adding_another / ensure_no_shared_keys of sympl/_core/util.py.

    Where Python iterates over a set of dim names, the order is given by [ord], an
    arbitrary function the theorems only assume to permute its argument.
    A component is an arbitrary callable; composites can be nested. *)
From Coq Require Import String List Bool Arith ZArith.
From Verif Require Import Prelude ArithM NdArray Units DataArrayM Wildcard GetNp Restore Tracers Components.
Import ListNotations.
Open Scope string_scope.
Open Scope nat_scope.
Open Scope list_scope.

(** ** combine_properties.py *)

(** set(dims) with '*' discarded, listed in order of first occurrence. *)
Definition named_dims (ds : list string) : list string :=
  filter (fun d => negb (String.eqb d "*")) (dedup ds).

(** Equality of sets. *)
Definition set_eqb (l1 l2 : list string) : bool :=
  forallb (fun x => mem x l2) l1 && forallb (fun x => mem x l1) l2.

(** combine_properties.py 6-54: combine_dims.  dims come with a flag telling
    whether they are a tuple.  Line 35 reads
    [shared_dims = set(dims2).intersection(dims2)], which is set(dims2). *)
Definition combine_dims (ord : list string -> list string) (dims1 dims2 : list string * bool)
    : res (list string * bool) :=
  if dims_eq dims1 dims2 then Ok dims1
  else
    let d1 := named_dims (fst dims1) in
    let d2 := named_dims (fst dims2) in
    let w1 := mem "*" (fst dims1) in
    let w2 := mem "*" (fst dims2) in
    let unmatched := ord (dedup (d1 ++ d2)) in
    let shared := filter (fun d => mem d d2) d2 in
    if w1 && w2 then Ok ("*" :: unmatched, false)
    else if negb w1 && negb w2 then
      if negb (set_eqb shared d1) || negb (set_eqb shared d2) then Err EInvalidProps
      else Ok (unmatched, false)
    else if w1 then
      if negb (set_eqb shared d2) then Err EInvalidProps else Ok (unmatched, false)
    else
      if negb (set_eqb shared d1) then Err EInvalidProps else Ok (unmatched, false).

Section Combine.
  Context {R : Registry}.
  Variable ord : list string -> list string.

  Definition with_dims (p : props) (ds : list string * bool) : props :=
    mkprops (Some (fst ds)) (snd ds) (p_units p) (p_alias p) (p_tracer p).

  (** combine_properties.py 82-86, 95-100: dims of an entry, by default those of
      the input of the same name. *)
  Definition resolve_dims (inp : pdict) (name : string) (p : props) : res (list string * bool) :=
    match p_dims p with
    | Some ds => Ok (ds, p_tuple p)
    | None =>
        match dget name inp with
        | Some q => match p_dims q with Some ds => Ok (ds, p_tuple q) | None => Err EInvalidProps end
        | None => Err EInvalidProps
        end
    end.

  (** combine_properties.py 78-107: one entry. *)
  Definition combine_step (inp : pdict) (acc : pdict) (np : string * props) : res pdict :=
    let (name, p) := np in
    match dget name acc with
    | None => let* ds := resolve_dims inp name p in Ok (dset name (with_dims p ds) acc)
    | Some r =>
        match p_units p, p_units r with
        | Some u1, Some u2 =>
            let* b := units_are_compatible u1 u2 in
            if negb b then Err EInvalidProps
            else
              let* new := resolve_dims inp name p in
              let* old := match p_dims r with Some ds => Ok (ds, p_tuple r) | None => Err EKey end in
              let* ds := combine_dims ord old new in
              Ok (dset name (with_dims r ds) acc)
        | _, _ => Err EKey
        end
    end.

  (** combine_properties.py 73-108: combine_properties *)
  Definition combine_properties (pds : list pdict) (inp : pdict) : res pdict :=
    foldM (combine_step inp) (concat pds) [].

  (** What a composite reads from one of its components.  [cp_tracers]:
      uses_tracers = True, with prepend_tracers and tracer_dims. *)
  Record cprops : Type := mkcprops {
    cp_inp : pdict; cp_tend : pdict; cp_diag : pdict;
    cp_tracers : option (list (string * string) * list string)
  }.

  (** combine_properties.py 57-70 for 'input_properties' *)
  Definition input_dicts (g : treg) (cs : list cprops) : res (list pdict) :=
    let* ls := mapM (fun c => match cp_tracers c with
                              | None => Ok [cp_inp c]
                              | Some (prep, ds) =>
                                  if mem "tracer" ds
                                  then Ok [cp_inp c; get_tracer_input_properties g prep (remove_first "tracer" ds)]
                                  else Err EInvalidProps
                              end) cs in
    Ok (concat ls).

  (** composite.py 10-12: input_properties *)
  Definition composite_inputs (g : treg) (cs : list cprops) : res pdict :=
    let* l := input_dicts g cs in combine_properties l [].

  (** composite.py 107-110, 178-181: tendency_properties *)
  Definition composite_tendencies (g : treg) (cs : list cprops) : res pdict :=
    let* inp := composite_inputs g cs in
    combine_properties (map cp_tend cs) inp.

  (** util.py 223-231: ensure_no_shared_keys *)
  Definition ensure_no_shared_keys {V W} (d1 : dict V) (d2 : dict W) : res unit :=
    raise_if (existsb (fun k => dmem k d2) (keys d1)) ESharedKey.

  (** composite.py 28-33: merging the diagnostic properties of the components *)
  Definition merge_step (acc : pdict) (c : cprops) : res pdict :=
    let* _ := ensure_no_shared_keys (cp_diag c) acc in Ok (dupdate acc (cp_diag c)).

  Definition merged_diagnostics (cs : list cprops) : res pdict := foldM merge_step cs [].

  (** composite.py 28-37: diagnostic_properties *)
  Definition composite_diagnostics (g : treg) (cs : list cprops) : res pdict :=
    let* d := merged_diagnostics cs in
    let* _ := foldM (fun _ np =>
                match p_dims (snd np) with
                | Some _ => Ok tt
                | None => let* inp := composite_inputs g cs in
                          raise_if (negb (dmem (fst np) inp)) EInvalidProps
                end) d tt in
    Ok d.

  (** composite.py 65-91, 112-130, 183-201: construction of a
      TendencyComponentComposite ([implicit] = false) or
      ImplicitTendencyComponentComposite.  Each property is evaluated and then
      validated by the base class.  [isa] says whether an argument is of an
      accepted class. *)
  Definition make_tendency_composite (implicit : bool) (g : treg) (cs : list (bool * cprops))
      : res tcomp :=
    let* _ := raise_if (existsb (fun c => negb (fst c)) cs) EType in
    let cs := map snd cs in
    let* inp := composite_inputs g cs in
    let* diag := composite_diagnostics g cs in
    let* _ := check_input_properties inp in
    let* tend :=
      if implicit then
        let* _ := check_diagnostic_properties diag inp in
        let* tend := composite_tendencies g cs in
        let* _ := check_tendency_properties tend inp in Ok tend
      else
        let* tend := composite_tendencies g cs in
        let* _ := check_tendency_properties tend inp in
        let* _ := check_diagnostic_properties diag inp in Ok tend in
    Ok (mktcomp true inp tend diag "" false [] None "").

  (** composite.py 65-91: construction of a DiagnosticComponentComposite *)
  Definition make_diagnostic_composite (g : treg) (cs : list (bool * cprops)) : res dcomp :=
    let* _ := raise_if (existsb (fun c => negb (fst c)) cs) EType in
    let cs := map snd cs in
    let* inp := composite_inputs g cs in
    let* diag := composite_diagnostics g cs in
    let* _ := check_input_properties inp in
    let* _ := check_diagnostic_properties diag inp in
    Ok (mkdcomp true inp diag).
End Combine.

(** ** Calls *)

Section Calls.
  Context {T : Type} {A : Arith T} {R : Registry}.

  (** util.py 208-217: adding one DataArray to another.  The in-place [+=] and,
      when it raises ValueError (the right operand has further dims), the plain
      [+] compute the same values; Heap.v models the difference. *)
  Definition add_quantities (a b : da T) : res (da T) :=
    match dget "units" (attrs a), dget "units" (attrs b) with
    | Some u, Some _ => let* b' := to_units b u in da_add a b'
    | _, _ => Err EInvalidState
    end.

  (** util.py 195-220: update_dict_by_adding_another on DataArrays. *)
  Definition add_entry (d1 : dict (da T)) (kv : string * da T) : res (dict (da T)) :=
    let (key, b) := kv in
    match dget key d1 with
    | None => Ok (dset key b d1)
    | Some a => let* s := add_quantities a b in Ok (dset key s d1)
    end.

  Definition update_dict_by_adding_another (d1 d2 : dict (da T)) : res (dict (da T)) :=
    foldM add_entry d2 d1.

  (** A component as a composite sees it: any callable returning tendencies and
      diagnostics.  [U] is the state of the whole program. *)
  Definition caller (U : Type) : Type := U -> state T -> U * res (dict (da T) * dict (da T)).

  (** composite.py 157-167: the loop of TendencyComponentComposite.__call__ *)
  Fixpoint composite_loop {U} (cs : list (caller U)) (u : U) (st : state T)
      (tend diag : dict (da T)) : U * res (dict (da T) * dict (da T)) :=
    match cs with
    | [] => (u, Ok (tend, diag))
    | c :: cs' =>
        let (u', r) := c u st in
        match (let* td := r in
               let* tend' := update_dict_by_adding_another tend (fst td) in
               Ok (tend', dupdate diag (snd td))) with
        | Err e => (u', Err e)
        | Ok (tend', diag') => composite_loop cs' u' st tend' diag'
        end
    end.

  (** composite.py 132-167: TendencyComponentComposite.__call__ *)
  Definition tendency_composite_call {U} (cs : list (caller U)) : caller U :=
    fun u st => composite_loop cs u st [] [].

  (** composite.py 203-241: ImplicitTendencyComponentComposite.__call__.  Implicit
      components are called with the timestep, the others without. *)
  Definition icaller (U : Type) : Type := U -> state T -> Z -> U * res (dict (da T) * dict (da T)).

  Definition implicit_composite_call {U} (cs : list (icaller U + caller U)) (dt : Z) : caller U :=
    tendency_composite_call (map (fun c => match c with
                                           | inl f => fun u st => f u st dt
                                           | inr f => f
                                           end) cs).

  (** composite.py 252-282: DiagnosticComponentComposite.__call__ *)
  Definition dcaller (U : Type) : Type := U -> state T -> U * res (dict (da T)).

  Fixpoint diagnostic_loop {U} (cs : list (dcaller U)) (u : U) (st : state T) (diag : dict (da T))
      : U * res (dict (da T)) :=
    match cs with
    | [] => (u, Ok diag)
    | c :: cs' =>
        let (u', r) := c u st in
        match (let* d := r in
               let* _ := ensure_no_shared_keys diag d in
               Ok (dupdate diag d)) with
        | Err e => (u', Err e)
        | Ok diag' => diagnostic_loop cs' u' st diag'
        end
    end.

  Definition diagnostic_composite_call {U} (cs : list (dcaller U)) : dcaller U :=
    fun u st => diagnostic_loop cs u st [].
End Calls.
