(** Property dictionaries shared through a class.

    The property dictionaries of a component are usually class attributes: one
    dictionary object shared by all instances.  With tendencies_in_diagnostics
    the base-class __init__ inserts entries into [self.diagnostic_properties]
    (and, for a Stepper, [self.input_properties]), that is, into the shared
    object.  Components.v gives every instance its own dictionaries; this file
    models the sharing. *)
From Coq Require Import String List Bool Arith ZArith.
From Verif Require Import Prelude ArithM NdArray Units DataArrayM Wildcard GetNp Restore Tracers Components.
Import ListNotations.
Open Scope string_scope.
Open Scope nat_scope.
Open Scope list_scope.

(** Class attributes of a TendencyComponent (or ImplicitTendencyComponent) subclass. *)
Record tclass : Type := mktclass {
  k_impl : bool; k_inp : pdict; k_tend : pdict; k_diag : pdict; k_tro : tracer_opts; k_tunit : string }.

(** Class attributes of a Stepper subclass. *)
Record sclass : Type := mksclass {
  m_inp : pdict; m_diag : pdict; m_out : pdict; m_tro : tracer_opts; m_tu : Z }.

(** Everything classes share. *)
Record world : Type := mkworld {
  w_t : dict tclass; w_s : dict sclass; w_reg : treg }.

(** What an instance holds itself. *)
Record inst : Type := mkinst {
  i_class : string; i_name : string; i_tid : bool; i_added : list string; i_packer : option packer }.

Section World.
  Context {R : Registry}.

  (** base_components.py 776-789, 998-1011: the insertion loop, writing into the
      shared dictionary as it goes. *)
  Fixpoint insert_shared (comp : string) (inp : pdict) (tend diag : pdict)
      : pdict * res (list string) :=
    match tend with
    | [] => (diag, Ok [])
    | np :: rest =>
        match insert_tendency_step comp inp (diag, []) np with
        | Err e => (diag, Err e)
        | Ok (diag', _) =>
            let (d, r) := insert_shared comp inp rest diag' in
            (d, let* l := r in Ok (tendency_name comp (fst np) :: l))
        end
    end.

  (** base_components.py 737-770, 961-993: cls(tendencies_in_diagnostics=tid, name=name) *)
  Definition new_tendency (w : world) (cls name : string) (tid : bool) : world * res inst :=
    match dget cls (w_t w) with
    | None => (w, Err EKey)
    | Some k =>
        let checks :=
          let* _ := check_input_properties (k_inp k) in
          if k_impl k then
            let* _ := check_diagnostic_properties (k_diag k) (k_inp k) in
            check_tendency_properties (k_tend k) (k_inp k)
          else
            let* _ := check_tendency_properties (k_tend k) (k_inp k) in
            check_diagnostic_properties (k_diag k) (k_inp k) in
        match checks with
        | Err e => (w, Err e)
        | Ok _ =>
            let (diag', r) := if tid then insert_shared name (k_inp k) (k_tend k) (k_diag k)
                              else (k_diag k, Ok []) in
            let k' := mktclass (k_impl k) (k_inp k) (k_tend k) diag' (k_tro k) (k_tunit k) in
            let w' := mkworld (dset cls k' (w_t w)) (w_s w) (w_reg w) in
            match r with
            | Err e => (w', Err e)
            | Ok added =>
                let (g', rp) := make_packer (w_reg w) (k_tro k) (keys (k_tend k)) in
                (mkworld (w_t w') (w_s w') g', let* pk := rp in Ok (mkinst cls name tid added pk))
            end
        end
    end.

  (** The component an instance is, at a given moment. *)
  Definition tendency_of (w : world) (i : inst) : option tcomp :=
    match dget (i_class i) (w_t w) with
    | None => None
    | Some k => Some (mktcomp true (k_inp k) (k_tend k) (k_diag k) (i_name i) (i_tid i) (i_added i)
                              (i_packer i) (k_tunit k))
    end.

  (** base_components.py 518-558: the Stepper's insertion loop.  The diagnostic
      entry is written before the input entry is compared. *)
  Fixpoint stepper_insert_shared (comp : string) (outp inp diag : pdict)
      : pdict * pdict * res (list string) :=
    match outp with
    | [] => (inp, diag, Ok [])
    | np :: rest =>
        match stepper_insert_step comp (inp, diag, []) np with
        | Err e =>
            let diag' :=
              match p_units (snd np), match p_dims (snd np) with
                                      | Some ds => Some (ds, p_tuple (snd np))
                                      | None => match dget (fst np) inp with
                                                | Some q => match p_dims q with
                                                            | Some ds => Some (ds, p_tuple q)
                                                            | None => None
                                                            end
                                                | None => None
                                                end
                                      end with
              | Some u, Some (ds, tup) =>
                  dset (tendency_name comp (fst np)) (mkprops (Some ds) tup (Some (per_second u)) None false) diag
              | _, _ => diag
              end in
            (inp, diag', Err e)
        | Ok (inp', diag', _) =>
            let '(i, d, r) := stepper_insert_shared comp rest inp' diag' in
            (i, d, let* l := r in Ok (tendency_name comp (fst np) :: l))
        end
    end.

  (** base_components.py 483-516: Stepper subclass instantiation *)
  Definition new_stepper (w : world) (cls name : string) (tid : bool) : world * res inst :=
    match dget cls (w_s w) with
    | None => (w, Err EKey)
    | Some k =>
        match (let* _ := check_input_properties (m_inp k) in
               let* _ := check_diagnostic_properties (m_diag k) (m_inp k) in
               check_output_properties (m_out k) (m_inp k)) with
        | Err e => (w, Err e)
        | Ok _ =>
            let '(inp', diag', r) := if tid then stepper_insert_shared name (m_out k) (m_inp k) (m_diag k)
                                     else (m_inp k, m_diag k, Ok []) in
            let k' := mksclass inp' diag' (m_out k) (m_tro k) (m_tu k) in
            let w' := mkworld (w_t w) (dset cls k' (w_s w)) (w_reg w) in
            match r with
            | Err e => (w', Err e)
            | Ok added =>
                let (g', rp) := make_packer (w_reg w) (m_tro k) (keys (m_out k)) in
                (mkworld (w_t w') (w_s w') g', let* pk := rp in Ok (mkinst cls name tid added pk))
            end
        end
    end.

  Definition stepper_of (w : world) (i : inst) : option scomp :=
    match dget (i_class i) (w_s w) with
    | None => None
    | Some k => Some (mkscomp true (m_inp k) (m_diag k) (m_out k) (i_name i) (i_tid i) (i_added i)
                              (i_packer i) (m_tu k))
    end.

  (** Instantiating some class. *)
  Inductive creation : Type :=
  | NewTendency (cls name : string) (tid : bool)
  | NewStepper (cls name : string) (tid : bool).

  Definition create (w : world) (o : creation) : world * res inst :=
    match o with
    | NewTendency cls name tid => new_tendency w cls name tid
    | NewStepper cls name tid => new_stepper w cls name tid
    end.

  Definition create_all (w : world) (l : list creation) : world :=
    fold_left (fun w o => fst (create w o)) l w.

  Section Call.
    Context {T : Type} {A : Arith T}.

    (** Calling an instance, in the current world. *)
    Definition call_tendency {U} (w : world) (i : inst)
        (ac : U -> dict (rval T) -> U * res (dict (nd T) * dict (nd T))) (u : U) (st : state T)
        : U * res (dict (da T) * dict (da T)) :=
      match tendency_of w i with
      | Some c => tendency_call (w_reg w) c ac u st
      | None => (u, Err EKey)
      end.

    Definition call_stepper {U} (w : world) (i : inst)
        (ac : U -> dict (rval T) -> Z -> U * res (dict (nd T) * dict (nd T))) (u : U) (st : state T) (dt : Z)
        : U * res (dict (da T) * dict (da T)) :=
      match stepper_of w i with
      | Some c => stepper_call (w_reg w) c ac u st dt
      | None => (u, Err EKey)
      end.
  End Call.
End World.
