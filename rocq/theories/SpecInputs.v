(** Specification vocabulary for the inputs that composites and time steppers
    declare (C83). *)
From Coq Require Import String List Bool Arith ZArith.
From Verif Require Import Prelude ArithM NdArray Units DataArrayM SpecArrays Tracers SpecTracers SpecComponents Components Composite.
Import ListNotations.
Open Scope string_scope.
Open Scope nat_scope.
Open Scope list_scope.

(** The state has every quantity of [inp], in known units that convert to the
    declared ones, without undeclared dims and without conflicting lengths. *)
Definition satisfies {T} {R : Registry} (st : state T) (inp : pdict) : Prop :=
  complete st inp /\ known_units st inp /\
  ~ length_conflict st inp /\ ~ unexpected_dim st inp /\ ~ bad_units st inp.

(** An entry for a quantity without '*' names all dims that any entry for that
    quantity names. *)
Definition covers (l : list (string * props)) : Prop :=
  forall X p q ds ds' d, In (X, p) l -> In (X, q) l -> p_dims p = Some ds -> p_dims q = Some ds' ->
    ~ In "*" ds -> In d ds' -> d <> "*" -> In d ds.

(** The tracers the packer reads, as quantities. *)
Definition tracer_inputs (g : treg) (p : packer) : pdict :=
  get_tracer_input_properties g (pk_prepend p) (pk_dims p).

(** A component as a composite or a stepper sees it. *)
Definition seen (c : tcomp) : cprops :=
  mkcprops (t_inp c) (t_tend c) (t_diag c) (option_map (fun p => (pk_prepend p, pk_dims p)) (t_packer c)).

Definition dseen (c : dcomp) : cprops := mkcprops (d_inp c) [] (d_diag c) None.

(** All the quantities a component declares to read, tracers included. *)
Definition reads_of (g : treg) (inp : pdict) (pk : option packer) : list (string * props) :=
  inp ++ match pk with None => [] | Some p => tracer_inputs g p end.

Definition all_reads (g : treg) (cs : list tcomp) : list (string * props) :=
  flat_map (fun c => reads_of g (t_inp c) (t_packer c)) cs.

(** A constructed component whose own declarations can be told apart in [st]:
    one '*' per entry, and no dimension listed twice once '*' is replaced. *)
Definition sound_inputs {T} (st : state T) (inp : pdict) : Prop :=
  wf_pdict inp /\ no_repeated_dims st inp.

Definition sound_component {T} (g : treg) (st : state T) (c : tcomp) : Prop :=
  t_init c = true /\ sound_inputs st (t_inp c) /\
  forall p, t_packer c = Some p ->
    (exists qd, has_dims p qd /\ one_star qd) /\ no_repeated_dims st (tracer_inputs g p).
