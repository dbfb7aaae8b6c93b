(** Specification vocabulary for what a time stepper declares (C92). *)
From Coq Require Import String List Bool Arith ZArith.
From Verif Require Import Prelude ArithM NdArray Units DataArrayM GetNp Tracers Components Composite SpecComposite.
Import ListNotations.
Open Scope string_scope.
Open Scope nat_scope.
Open Scope list_scope.

(** All the tendencies that components declare, in order. *)
Definition declared_tendencies (cs : list cprops) : list (string * props) := concat (map cp_tend cs).

(** [out] has an entry for each quantity with a tendency in [tends]: the dims, alias and
    kind the declarations combine to, and the units of the first times a second, as
    [clean] spells them. *)
Definition outputs_from (clean : string -> res string) (inp : pdict) (tends : list (string * props)) (out : pdict) : Prop :=
  keys out = dedup (keys tends) /\
  forall X p0 rest, entries X tends = p0 :: rest ->
    exists r u u', combined_entry inp X p0 rest r /\ p_units p0 = Some u /\ clean (u ++ " s")%string = Ok u' /\
      dget X out = Some (mkprops (p_dims r) (p_tuple r) (Some u') (p_alias p0) (p_tracer p0)).

(** [diag] has what the components declare, and, with the option, one entry for each
    tendency: the units of the first declaration, the dims they combine to, no alias. *)
Definition diagnostics_from (inp : pdict) (tid : bool) (name : string) (cs : list cprops) (diag : pdict) : Prop :=
  (forall k p, (tid = true -> forall X, In X (keys (declared_tendencies cs)) -> k <> (X ++ "_tendency_from_" ++ name)%string) ->
     (dget k diag = Some p <-> exists c, In c cs /\ dget k (cp_diag c) = Some p)) /\
  (tid = true -> forall X p0 rest, entries X (declared_tendencies cs) = p0 :: rest ->
     exists r d, combined_entry inp X p0 rest r /\ dget (X ++ "_tendency_from_" ++ name)%string diag = Some d /\
       p_units d = p_units p0 /\ p_dims d = p_dims r /\ p_alias d = None /\ p_tracer d = false).

(** [r] has what the entries [l], in order, combine to, and nothing else. *)
Definition combination (inp : pdict) (l : list (string * props)) (r : pdict) : Prop :=
  keys r = dedup (keys l) /\
  forall X, match entries X l with
            | [] => dget X r = None
            | p0 :: rest => exists e, dget X r = Some e /\ combined_entry inp X p0 rest e
            end.

(** [all] has the inputs of the components and the outputs, combined where both have a
    quantity. *)
Definition inputs_from (inp out all : pdict) : Prop := combination [] (inp ++ out) all.

(** The inputs a component declares, and the tracers it reads. *)
Definition declared_inputs (g : treg) (cs : list cprops) : list (string * props) :=
  concat (map (fun c => cp_inp c ++ match cp_tracers c with
                                    | None => []
                                    | Some (prep, ds) => get_tracer_input_properties g prep (remove_first "tracer" ds)
                                    end) cs).
