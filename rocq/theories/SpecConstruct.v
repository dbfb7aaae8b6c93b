(** Specification for C16: construction of components that use tracers. *)
From Coq Require Import String List Bool Arith.
From Verif Require Import Prelude Tracers Components.
Import ListNotations.
Open Scope string_scope.
Open Scope list_scope.

(** A tracer that is registered, or that the component puts first in its tracer array, is also one of the
    component's own outputs. *)
Definition tracer_is_output (g : treg) (first : list (string * string)) (outs : list string) : Prop :=
  exists name, (In name (keys first) \/ In name (keys (tr_units g))) /\ In name outs.

(** What construction does with the tracer options of a component whose properties are in order:
    [made g' p] says that the component is made, with packer [p], and leaves the registry as [g']. *)
Definition tracer_outcome {C} (g : treg) (o : tracer_opts) (outs : list string) (r : treg * res C) (made : treg -> option packer -> Prop) : Prop :=
  match o with
  | None => made g None
  | Some (None, _) => r = (g, Err EValue)
  | Some (Some ds, first) =>
      (~ In "tracer" ds -> r = (g, Err EValue)) /\
      (In "tracer" ds -> tracer_is_output g first outs -> r = (g, Err EInvalidProps)) /\
      (In "tracer" ds -> ~ tracer_is_output g first outs ->
         made (mktreg (tr_units g) (tr_names g) (tr_packers g ++ [mkpacker first ds outs])) (Some (mkpacker first ds outs)))
  end.
