(** Specification for C09: what calls do with the outputs that array_call returns. *)
From Coq Require Import String List Bool Arith.
From Verif Require Import Prelude Units DataArrayM Tracers SpecComponents Components.
Import ListNotations.
Open Scope string_scope.
Open Scope list_scope.

(** A missing output is reported first, then an extra one; if there is neither, [next] says what comes. *)
Definition checked {V X} (outp inp : pdict) (ign : list string) (raw : dict V) (next : res X -> Prop) (r : res X) : Prop :=
  (output_missing outp inp ign raw -> r = Err EMissingOutput) /\
  (~ output_missing outp inp ign raw -> output_extra outp inp raw -> r = Err EExtraOutput) /\
  (~ output_missing outp inp ign raw -> ~ output_extra outp inp raw -> next r).

(** Not refused for its outputs. *)
Definition accepted {X} (r : res X) : Prop := r <> Err EMissingOutput /\ r <> Err EExtraOutput.
