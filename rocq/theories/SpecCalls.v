(** Specification vocabulary for component calls (C11-C15). *)
From Coq Require Import String List Bool Arith ZArith.
From Verif Require Import Prelude ArithM NdArray Units DataArrayM SpecArrays Tracers SpecComponents Components.
Import ListNotations.
Open Scope string_scope.
Open Scope nat_scope.
Open Scope list_scope.

(** Names of the quantities a component with packer [pk] reads as tracers. *)
Definition read_tracers (g : treg) (pk : option packer) : list string :=
  match pk with
  | None => []
  | Some p => keys (get_tracer_input_properties g (pk_prepend p) (quantity_dims p))
  end.

Section Spec.
  Context {T : Type} {A : Arith T} {R : Registry}.

  (** The raw state [raw] is a complete and faithful image of the declared inputs
      of [st], plus the time, plus the packed tracers if there is a packer. *)
  Definition validated (g : treg) (inp : pdict) (pk : option packer) (st : state T) (raw : dict (rval T)) : Prop :=
    ~ unusable st inp /\
    (exists L, common_lengths st inp L /\
       forall name p, In (name, p) inp ->
         exists r, dget (raw_name name p) raw = Some (RArr r) /\ extracted st inp L name p r) /\
    (exists t, dget "time" st = Some t /\ dget "time" raw = Some (RTime t)) /\
    (forall p, pk = Some p -> exists t, pack g p st = Ok t /\ dget "tracers" raw = Some (RArr t)) /\
    (forall k, In k (keys raw) <->
       k = "time" \/ (pk <> None /\ k = "tracers") \/ exists name p, In (name, p) inp /\ k = raw_name name p).

  (** Input properties whose raw names are distinct and not reserved. *)
  Definition proper_inputs (inp : pdict) : Prop :=
    wf_pdict inp /\ NoDup (map (fun np => raw_name (fst np) (snd np)) inp) /\
    forall name p, In (name, p) inp -> raw_name name p <> "time" /\ raw_name name p <> "tracers".

  (** No alias is declared for [name]. *)
  Definition unaliased (pd : pdict) (name : string) : Prop :=
    forall p, dget name pd = Some p -> p_alias p = None.

  (** Every named dimension of [ds] occurs in some input quantity. *)
  Definition dims_known (st : state T) (inp : pdict) (ds : list string) : Prop :=
    forall d, In d ds -> d <> "*" ->
      exists nm p ds' a, listed st inp nm p ds' a /\ In d (dims a).

  (** array_call returns the new value of [X] with the shape [X] was given in. *)
  Definition keeps_shape {U} (ac : U -> dict (rval T) -> Z -> U * res (dict (nd T) * dict (nd T)))
      (X : string) : Prop :=
    forall u raw dt u' rd rn old new, ac u raw dt = (u', Ok (rd, rn)) ->
      dget X raw = Some (RArr old) -> dget X rn = Some new -> shape new = shape old.
End Spec.

(** Returned quantity [q] holds the numbers of the raw array array_call gave for
    [name]. *)
Definition carries {T} {A : Arith T} (st : state T) (outp inp : pdict) (raw : dict (nd T))
    (name : string) (q : da T) : Prop :=
  exists ds ra, declared_dims outp inp name ds /\ dget (out_key outp inp name) raw = Some ra /\
    (~ In "*" ds -> arr q = ra) /\
    (NoDup (dims q) ->
     let L := fun d => match dim_len q d with Some n => n | None => 1 end in
     shape ra = map (axis_len (wildcard_dims st inp) L) ds ->
     forall c, da_at q c = at_ ra (map (axis_pos (wildcard_dims st inp) L c) ds)).
