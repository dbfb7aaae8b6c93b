(** Specification vocabulary for components that work column by column (C74): the
    wildcard '*' numbers the columns of the grid, the named dims run along one. *)
From Coq Require Import String List Bool Arith ZArith.
From Verif Require Import Prelude ArithM NdArray Units DataArrayM SpecArrays Tracers Components SpecComponents SpecCalls.
Import ListNotations.
Open Scope string_scope.
Open Scope nat_scope.
Open Scope list_scope.

(** Dim [d] is declared by an input. *)
Definition input_dim (inp : pdict) (d : string) : Prop :=
  exists name p ds, In (name, p) inp /\ p_dims p = Some ds /\ In d ds.

(** Dim [d] is declared by an output. *)
Definition output_dim (outp inp : pdict) (d : string) : Prop :=
  exists name ds, declared_dims outp inp name ds /\ In d ds.

(** The index of an array with declared dims [ds] that lies in column [j], at the
    named indices [i]. *)
Definition place (ds : list string) (j : nat) (i : string -> nat) : list nat :=
  map (fun d => if String.eqb d "*" then j else i d) ds.

(** The named indices [i] are within the lengths [lens] of the named dims of [ds]. *)
Definition within (lens : string -> nat) (ds : list string) (i : string -> nat) : Prop :=
  forall d, In d ds -> d <> "*" -> i d < lens d.

Section Spec.
  Context {T : Type} {A : Arith T} {R : Registry}.

  (** The arrays given to array_call lie on one grid: the named dims have lengths
      [lens], and there are [lens "*"] columns. *)
  Definition on_grid (inp : pdict) (lens : string -> nat) (raw : dict (rval T)) : Prop :=
    forall name p ds, In (name, p) inp -> p_dims p = Some ds ->
      exists r, dget (raw_name name p) raw = Some (RArr r) /\ wf_nd r /\ shape r = map lens ds.

  (** The arrays returned by array_call lie on the grid [m], which has the columns
      and the input dims of the grid [lens]. *)
  Definition result_grid (inp outp : pdict) (lens m : string -> nat) (out : dict (nd T)) : Prop :=
    (forall d, input_dim inp d -> m d = lens d) /\
    forall name ds a, declared_dims outp inp name ds ->
      dget (out_key outp inp name) out = Some a -> shape a = map m ds.

  (** Column [j1] of the first raw state holds what column [j2] of the second does. *)
  Definition same_column (inp : pdict) (lens : string -> nat)
      (raw1 : dict (rval T)) (j1 : nat) (raw2 : dict (rval T)) (j2 : nat) : Prop :=
    dget "time" raw1 = dget "time" raw2 /\
    forall name p ds r1 r2, In (name, p) inp -> p_dims p = Some ds ->
      dget (raw_name name p) raw1 = Some (RArr r1) -> dget (raw_name name p) raw2 = Some (RArr r2) ->
      forall i, within lens ds i -> at_ r1 (place ds j1 i) = at_ r2 (place ds j2 i).

  (** [f] (raw state to raw outputs) works column by column: its outputs lie on the
      grid of its inputs, and each column of them depends on nothing but the time
      and that column of the inputs. *)
  Definition columnwise (inp outp : pdict) (f : dict (rval T) -> dict (nd T) -> Prop) : Prop :=
    forall lens1 lens2 raw1 raw2 out1 out2,
      f raw1 out1 -> f raw2 out2 -> on_grid inp lens1 raw1 -> on_grid inp lens2 raw2 ->
      (forall d, input_dim inp d -> d <> "*" -> lens1 d = lens2 d) ->
      exists m1 m2, result_grid inp outp lens1 m1 out1 /\ result_grid inp outp lens2 m2 out2 /\
        (forall d, d <> "*" -> m1 d = m2 d) /\
        forall j1 j2, j1 < lens1 "*" -> j2 < lens2 "*" -> same_column inp lens1 raw1 j1 raw2 j2 ->
          forall name ds a1 a2, declared_dims outp inp name ds ->
            dget (out_key outp inp name) out1 = Some a1 -> dget (out_key outp inp name) out2 = Some a2 ->
            forall i, within m1 ds i -> at_ a1 (place ds j1 i) = at_ a2 (place ds j2 i).

  (** '*' matches no dim that is declared by name. *)
  Definition unambiguous (st : state T) (inp outp : pdict) : Prop :=
    forall d, In d (wildcard_dims st inp) -> ~ input_dim inp d /\ ~ output_dim outp inp d.

  (** [p] chooses a column of the state: an index for each dim '*' matches. *)
  Definition column_of (st : state T) (inp : pdict) (p : string -> nat) : Prop :=
    forall nm pr ds a d n, listed st inp nm pr ds a -> has_dim a d n ->
      In d (wildcard_dims st inp) -> p d < n.

  (** The point [c] lies in column [p] of the state. *)
  Definition in_column (st : state T) (inp : pdict) (p c : string -> nat) : Prop :=
    forall d, In d (wildcard_dims st inp) -> c d = p d.

  (** The named coordinates of [c] are within the lengths of the dims of [a]. *)
  Definition inside (a : da T) (c : string -> nat) : Prop :=
    forall d n, has_dim a d n -> c d < n.

  (** Column [p1] of [st1] holds, in the declared units, what column [p2] of [st2]
      holds; a quantity without one of its declared dims is constant along it. *)
  Definition same_inputs (inp : pdict) (st1 : state T) (p1 : string -> nat)
      (st2 : state T) (p2 : string -> nat) : Prop :=
    dget "time" st1 = dget "time" st2 /\
    forall name p ds u a1 a2 q1 q2, In (name, p) inp -> p_dims p = Some ds -> p_units p = Some u ->
      dget name st1 = Some (VDA a1) -> dget name st2 = Some (VDA a2) ->
      to_units a1 u = Ok q1 -> to_units a2 u = Ok q2 ->
      forall c1 c2, in_column st1 inp p1 c1 -> in_column st2 inp p2 c2 ->
        inside q1 c1 -> inside q2 c2 ->
        (forall d, In d ds -> d <> "*" -> c1 d = c2 d) -> da_at q1 c1 = da_at q2 c2.

  (** The named dims of the inputs have the same lengths in both states. *)
  Definition same_lengths (inp : pdict) (st1 st2 : state T) : Prop :=
    forall L1 L2, common_lengths st1 inp L1 -> common_lengths st2 inp L2 ->
      forall d, input_dim inp d -> d <> "*" -> L1 d = L2 d.

  (** Column [p1] of the outputs [out1] for [st1] is column [p2] of the outputs
      [out2] for [st2]. *)
  Definition same_outputs (inp outp : pdict) (st1 : state T) (p1 : string -> nat) (out1 : dict (da T))
      (st2 : state T) (p2 : string -> nat) (out2 : dict (da T)) : Prop :=
    forall name ds q1 q2, declared_dims outp inp name ds ->
      dget name out1 = Some q1 -> dget name out2 = Some q2 ->
      forall c1 c2, in_column st1 inp p1 c1 -> in_column st2 inp p2 c2 ->
        inside q1 c1 -> (forall d, In d ds -> d <> "*" -> c1 d = c2 d) ->
        inside q2 c2 /\ da_at q1 c1 = da_at q2 c2.

  (** Both states hold the same fields for the inputs: same units, same dims (in
      any order), same value at every point. *)
  Definition same_fields (inp : pdict) (st1 st2 : state T) : Prop :=
    dget "time" st1 = dget "time" st2 /\
    forall name p, In (name, p) inp ->
      exists a1 a2, dget name st1 = Some (VDA a1) /\ dget name st2 = Some (VDA a2) /\
        dget "units" (attrs a1) = dget "units" (attrs a2) /\
        (forall d n, has_dim a1 d n <-> has_dim a2 d n) /\
        forall c, inside a1 c -> da_at a1 c = da_at a2 c.

  (** [st2] holds nothing but column [p] of [st1]: the dims '*' matches in [st1] are
      gone, fixed at [p]. *)
  Definition single_column (inp : pdict) (st1 : state T) (p : string -> nat) (st2 : state T) : Prop :=
    dget "time" st1 = dget "time" st2 /\
    forall name pr, In (name, pr) inp ->
      exists a1 a2, dget name st1 = Some (VDA a1) /\ dget name st2 = Some (VDA a2) /\
        dget "units" (attrs a1) = dget "units" (attrs a2) /\
        (forall d n, has_dim a2 d n <-> has_dim a1 d n /\ ~ In d (wildcard_dims st1 inp)) /\
        forall c, inside a1 c -> in_column st1 inp p c -> da_at a1 c = da_at a2 c.
End Spec.

(** In every column, the outputs are determined by the column of the inputs: whatever
    the two states, wherever the two columns. *)
Definition determined {T} {A : Arith T} {R : Registry} (inp outp : pdict)
    (st1 : state T) (out1 : dict (da T)) (st2 : state T) (out2 : dict (da T)) : Prop :=
  forall p1 p2, column_of st1 inp p1 -> column_of st2 inp p2 ->
    same_inputs inp st1 p1 st2 p2 -> same_outputs inp outp st1 p1 out1 st2 p2 out2.

(** The outputs are the same fields, in every column there is. *)
Definition same_output_fields {T} {A : Arith T} (inp : pdict) (st : state T)
    (out1 out2 : dict (da T)) : Prop :=
  forall name q1 q2, dget name out1 = Some q1 -> dget name out2 = Some q2 ->
    forall c, column_of st inp c -> inside q1 c -> inside q2 c /\ da_at q1 c = da_at q2 c.

(** The outputs [out2] are column [p] of the outputs [out1]. *)
Definition output_column {T} {A : Arith T} (inp : pdict) (st : state T) (p : string -> nat)
    (out1 out2 : dict (da T)) : Prop :=
  forall name q1 q2, dget name out1 = Some q1 -> dget name out2 = Some q2 ->
    (forall d, In d (dims q2) -> ~ In d (wildcard_dims st inp)) /\
    forall c, in_column st inp p c -> inside q1 c -> inside q2 c /\ da_at q1 c = da_at q2 c.

(** A proper state in which '*' matches no dim that is declared by name. *)
Definition column_setup {T} {A : Arith T} (inp outp : pdict) (st : state T) : Prop :=
  wf_state st /\ unambiguous st inp outp.

(** A proper state whose units are known, with all inputs declared in full and none
    naming a dim twice once '*' is replaced. *)
Definition readable {T} {A : Arith T} {R : Registry} (inp : pdict) (st : state T) : Prop :=
  wf_state st /\ proper_inputs inp /\ complete st inp /\ known_units st inp /\ no_repeated_dims st inp.
