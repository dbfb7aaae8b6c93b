(** What the memory properties of component calls talk about (C69-C71). *)
From Coq Require Import String List Bool Arith ZArith QArith Qcanon.
From Verif Require Import Prelude ArithM NdArray Units DataArrayM Wildcard GetNp Restore Tracers Composite Heap Components HeapCalls SpecArrays SpecComposite SpecHeap.
Import ListNotations.
Open Scope string_scope.
Open Scope nat_scope.
Open Scope list_scope.

(** The memory of the arrays array_call is given, and of those it returns. *)
Definition raw_cells (d : dict hrval) : cells :=
  fun c => (exists k a, In (k, HRArr a) d /\ In c (data a)) \/ (exists k a, In (k, HRTime (HDA a)) d /\ In c (h_cells a)).
Definition nd_cells (d : dict (nd nat)) : cells := fun c => exists k a, In (k, a) d /\ In c (data a).

(** Arrays have as many elements as their shape says. *)
Definition real_arrays (d : dict (nd nat)) : Prop := forall k a, In (k, a) d -> wf_nd a.

Section Spec.
  Context {T : Type} {A : Arith T} {R : Registry}.

  Definition load_outs (h : heap T) (o : dict (nd nat) * dict (nd nat)) : dict (nd T) * dict (nd T) :=
    (load_nds h (fst o), load_nds h (snd o)).
  Definition both (o : dict (nd nat) * dict (nd nat)) : list (dict (nd nat)) := [fst o; snd o].
  Definition single (o : dict (nd nat)) : list (dict (nd nat)) := [o].

  Definition rmap {B C} (f : B -> C) (r : res B) : res C :=
    match r with Ok x => Ok (f x) | Err e => Err e end.

  (** ** Well-behaved array_calls

      The program [hac] computes what the value-level [ac] computes, changes nothing that
      was in memory and returns no array in [X].  [P] tells whether it may keep or return
      the arrays it is given; then these must not be in [X].  [ld] and [parts] are the
      values and the dictionaries of what it returns. *)
  Definition array_behaves_if (P : Prop) {UH UV O OV} (ld : heap T -> O -> OV) (parts : O -> list (dict (nd nat)))
      (I : invariant (T:=T) UH UV) (hac : harray T UH O) (ac : UV -> dict (rval T) -> Z -> UV * res OV) : Prop :=
    forall (X : cells) h u v raw dt u' h' r,
      I X h u v -> (forall x, X x -> x < length h) ->
      (forall x, raw_cells raw x -> x < length h) -> (P -> avoids (raw_cells raw) X) ->
      hac u h raw dt = ((u', h'), r) ->
      grown h h' /\
      (exists v', ac v (load_raw h raw) dt = (v', rmap (ld h') r) /\ I X h' u' v') /\
      match r with
      | Err _ => True
      | Ok o => forall d, In d (parts o) ->
                  real_arrays d /\ (forall x, nd_cells d x -> x < length h') /\ avoids (nd_cells d) X
      end.

  (** ** Calls that compute what the value-level calls compute

      Like [array_behaves_if], for a call that is given a state. *)
  Definition call_behaves_if (P : Prop) {UH UV B BV} (ld : heap T -> B -> BV) (results : B -> list (dict hda))
      (I : invariant (T:=T) UH UV) (hc : UH -> heap T -> hstate -> Z -> (UH * heap T) * res B)
      (c : UV -> state T -> Z -> UV * res BV) : Prop :=
    forall (X : cells) h u v st dt u' h' r,
      I X h u v -> (forall x, X x -> x < length h) ->
      state_in h st -> (P -> avoids (state_cells st) X) ->
      hc u h st dt = ((u', h'), r) ->
      grown h h' /\
      (exists v', c v (load_state h st) dt = (v', rmap (ld h') r) /\ I X h' u' v') /\
      match r with
      | Err _ => True
      | Ok b => forall d, In d (results b) -> dict_in h' d /\ NoDup (keys d) /\ avoids (cells_of d) X
      end.

  Definition load_pair_dicts (h : heap T) (o : dict hda * dict hda) : dict (da T) * dict (da T) :=
    (load_dict h (fst o), load_dict h (snd o)).

  (** The value-level component returns proper tendencies. *)
  Definition returns_proper {U} (c : icaller (T:=T) U) : Prop :=
    forall v st dt v' t d, c v st dt = (v', Ok (t, d)) -> proper t.

  (** ** What a call does to memory

      Everything [call] does besides running [hac]: the state is given to it in memory [h].
      Before and after, memory is only added; [hac] is given memory of the state or new
      memory; what the call returns lies in what [hac] returned or in new memory. *)
  Definition only_array_call {U O B} (parts : O -> list (dict (nd nat))) (results : B -> list (dict hda))
      (hac : harray T U O) (u : U) (h : heap T) (st : hstate) (dt : Z) (u' : U) (h' : heap T) (r : res B) : Prop :=
    exists h1, grown h h1 /\
      ((u' = u /\ h' = h1 /\ exists e, r = Err e) \/
       exists raw h2 ro,
         (forall c, raw_cells raw c -> state_cells st c \/ length h <= c < length h1) /\
         hac u h1 raw dt = ((u', h2), ro) /\
         grown h2 h' /\
         match ro with
         | Err e => r = Err e /\ h' = h2
         | Ok o => forall b, r = Ok b -> length h1 <= length h2 ->
                     (forall d, In d (parts o) -> real_arrays d /\ forall x, nd_cells d x -> x < length h2) ->
                     forall x, (exists d, In d (results b) /\ cells_of d x) ->
                       (exists d, In d (parts o) /\ nd_cells d x) \/ length h2 <= x < length h'
         end).

  Definition both_results (b : dict hda * dict hda) : list (dict hda) := [fst b; snd b].
  Definition single_result (b : dict hda) : list (dict hda) := [b].

  (** ** Which memory is shared

      The element of array [r] at index [i] is the element of [a] at the point with named
      coordinates [c]: not an equal value, but the same cell. *)
  Definition same_cell (r : nd nat) (i : list nat) (a : hda) (c : string -> nat) : Prop :=
    exists x, nth_error (data r) (ravel (shape r) i) = Some x /\
              nth_error (h_cells a) (ravel (h_shape a) (map c (h_dims a))) = Some x.

  (** The array is in the wanted units already. *)
  Definition in_units (a : hda) (u : string) : Prop :=
    exists own u1 u2, dget "units" (h_attrs a) = Some own /\ parse own = Some u1 /\ parse u = Some u2 /\ one_eqb u1 u2 = true.

  (** What array [r], made for entry [(name, p)] when memory had [n] cells, shares with the state. *)
  Definition input_view (cp : nd nat -> list nat -> bool) (st : hstate) (inp : pdict) (n : nat)
      (name : string) (p : props) (r : nd nat) : Prop :=
    exists ds u a, p_dims p = Some ds /\ p_units p = Some u /\ dget name st = Some (HDA a) /\
      let W := wildcard_dims (refs_state st) inp in
      (in_units a u -> prod (shape r) = prod (h_shape a) -> (In "*" ds -> forall b s, cp b s = false) ->
       forall L, common_lengths (refs_state st) inp L ->
       forall c, grid_point W L c ds -> same_cell r (map (axis_pos W L c) ds) a c) /\
      (~ in_units a u \/ prod (shape r) <> prod (h_shape a) \/ (In "*" ds /\ forall b s, cp b s = true) ->
       forall x, In x (data r) -> n <= x).

  (** All arrays of the raw state: the inputs as above, and packed tracers in new memory. *)
  Definition input_views (cp : nd nat -> list nat -> bool) (st : hstate) (inp : pdict) (packs : bool) (n : nat)
      (raw : dict hrval) : Prop :=
    (forall name p, In (name, p) inp -> raw_name name p <> "time" -> (packs = true -> raw_name name p <> "tracers") ->
       exists r, dget (raw_name name p) raw = Some (HRArr r) /\ input_view cp st inp n name p r) /\
    (packs = true -> exists r, dget "tracers" raw = Some (HRArr r) /\ forall x, In x (data r) -> n <= x).

  (** array_call was run on arrays that share memory like this, or the call failed before. *)
  Definition runs_on {U O B} (views : dict hrval -> Prop) (hac : harray T U O) (u : U) (dt : Z) (u' : U) (r : res B) : Prop :=
    (u' = u /\ exists e, r = Err e) \/
    exists h1 raw h2 ro, views raw /\ hac u h1 raw dt = ((u', h2), ro).

  (** DataArray [a], returned for output [name] when memory had [n] cells, consists of the very
      elements of the array [ra] that array_call returned for it, unless '*' is among its dims
      and giving [ra] the shape of [a] makes a copy. *)
  Definition output_view (cp : nd nat -> list nat -> bool) (outp inp : pdict) (raw : dict (nd nat)) (n : nat)
      (name : string) (a : hda) : Prop :=
    exists ds ra, declared_dims outp inp name ds /\ dget (out_key outp inp name) raw = Some ra /\
      let copied := In "*" ds /\ cp ra (h_shape a) = true in
      (~ copied -> h_cells a = data ra) /\ (copied -> forall x, In x (h_cells a) -> n <= x).

  Definition output_views (cp : nd nat -> list nat -> bool) (outp inp : pdict) (raw : dict (nd nat)) (n : nat) (out : dict hda) : Prop :=
    forall name p, dget name outp = Some p -> exists a, dget name out = Some a /\ output_view cp outp inp raw n name a.

  (** The arrays array_call returned, without the packed tracers. *)
  Definition unpacked (pk : option packer) (raw : dict (nd nat)) : dict (nd nat) :=
    match pk with Some _ => ddel "tracers" raw | None => raw end.

  (** What the memory cells [X] hold is changed by no run of the program. *)
  Definition array_spares {U O} (X : cells) (hac : harray T U O) : Prop :=
    forall u h raw dt u' h' r, hac u h raw dt = ((u', h'), r) -> changed_in (fun c => ~ X c) h h'.

  (** Every tendency has distinct dims, and none is '*'. *)
  Definition plain_dims (outp inp : pdict) : Prop :=
    forall name ds, declared_dims outp inp name ds -> NoDup ds /\ ~ In "*" ds.

  (** The value-level array_call returns real arrays. *)
  Definition returns_real {U} (ac : U -> dict (rval T) -> Z -> U * res (dict (nd T) * dict (nd T))) : Prop :=
    forall v raw dt v' o, ac v raw dt = (v', Ok o) -> forall k a, In (k, a) (fst o) -> wf_nd a.
End Spec.
