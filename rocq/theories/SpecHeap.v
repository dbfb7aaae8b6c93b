(** What the memory properties talk about. *)
From Coq Require Import String List Bool Arith ZArith QArith Qcanon.
From Verif Require Import Prelude ArithM NdArray Units DataArrayM Components Composite Steppers SpecComposite SpecSteppers Heap.
Import ListNotations.
Open Scope string_scope.
Open Scope nat_scope.
Open Scope list_scope.

(** A set of memory cells. *)
Definition cells : Type := nat -> Prop.

Definition no_cells : cells := fun _ => False.

(** The cells of a dictionary of arrays, and of a state. *)
Definition cells_of (d : dict hda) : cells := fun c => exists k a, In (k, a) d /\ In c (h_cells a).
Definition state_cells (st : hstate) : cells := fun c => exists k a, In (k, HDA a) st /\ In c (h_cells a).

Definition disjoint (a b : hda) : Prop := forall c, In c (h_cells a) -> In c (h_cells b) -> False.

Section Spec.
  Context {T : Type} {A : Arith T} {R : Registry}.

  (** Nothing that was in memory has changed. *)
  Definition grown (h h' : heap T) : Prop := exists new, h' = h ++ new.

  (** Nothing that was in memory has changed, except possibly the cells of [X]. *)
  Definition changed_in (X : cells) (h h' : heap T) : Prop :=
    length h <= length h' /\ forall c, c < length h -> ~ X c -> cell h' c = cell h c.

  (** Arrays that exist in memory. *)
  Definition exists_in (h : heap T) (a : hda) : Prop := forall c, In c (h_cells a) -> c < length h.
  Definition state_in (h : heap T) (st : hstate) : Prop := forall c, state_cells st c -> c < length h.
  Definition dict_in (h : heap T) (d : dict hda) : Prop := forall c, cells_of d c -> c < length h.

  (** All arrays of a dictionary are what xarray guarantees a DataArray to be. *)
  Definition proper_dict (h : heap T) (d : dict hda) : Prop :=
    NoDup (keys d) /\ forall k a, In (k, a) d -> wf_da (load h a).

  Definition avoids (X Y : cells) : Prop := forall c, X c -> ~ Y c.

  (** What a call returned, as values. *)
  Definition load_out (h : heap T) (r : res (dict hda * dict hda)) : res (dict (da T) * dict (da T)) :=
    match r with
    | Err e => Err e
    | Ok (t, d) => Ok (load_dict h t, load_dict h d)
    end.

  Definition load_stepped (h : heap T) (r : res hstepped) : res (stepped T) :=
    match r with
    | Err e => Err e
    | Ok (d, st) => Ok (load_dict h d, load_state h st)
    end.

  (** ** Well-behaved components

      [I X h u v]: in memory [h] the component's data [u] stands for the value [v],
      and none of it lies in [X], the memory others keep to themselves. *)
  Definition invariant (UH UV : Type) : Type := cells -> heap T -> UH -> UV -> Prop.

  (** It only depends on the component's own memory. *)
  Definition stable {UH UV} (I : invariant UH UV) : Prop :=
    forall (X X' : cells) h h' u v, I X h u v -> changed_in X h h' ->
      (forall c, c < length h -> X' c -> X c) -> I X' h' u v.

  (** The component [hc] computes what the value-level component [c] computes,
      changes nothing that was in memory, and returns no array in [X].  [P] tells
      whether it may keep or return the arrays of the state it is given; then these
      must not be in [X]. *)
  Definition behaves_if (P : Prop) {UH UV} (I : invariant UH UV) (hc : hicaller (T:=T) UH) (c : icaller (T:=T) UV) : Prop :=
    forall (X : cells) h u v st dt u' h' r,
      I X h u v -> (forall x, X x -> x < length h) ->
      state_in h st -> (P -> avoids (state_cells st) X) ->
      hc u h st dt = ((u', h'), r) ->
      grown h h' /\
      (exists v', c v (load_state h st) dt = (v', load_out h' r) /\ I X h' u' v') /\
      match r with
      | Err _ => True
      | Ok (t, d) => dict_in h' t /\ dict_in h' d /\ proper_dict h' t /\ NoDup (keys d) /\
                     avoids (cells_of t) X /\ avoids (cells_of d) X
      end.

  (** It may keep and return the arrays of the state. *)
  Definition behaves {UH UV} := @behaves_if True UH UV.

  (** It neither keeps nor returns arrays of the state. *)
  Definition stays_apart {UH UV} := @behaves_if False UH UV.

  (** A component that takes no timestep. *)
  Definition no_step {U} (c : hcaller (T:=T) U) : hicaller (T:=T) U := fun u h st _ => c u h st.
  Definition no_step_v {U} (c : caller (T:=T) U) : icaller (T:=T) U := fun u st _ => c u st.

  (** The two forms of components of a composite. *)
  Definition behaves_either (P : Prop) {UH UV} (I : invariant UH UV) (hc : hicaller (T:=T) UH + hcaller (T:=T) UH)
      (c : icaller (T:=T) UV + caller (T:=T) UV) : Prop :=
    match hc, c with
    | inl hc, inl c => behaves_if P I hc c
    | inr hc, inr c => behaves_if P I (no_step hc) (no_step_v c)
    | _, _ => False
    end.

  (** ** What a composite does to memory between the calls of its components

      [own] are the cells the composite has allocated so far.  Between a call and
      the next only these change, and new ones are added to them. *)
  Inductive only_own (st : hstate) {U} : cells -> list (hcaller (T:=T) U) -> U -> heap T -> U -> heap T -> Prop :=
  | own_end : forall own u h, only_own st own [] u h u h
  | own_raise : forall own c cs u h u1 h1 e,
      c u h st = ((u1, h1), Err e) -> only_own st own (c :: cs) u h u1 h1
  | own_stop : forall own c cs u h u1 h1 out h2,
      c u h st = ((u1, h1), Ok out) -> changed_in own h1 h2 ->
      only_own st own (c :: cs) u h u1 h2
  | own_next : forall own c cs u h u1 h1 out h2 u' h',
      c u h st = ((u1, h1), Ok out) -> changed_in own h1 h2 ->
      only_own st (fun x => own x \/ length h1 <= x < length h2) cs u1 h2 u' h' ->
      only_own st own (c :: cs) u h u' h'.

  (** ** Steppers as values *)
  Definition load_ab (h : heap T) (a : hab) : ab T :=
    mkab (hab_order a) (hab_dt a) (map (load_dict h) (hab_hist a)).

  Definition load_rk (h : heap T) (k : hrk) : rk T := mkrk (hrk_stages k) (load_ab h (hrk_euler k)).

  Definition load_leap (h : heap T) (l : hleap T) : leap T :=
    mkleap (hlf_nu l) (hlf_alpha l) (hlf_dt l)
      (match hlf_old l with None => None | Some st => Some (load_state h st) end).

  (** The stepper's data and its component's data, related to their values. *)
  Definition ab_inv {UH UV} (I : invariant UH UV) : invariant (hab * UH) (ab T * UV) :=
    fun X h s v =>
      fst v = load_ab h (fst s) /\ I X h (snd s) (snd v) /\
      forall d, In d (hab_hist (fst s)) -> dict_in h d /\ avoids (cells_of d) X.

  Definition rk_inv {UH UV} (I : invariant UH UV) : invariant (hrk * UH) (rk T * UV) :=
    fun X h s v =>
      rk_stages (fst v) = hrk_stages (fst s) /\
      ab_inv I X h (hrk_euler (fst s), snd s) (rk_euler (fst v), snd v).

  (** What a stepper returns exists in memory and is not in [X]. *)
  Definition step_out_in (X : cells) (h : heap T) (r : res hstepped) : Prop :=
    match r with
    | Ok (d, new) => dict_in h d /\ state_in h new /\ avoids (cells_of d) X /\ avoids (state_cells new) X
    | Err _ => True
    end.

  (** What the memory cells [X] hold is changed by no call of the program. *)
  Definition spares {U} (X : cells) (prog : hicaller (T:=T) U) : Prop :=
    forall u h st dt u' h' r, prog u h st dt = ((u', h'), r) -> changed_in (fun c => ~ X c) h h'.

  (** The arrays of a state do not overlap. *)
  Definition separate (st : hstate) : Prop :=
    NoDup (keys st) /\
    (forall k a, In (k, HDA a) st -> NoDup (h_cells a)) /\
    (forall k j a b, In (k, HDA a) st -> In (j, HDA b) st -> k <> j -> disjoint a b).

  (** Arrays of different names in two states do not overlap. *)
  Definition separate_from (old st : hstate) : Prop :=
    forall k j a b, In (k, HDA a) st -> In (j, HDA b) old -> k <> j -> disjoint a b.

  (** A Leapfrog stepper ready to step the state [st]: the arrays of [st] do not
      overlap each other, nor the component's memory, nor the arrays of other names of
      the state the stepper remembers. *)
  Definition leap_ready {UH UV} (I : invariant UH UV) (h : heap T) (l : hleap T) (u : UH) (v : UV) (st : hstate) : Prop :=
    I (state_cells st) h u v /\ state_in h st /\ separate st /\ proper_state (load_state h st) /\
    match hlf_old l with
    | None => True
    | Some old => state_in h old /\ separate_from old st /\ proper_state (load_state h old)
    end.

  (** The memory of the arrays of [st] named in [ks]. *)
  Definition named_cells (st : hstate) (ks : list string) : cells :=
    fun c => exists k a, In k ks /\ In (k, HDA a) st /\ In c (h_cells a).

  (** ** Scaling *)

  (** The factors, in order, of the scaled arrays a cell belongs to. *)
  Definition in_array (out : hstate) (c : nat) (k : string) : bool :=
    match dget k out with
    | Some (HDA a) => existsb (Nat.eqb c) (h_cells a)
    | _ => false
    end.

  Definition factors_at (fs : dict T) (out : hstate) (c : nat) : list T :=
    map snd (filter (fun kf => in_array out c (fst kf)) fs).

  Definition times (x : T) (fs : list T) : T := fold_left amul fs x.

  (** [d'] is [d] with every element multiplied by [f]. *)
  Definition scaled_by (f : T) (d d' : da T) : Prop :=
    dims d' = dims d /\ attrs d' = attrs d /\ shape (arr d') = shape (arr d) /\
    data (arr d') = map (fun x => amul x f) (data (arr d)).

  (** A group of factors that is not given is empty. *)
  Definition given (fs : option (dict T)) : dict T := match fs with Some fs => fs | None => [] end.

  (** What the component is given: exactly its declared inputs and the time.  An
      input without a factor is the very array of the state; one with a factor is a
      new scaled array with the attrs of the old one. *)
  Definition sees (w : scaling T) (h h1 : heap T) (st sst : hstate) : Prop :=
    forall k,
      if mem k (sw_inp w) then
        exists v, dget k st = Some v /\
          match dget k (sw_in w) with
          | None => dget k sst = Some v
          | Some f => exists a b, v = HDA a /\ dget k sst = Some (HDA b) /\ scaled_by f (load h a) (load h1 b) /\
                                  forall c, In c (h_cells b) -> length h <= c
          end
      else dget k sst = if String.eqb k "time" then dget "time" st else None.

  (** Whether a timestep is passed on, and whether it has to be given. *)
  Definition takes_step (w : scaling T) : bool :=
    match sw_kind w with KStepper | KImplicit => true | _ => false end.
  Definition passed (w : scaling T) (dt : option Z) : option Z := if takes_step w then dt else None.

  (** The factors of the first and of the second dictionary the component returns,
      and all factors of a cell. *)
  Definition first_factors (w : scaling T) : dict T :=
    match sw_kind w with KStepper | KDiagnostic => sw_diag w | _ => sw_tend w end.
  Definition second_factors (w : scaling T) : dict T :=
    match sw_kind w with KStepper => sw_out w | KDiagnostic => [] | _ => sw_diag w end.
  Definition all_factors (w : scaling T) (o1 o2 : hstate) (c : nat) : list T :=
    match sw_kind w with
    | KStepper => factors_at (second_factors w) o2 c ++ factors_at (first_factors w) o1 c
    | _ => factors_at (first_factors w) o1 c ++ factors_at (second_factors w) o2 c
    end.

  (** No array of [out] repeats a cell. *)
  Definition plain (out : hstate) : Prop := forall k a, In (k, HDA a) out -> NoDup (h_cells a).

  (** Every name with a factor is an array of [out]. *)
  Definition has_arrays (fs : dict T) (out : hstate) : Prop :=
    forall k, In k (keys fs) -> exists a, dget k out = Some (HDA a).

  (** What became of the arrays of [out]: those with a factor were multiplied by it,
      the others hold what they held. *)
  Definition scaled_outputs (fs : dict T) (h h' : heap T) (out : hstate) : Prop :=
    forall k a, dget k out = Some (HDA a) ->
      match dget k fs with
      | Some f => scaled_by f (load h a) (load h' a)
      | None => load h' a = load h a
      end.

  (** The memory of the arrays with a factor. *)
  Definition scaled_cells (w : scaling T) (o1 o2 : hstate) : cells :=
    fun c => named_cells o1 (keys (first_factors w)) c \/ named_cells o2 (keys (second_factors w)) c.

  Definition load_pair (h : heap T) (r : res (hstate * hstate)) : res (state T * state T) :=
    match r with
    | Err e => Err e
    | Ok (o1, o2) => Ok (load_state h o1, load_state h o2)
    end.

  (** A component that returns new arrays which do not overlap, changes nothing that
      was in memory, and whose answer depends only on the values it is given. *)
  Definition fresh_answers {U} (comp : hwrapped (T:=T) U) : Prop :=
    exists f : state T -> option Z -> res (state T * state T),
    forall u h st dt u' h' r, state_in h st -> comp u h st dt = ((u', h'), r) ->
      grown h h' /\ load_pair h' r = f (load_state h st) dt /\
      match r with
      | Ok (o1, o2) => separate o1 /\ separate o2 /\ avoids (state_cells o1) (state_cells o2) /\
                       forall c, state_cells o1 c \/ state_cells o2 c -> length h <= c < length h'
      | Err _ => True
      end.

  (** The wrapped component after any calls, whatever their outcomes. *)
  Definition scaling_after {U} (w : scaling T) (comp : hwrapped (T:=T) U) (calls : list (hstate * option Z)) (s : U * heap T)
      : U * heap T :=
    fold_left (fun s c => fst (scaling_call w comp (fst s) (snd s) (fst c) (snd c))) calls s.
End Spec.
