(** Specification vocabulary for tracers (C45-C48). *)
From Coq Require Import String List Bool Arith ZArith.
From Verif Require Import Prelude ArithM NdArray Units DataArrayM SpecArrays Tracers.
Import ListNotations.
Open Scope string_scope.
Open Scope nat_scope.
Open Scope list_scope.

(** The tracers of a packer in the order of its arrays: the prepended ones, then the
    registered ones that are not among them, in the order they were first registered. *)
Definition tracer_order (g : treg) (p : packer) : list string :=
  map fst (pk_prepend p) ++ filter (fun n => negb (mem n (map fst (pk_prepend p)))) (dedup (tr_names g)).

(** The units a tracer has in those arrays: those it is prepended with (the last
    pair if there are several), else those it is registered with. *)
Definition tracer_units (g : treg) (p : packer) (name : string) : option string :=
  match dget name (rev (pk_prepend p)) with
  | Some u => Some u
  | None => dget name (tr_units g)
  end.

(** The two parts of the registry list the same names. *)
Definition consistent (g : treg) : Prop :=
  NoDup (keys (tr_units g)) /\ forall n, In n (tr_names g) <-> In n (keys (tr_units g)).

(** [qd] are the tracer dims of the packer without 'tracer', which is listed once. *)
Definition has_dims (p : packer) (qd : list string) : Prop :=
  exists pre post, pk_dims p = pre ++ "tracer" :: post /\ qd = pre ++ post /\ ~ In "tracer" qd.

(** What the tracers are as quantities: their dims and units, no aliases. *)
Definition tracer_quantities (g : treg) (p : packer) (qd : list string) (tp : pdict) : Prop :=
  NoDup (keys tp) /\ (forall n, In n (keys tp) <-> In n (tracer_order g p)) /\
  forall n, dget n tp = match tracer_units g p n with
                        | Some u => Some (qprops qd u)
                        | None => None
                        end.

(** Length and position along the axes of an array of [n] tracers. *)
Definition tracer_axis (n : nat) (W : list string) (L : string -> nat) (d : string) : nat :=
  if String.eqb d "tracer" then n else axis_len W L d.

Definition tracer_pos (i : nat) (W : list string) (L c : string -> nat) (d : string) : nat :=
  if String.eqb d "tracer" then i else axis_pos W L c d.

(** The shape of packed arrays; without tracers they are empty. *)
Definition tracer_shape (g : treg) (p : packer) (W : list string) (L : string -> nat) : list nat :=
  match tracer_order g p with
  | [] => map (fun _ => 0) (pk_dims p)
  | order => map (tracer_axis (length order) W L) (pk_dims p)
  end.

(** Units of unpacked tracers. *)
Definition times_unit (u mult : string) : string := if String.eqb mult "" then u else (u ++ " " ++ mult)%string.

(** [out] holds the tracers of array [a]: the i-th one has the numbers of the i-th
    slice, at the same named coordinates, with its units times [mult]. *)
Definition unpacked {T} {A : Arith T} (g : treg) (p : packer) (qd W : list string) (L : string -> nat) (mult : string)
    (a : nd T) (out : dict (da T)) : Prop :=
  forall i m, nth_error (tracer_order g p) i = Some m ->
    exists u q, tracer_units g p m = Some u /\ dget m out = Some q /\
      attrs q = [("units", times_unit u mult)] /\ dims q = expand_dims W qd /\ shape (arr q) = map L (dims q) /\
      forall c, grid_point W L c qd -> da_at q c = at_ a (map (tracer_pos i W L c) (pk_dims p)).

(** ** Histories of the registry *)

Inductive tracer_op : Type :=
| Register (name units : string)
| ResetTracers
| ResetPackers
| NewPacker (prepend : list (string * string)) (tracer_dims outs : list string).

Section Ops.
  Context {R : Registry}.

  Definition tracer_step (g : treg) (op : tracer_op) : treg * res unit :=
    match op with
    | Register n u => register_tracer g n u
    | ResetTracers => (reset_tracers g, Ok tt)
    | ResetPackers => (reset_packers g, Ok tt)
    | NewPacker pre td outs => let (g', r) := new_packer g pre td outs in (g', let* _ := r in Ok tt)
    end.

  (** The registry after a history that started with the module just imported. *)
  Definition registry_after (ops : list tracer_op) : treg :=
    fold_left (fun g op => fst (tracer_step g op)) ops empty_treg.

  (** The outcome of [op] after [ops]. *)
  Definition outcome (ops : list tracer_op) (op : tracer_op) : res unit := snd (tracer_step (registry_after ops) op).
End Ops.
