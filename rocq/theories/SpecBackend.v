(** What it means that one state backend represents another (C73). *)
From Coq Require Import String List.
From Verif Require Import Prelude ArithM NdArray DataArrayM Components Backend.
Import ListNotations.
Open Scope string_scope.
Open Scope list_scope.

(** Both succeed with related values, or both raise the same exception. *)
Definition same_outcome {X Y} (P : X -> Y -> Prop) (a : res X) (b : res Y) : Prop :=
  match a, b with
  | Ok x, Ok y => P x y
  | Err e, Err e' => e = e'
  | _, _ => False
  end.

(** Dictionaries with the same names in the same order and related values. *)
Definition same_dict {X Y} (P : X -> Y -> Prop) (d : dict X) (e : dict Y) : Prop :=
  Forall2 (fun x y => fst x = fst y /\ P (snd x) (snd y)) d e.

Definition same_pair {X Y} (P : X -> Y -> Prop) (a : dict X * dict X) (b : dict Y * dict Y) : Prop :=
  same_dict P (fst a) (fst b) /\ same_dict P (snd a) (snd b).

(** Values of backend [B1] related by [Rel] to values of backend [B2] have the same dims
    and shape, give the same arrays, and both backends make related values from an array. *)
Record represents {T V W} (Rel : V -> W -> Prop) (B1 : backend T V) (B2 : backend T W) : Prop := {
  rep_dims : forall v w, Rel v w -> b_dims B1 v = b_dims B2 w;
  rep_shape : forall v w, Rel v w -> b_shape B1 v = b_shape B2 w;
  rep_get : forall v w name units ds dl, Rel v w ->
    b_get B1 v name units ds dl = b_get B2 w name units ds dl;
  rep_create : forall a name units ds st1 st2, same_dict Rel st1 st2 ->
    same_outcome Rel (b_create B1 a name units ds st1) (b_create B2 a name units ds st2)
}.

(** Raw states with the same arrays and a related time. *)
Definition same_raw {T V W} (Rel : V -> W -> Prop) (r1 : dict (grval T V)) (r2 : dict (grval T W)) : Prop :=
  same_dict (fun x y => match x, y with
                        | GArr a, GArr b => a = b
                        | GTime t, GTime s => Rel t s
                        | _, _ => False
                        end) r1 r2.

(** The raw state that the default backend gives, in the form Components.v has it. *)
Definition default_raw {T} (raw : dict (grval T (pval T))) : dict (rval T) :=
  map (fun kv => (fst kv, match snd kv with GArr a => RArr a | GTime t => RTime t end)) raw.

(** A dictionary of DataArrays as part of a state. *)
Definition as_values {T} (d : dict (da T)) : dict (pval T) := map (fun kv => (fst kv, VDA (snd kv))) d.

(** ** What a backend is asked for, and what it makes *)
Section Asked.
  Context {T V : Type} (B : backend T V).

  (** [d] is, for the backend, a dimension of an input that this input does not declare. *)
  Definition undeclared_dim (st : dict V) (inp : pdict) (d : string) : Prop :=
    exists n p pd v ds, In (n, p) inp /\ p_dims p = Some pd /\ dget n st = Some v /\
      b_dims B v = Ok ds /\ In d ds /\ ~ In d pd.

  (** For the backend some input has dimension [d], of length [l]. *)
  Definition input_length (st : dict V) (inp : pdict) (d : string) (l : nat) : Prop :=
    exists n p v ds sh, In (n, p) inp /\ dget n st = Some v /\
      b_dims B v = Ok ds /\ b_shape B v = Ok sh /\ In (d, l) (combine ds sh).

  (** The dims [ds] asked for when [pd] is declared: '*' stands for the undeclared ones. *)
  Definition filled (st : dict V) (inp : pdict) (pd ds : list string) : Prop :=
    (~ In "*" pd /\ ds = pd) \/
    exists pre post names, pd = pre ++ "*" :: post /\ ~ In "*" pre /\ ds = pre ++ names ++ post /\
      forall d, In d names <-> undeclared_dim st inp d.

  (** Array [a], called [k] in the raw state, is what get_array returns for an input of
      that name or alias, in the declared units; flattened if '*' is declared. *)
  Definition asked_input (st : dict V) (inp : pdict) (k : string) (a : nd T) : Prop :=
    exists n p pd u v ds dl b,
      In (n, p) inp /\ k = match p_alias p with Some al => al | None => n end /\
      p_dims p = Some pd /\ p_units p = Some u /\ dget n st = Some v /\
      filled st inp pd ds /\ (forall d l, dget d dl = Some l <-> input_length st inp d l) /\
      b_get B v n u ds dl = Ok b /\ data a = data b /\ (~ In "*" pd -> a = b).

  (** [q] is what create_quantity returns for output [n]: the array array_call returned
      under the name or alias, in the declared units and dims. *)
  Definition made_output (raw : dict (nd T)) (outp inp : pdict) (st : dict V) (n : string) (q : V) : Prop :=
    exists p u pd ds ra a,
      dget n outp = Some p /\ p_units p = Some u /\
      match p_dims p with Some l => Some l | None => match dget n inp with Some i => p_dims i | None => None end end = Some pd /\
      filled st inp pd ds /\
      dget (match p_alias p with
            | Some al => al
            | None => match dget n inp with Some i => match p_alias i with Some al => al | None => n end | None => n end
            end) raw = Some ra /\
      data a = data ra /\ length (shape a) = length ds /\ (~ In "*" pd -> a = ra) /\
      b_create B a n u ds st = Ok q.
End Asked.

(** The backend in use after some calls of set_backend: the last one accepted. *)
Definition last_accepted {O} (valid : O -> bool) (start : O) (tried : list O) : O :=
  last (filter valid tried) start.
