(** Specification vocabulary for the helpers in util.py (C59, C60, C63). *)
From Coq Require Import String List Bool Arith ZArith Permutation.
From Verif Require Import Prelude ArithM NdArray DataArrayM NetCDF UtilM.
Import ListNotations.
Open Scope string_scope.
Open Scope nat_scope.
Open Scope list_scope.

Section SpecUtil.
  Context {T : Type} {A : Arith T}.

  Definition len (a : da T) (d : string) : nat := or1 (dim_len a d).

  (** The dims of an array that a list of dims does not name: those that '*' stands for. *)
  Definition unlisted (a : da T) (out : list string) : list string := filter (fun x => negb (mem x out)) (dims a).

  (** [out] names each dim of the array once, leaving out only what a single '*' stands for;
      beyond that it may have 'x', 'y', 'z' and stars that stand for nothing. *)
  Definition describes (a : da T) (out : list string) : Prop :=
    (forall d, In d out -> In d (dims a) \/ In d ["x"; "y"; "z"; "*"]) /\
    (forall d, In d (dims a) -> In d out \/ In "*" out) /\
    (forall d, In d (dims a) -> count_occ string_dec out d <= 1) /\
    (unlisted a out <> [] -> count_occ string_dec out "*" <= 1).

  (** Length of an axis of the numpy array, and where a named coordinate is along it.  [rest]
      are the dims that '*' stands for, in the order in which they are flattened. *)
  Definition axis_len (a : da T) (rest : list string) (d : string) : nat :=
    if String.eqb d "*" then prod (map (len a) rest) else len a d.

  Definition axis_at (a : da T) (rest : list string) (c : string -> nat) (d : string) : nat :=
    if String.eqb d "*" then ravel (map (len a) rest) (map c rest) else if mem d (dims a) then c d else 0.

  Definition inside (a : da T) (c : string -> nat) : Prop := forall d, In d (dims a) -> c d < len a d.
End SpecUtil.

(** The aliases that components give to a quantity in one kind of properties, in order. *)
Definition aliases_in (get : propsets -> option pdict) (cs : list propsets) (n : string) : list string :=
  flat_map (fun c => match get c with
                     | None => []
                     | Some pd => flat_map (fun np => if String.eqb n (fst np) then match p_alias (snd np) with Some al => [al] | None => [] end else []) pd
                     end) cs.

(** The last of them, if any. *)
Fixpoint last_of (l : list string) : option string :=
  match l with
  | [] => None
  | [x] => Some x
  | _ :: r => last_of r
  end.

Definition or_else (o o' : option string) : option string := match o with Some _ => o | None => o' end.

Section SpecFlatten.
  Context {T : Type}.

  (** The order in which '*' is flattened: that of the array, or the one required if it is
      of the same dims. *)
  Definition flattened (a : da T) (out : list string) (required : option (dict (list string))) (rest : list string) : Prop :=
    match required with
    | Some w => match dget "*" w with
                | Some ws => (Permutation (unlisted a out) ws /\ rest = ws) \/ (~ Permutation (unlisted a out) ws /\ rest = unlisted a out)
                | None => rest = unlisted a out
                end
    | None => rest = unlisted a out
    end.
End SpecFlatten.
