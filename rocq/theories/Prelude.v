(** Shared vocabulary of the model: exceptions as values, insertion-ordered
    dictionaries, and the Python list helpers the modelled code uses. *)
From Coq Require Import String List Bool Arith ZArith.
Import ListNotations.
Open Scope string_scope.
Open Scope list_scope.

(** The exception classes raised by the modelled code: sympl/_core/exceptions.py
    (InvalidStateError, SharedKeyError, ComponentMissingOutputError,
    ComponentExtraOutputError, InvalidPropertyDictError, DependencyError) and the
    Python / pint / numpy classes that escape from it.  Messages are dropped. *)
Inductive exn : Type :=
| EKey | EValue | EType | EAttr | EIndex | ERuntime | EAssertion | ENotImpl
| EIO | EImport | EZeroDiv
| EInvalidState | EInvalidProps | ESharedKey | EMissingOutput | EExtraOutput
| EUndefinedUnit          (* pint.UndefinedUnitError *)
| ENoMatch                (* util.py 22: NoMatchForDirectionError *)
| EDimNotInOut            (* util.py 26: DimensionNotInOutDimsError (a ValueError) *)
| EShapeMismatch          (* util.py 30: ShapeMismatchError *)
| EUser (n : nat).        (* an exception raised by user code (array_call) *)

(** Result of a Python call: a value or an exception. *)
Inductive res (A : Type) : Type :=
| Ok (a : A)
| Err (e : exn).
Arguments Ok {A} a.
Arguments Err {A} e.

Definition bind {A B} (x : res A) (f : A -> res B) : res B :=
  match x with Ok a => f a | Err e => Err e end.
Notation "'let*' x ':=' a 'in' b" := (bind a (fun x => b))
  (at level 200, x pattern, a at level 100, b at level 200).

(** [for x in l: acc = f(acc, x)], stopping at the first exception. *)
Fixpoint foldM {A S} (f : S -> A -> res S) (l : list A) (s : S) : res S :=
  match l with
  | [] => Ok s
  | x :: r => let* s' := f s x in foldM f r s'
  end.

(** [[f(x) for x in l]], stopping at the first exception. *)
Fixpoint mapM {A B} (f : A -> res B) (l : list A) : res (list B) :=
  match l with
  | [] => Ok []
  | x :: r => let* y := f x in let* ys := mapM f r in Ok (y :: ys)
  end.

Definition is_ok {A} (x : res A) : bool :=
  match x with Ok _ => true | Err _ => false end.

(** Raise [e] when [b] holds. *)
Definition raise_if (b : bool) (e : exn) : res unit :=
  if b then Err e else Ok tt.

(** [x in l] for strings. *)
Definition mem (x : string) (l : list string) : bool :=
  existsb (String.eqb x) l.

(** [l.index(x)]; [None] is Python's ValueError. *)
Fixpoint index_of (x : string) (l : list string) : option nat :=
  match l with
  | [] => None
  | y :: r => if String.eqb x y then Some 0
              else match index_of x r with Some n => Some (S n) | None => None end
  end.

(** [l1 == l2] on lists of strings. *)
Fixpoint list_eqb (l1 l2 : list string) : bool :=
  match l1, l2 with
  | [], [] => true
  | x :: r1, y :: r2 => String.eqb x y && list_eqb r1 r2
  | _, _ => false
  end.

(** Equality test on lists of naturals (shapes). *)
Fixpoint nats_eqb (l1 l2 : list nat) : bool :=
  match l1, l2 with
  | [], [] => true
  | x :: r1, y :: r2 => Nat.eqb x y && nats_eqb r1 r2
  | _, _ => false
  end.

(** Keep first occurrences: the content of a Python [set(l)] listed in the order
    of first insertion. *)
Fixpoint dedup_acc (seen l : list string) : list string :=
  match l with
  | [] => []
  | x :: r => if mem x seen then dedup_acc seen r else x :: dedup_acc (x :: seen) r
  end.
Definition dedup (l : list string) : list string := dedup_acc [] l.

(** Python [dict] with string keys, in insertion order. *)
Definition dict (V : Type) : Type := list (string * V).

Section Dict.
  Context {V : Type}.

  (** [d.get(k)] *)
  Fixpoint dget (k : string) (d : dict V) : option V :=
    match d with
    | [] => None
    | (k', v) :: r => if String.eqb k k' then Some v else dget k r
    end.

  (** [d[k]] *)
  Definition dgetE (k : string) (d : dict V) : res V :=
    match dget k d with Some v => Ok v | None => Err EKey end.

  (** [k in d] *)
  Definition dmem (k : string) (d : dict V) : bool :=
    match dget k d with Some _ => true | None => false end.

  (** [d[k] = v]: replace in place, or append. *)
  Fixpoint dset (k : string) (v : V) (d : dict V) : dict V :=
    match d with
    | [] => [(k, v)]
    | (k', v') :: r => if String.eqb k k' then (k', v) :: r else (k', v') :: dset k v r
    end.

  (** [del d[k]] / [d.pop(k)] without the KeyError. *)
  Fixpoint ddel (k : string) (d : dict V) : dict V :=
    match d with
    | [] => []
    | (k', v) :: r => if String.eqb k k' then ddel k r else (k', v) :: ddel k r
    end.

  (** [list(d.keys())] *)
  Definition keys (d : dict V) : list string := map fst d.

  (** [d.update(e)] *)
  Definition dupdate (d e : dict V) : dict V :=
    fold_left (fun acc kv => dset (fst kv) (snd kv) acc) e d.
End Dict.
