(** repr() of components, time steppers, monitors and composites: the __repr__ methods
    of sympl/_core/base_components.py, tendencystepper.py and composite.py. *)
From Coq Require Import String Ascii List Bool Arith.
From Verif Require Import Prelude.
Import ListNotations.
Open Scope string_scope.
Open Scope nat_scope.
Open Scope list_scope.

(** A value in an attribute or a list: a value with a known repr (numbers, strings,
    arrays), one whose repr raises, or a reference to an object. *)
Inductive fval : Type :=
| FAtom (s : string)
| FFail (e : exn)
| FRef (i : nat).

(** Objects: a component, stepper or monitor with its class and its __dict__ without
    '_making_repr'; or a list of values with what is written before, between and after
    them (a composite, or a Python tuple). *)
Inductive rnode : Type :=
| Guarded (cls : string) (fields : list (string * fval))
| Listing (op sep cl : string) (items : list fval).

Definition rheap : Type := list rnode.

Definition nl : string := String (ascii_of_nat 10) "".

Fixpoint join (sep : string) (l : list string) : string :=
  match l with
  | [] => ""
  | [s] => s
  | s :: r => (s ++ sep ++ join sep r)%string
  end.

Definition nmem (i : nat) (l : list nat) : bool := existsb (Nat.eqb i) l.

Fixpoint nremove (i : nat) (l : list nat) : list nat :=
  match l with
  | [] => []
  | j :: r => if Nat.eqb i j then r else j :: nremove i r
  end.

(** The values from left to right; the first exception ends it. *)
Fixpoint show_all (f : list nat -> fval -> list nat * res string) (busy : list nat) (vs : list fval)
    : list nat * res (list string) :=
  match vs with
  | [] => (busy, Ok [])
  | v :: r =>
      match f busy v with
      | (busy1, Err e) => (busy1, Err e)
      | (busy1, Ok s) =>
          match show_all f busy1 r with
          | (busy2, Err e) => (busy2, Err e)
          | (busy2, Ok ss) => (busy2, Ok (s :: ss))
          end
      end
  end.

(** '{}: {}'.format(repr(key), repr(value)); attribute names contain no quotes. *)
Definition field_text (kv : string * string) : string := ("'" ++ fst kv ++ "': " ++ snd kv)%string.

(** base_components.py 470-481, 724-735, 948-959, 1155-1166, 1253-1264 and
    tendencystepper.py 108-119 (one text, in six classes), and composite.py 67-70.
    [busy] are the objects whose _making_repr is True; [depth] is what is left of
    Python's recursion limit. *)
Fixpoint show (depth : nat) (h : rheap) (busy : list nat) (v : fval) : list nat * res string :=
  match v with
  | FAtom s => (busy, Ok s)
  | FFail e => (busy, Err e)
  | FRef i =>
      match depth with
      | 0 => (busy, Err ERuntime)
      | S n =>
          match nth_error h i with
          | None => (busy, Err EAttr)
          | Some (Guarded c fs) =>
              if nmem i busy then (busy, Ok (c ++ "(recursive reference)")%string)
              else
                match show_all (show n h) (i :: busy) (map snd fs) with
                | (busy1, Err e) => (busy1, Err e)
                | (busy1, Ok ss) =>
                    (nremove i busy1,
                     Ok (c ++ "(" ++ join nl (map field_text (combine (map fst fs) ss)) ++ ")")%string)
                end
          | Some (Listing op sep cl items) =>
              match show_all (show n h) busy items with
              | (busy1, Err e) => (busy1, Err e)
              | (busy1, Ok ss) => (busy1, Ok (op ++ join sep ss ++ cl)%string)
              end
          end
      end
  end.

(** composite.py 67-70: what a composite writes around its components. *)
Definition composite_node (cls : string) (items : list fval) : rnode :=
  Listing (cls ++ "(" ++ nl)%string ("," ++ nl)%string (nl ++ ")")%string items.
