(** Functions of Python's str. *)
From Coq Require Import String Ascii List Bool Arith.
Import ListNotations.
Open Scope string_scope.
Open Scope nat_scope.

(** The rest of [s] after the prefix [p]. *)
Fixpoint strip_prefix (p s : string) : option string :=
  match p, s with
  | EmptyString, _ => Some s
  | String a p', String b s' => if Ascii.eqb a b then strip_prefix p' s' else None
  | _, _ => None
  end.

(** [old in s] *)
Fixpoint str_in (old s : string) : bool :=
  match strip_prefix old s with
  | Some _ => true
  | None => match s with
            | EmptyString => false
            | String _ r => str_in old r
            end
  end.

(** s.replace(old, new) for a non-empty [old]: leftmost matches that do not overlap.
    Each round uses up at least one character, so [length s] rounds are enough. *)
Fixpoint replace_fuel (n : nat) (old new s : string) : string :=
  match n with
  | 0 => s
  | S n' =>
      match strip_prefix old s with
      | Some r => (new ++ replace_fuel n' old new r)%string
      | None => match s with
                | EmptyString => EmptyString
                | String c r => String c (replace_fuel n' old new r)
                end
      end
  end.

(** s.replace('', new) puts [new] before every character and at the end. *)
Fixpoint replace_empty (new s : string) : string :=
  match s with
  | EmptyString => new
  | String c r => (new ++ String c (replace_empty new r))%string
  end.

Definition str_replace (old new s : string) : string :=
  match old with
  | EmptyString => replace_empty new s
  | _ => replace_fuel (String.length s) old new s
  end.

(** str.lower() for ASCII letters. *)
Definition lower_char (c : ascii) : ascii :=
  let n := nat_of_ascii c in
  if (Nat.leb 65 n && Nat.leb n 90)%bool then ascii_of_nat (n + 32) else c.

Fixpoint str_lower (s : string) : string :=
  match s with
  | EmptyString => EmptyString
  | String c r => String (lower_char c) (str_lower r)
  end.
