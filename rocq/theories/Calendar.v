(** datetime (sympl/_core/time.py): which calendar is used. *)
From Coq Require Import String Ascii List Bool Arith.
From Verif Require Import Prelude.
Import ListNotations.
Open Scope string_scope.
Open Scope nat_scope.
Open Scope list_scope.

(** The datetime classes: Python's own, and those of netcdftime. *)
Inductive calendar : Type := PythonDatetime | AllLeap | NoLeap | Day360 | Julian | Gregorian.

(** str.lower for ASCII strings *)
Definition lower_char (c : ascii) : ascii :=
  let n := nat_of_ascii c in if (65 <=? n) && (n <=? 90) then ascii_of_nat (n + 32) else c.

Fixpoint lower (s : string) : string :=
  match s with
  | EmptyString => EmptyString
  | String c r => String (lower_char c) (lower r)
  end.

(** time.py 50-67: the class that is instantiated.  None: the function falls off its end and
    returns None.  [tz]: a tzinfo was given; [ct]: netcdftime is installed. *)
Definition choose (name : string) (tz ct : bool) : res (option calendar) :=
  if String.eqb (lower name) "proleptic_gregorian" then Ok (Some PythonDatetime)
  else if tz then Err EValue
  else if negb ct then Err EImport
  else if mem (lower name) ["all_leap"; "366_day"] then Ok (Some AllLeap)
  else if mem (lower name) ["no_leap"; "noleap"; "365_day"] then Ok (Some NoLeap)
  else if String.eqb (lower name) "360_day" then Ok (Some Day360)
  else if String.eqb (lower name) "julian" then Ok (Some Julian)
  else if String.eqb (lower name) "gregorian" then Ok (Some Gregorian)
  else Ok None.

Section Make.
  (** The constructors of the datetime classes, from the fields (year ... microsecond) and,
      for Python's, the tzinfo. *)
  Context {F Z D : Type} (construct : calendar -> F -> option Z -> res D).

  (** time.py 13-67 *)
  Definition datetime (fields : F) (tzinfo : option Z) (name : string) (ct : bool) : res (option D) :=
    let* c := choose name (match tzinfo with Some _ => true | None => false end) ct in
    match c with
    | None => Ok None
    | Some c => let* d := construct c fields tzinfo in Ok (Some d)
    end.
End Make.
