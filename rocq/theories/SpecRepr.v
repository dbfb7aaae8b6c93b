(** The text that repr() should give (C86). *)
From Coq Require Import String Ascii List Arith.
From Verif Require Import Prelude ReprM.
Import ListNotations.
Open Scope string_scope.
Open Scope nat_scope.
Open Scope list_scope.

(** The texts one after the other, with [sep] between each two. *)
Inductive separated (sep : string) : list string -> string -> Prop :=
| sep_none : separated sep [] ""
| sep_one : forall s, separated sep [s] s
| sep_more : forall s s' r t, separated sep (s' :: r) t -> separated sep (s :: s' :: r) (s ++ sep ++ t)%string.

Definition line_break : string := String (ascii_of_nat 10) "".

(** [shows h path v s]: [s] is the text of [v] inside the objects of [path].  An
    object inside itself is written as a recursive reference; any other object is
    written with all its attributes, in order. *)
Inductive shows (h : rheap) : list nat -> fval -> string -> Prop :=
| sh_atom : forall path s, shows h path (FAtom s) s
| sh_again : forall path i c fs, nth_error h i = Some (Guarded c fs) -> In i path ->
    shows h path (FRef i) (c ++ "(recursive reference)")%string
| sh_object : forall path i c fs ss text, nth_error h i = Some (Guarded c fs) -> ~ In i path ->
    Forall2 (shows h (i :: path)) (map snd fs) ss ->
    separated line_break (map (fun ks => "'" ++ fst ks ++ "': " ++ snd ks)%string (combine (map fst fs) ss)) text ->
    shows h path (FRef i) (c ++ "(" ++ text ++ ")")%string
| sh_list : forall path i op sep cl items ss text, nth_error h i = Some (Listing op sep cl items) ->
    Forall2 (shows h path) items ss -> separated sep ss text ->
    shows h path (FRef i) (op ++ text ++ cl)%string.

(** The values an object holds. *)
Definition holds (n : rnode) : list fval :=
  match n with Guarded _ fs => map snd fs | Listing _ _ _ items => items end.

(** A heap Python can build: references are to objects that exist, and a tuple or
    composite holds only what was there before it.  The attributes of the other
    objects may refer to anything. *)
Definition well_made (h : rheap) : Prop :=
  (forall i n j, nth_error h i = Some n -> In (FRef j) (holds n) -> j < length h) /\
  (forall i op sep cl items j, nth_error h i = Some (Listing op sep cl items) -> In (FRef j) items -> j < i).

(** No attribute raises when it is printed. *)
Definition printable (h : rheap) : Prop :=
  forall i n e, nth_error h i = Some n -> ~ In (FFail e) (holds n).

(** A recursion limit that is enough. *)
Definition deep (h : rheap) (depth : nat) : Prop := (length h + 1) * (length h + 1) <= depth.

(** One print after the other, each starting with the marks the last one left. *)
Fixpoint prints (depth : nat) (h : rheap) (busy : list nat) (is : list nat) : list (res string) :=
  match is with
  | [] => []
  | i :: r => let (busy1, t) := show depth h busy (FRef i) in t :: prints depth h busy1 r
  end.
