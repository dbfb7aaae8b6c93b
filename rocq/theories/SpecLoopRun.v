(** Specification vocabulary for all that a main loop does (C76, C80): the objects of the
    program are threaded through every call, also when a call raises. *)
From Coq Require Import String List Bool Arith ZArith QArith.
From Verif Require Import Prelude ArithM NdArray Units DataArrayM GetNp Components Composite Steppers Basic MainLoop SpecMainLoop.
Import ListNotations.
Open Scope string_scope.
Open Scope nat_scope.
Open Scope list_scope.

Section Spec.
  Context {T : Type} {A : Arith T} {R : Registry} {W : Type}.

  (** The processes called in turn, from objects [w] and state [s], until one raises. *)
  Inductive called (dt : Z) : list (process (T:=T) W) -> W -> state T -> W -> res (list (dict (da T)) * state T) -> Prop :=
  | called_none : forall w s, called dt [] w s w (Ok ([], s))
  | called_raised : forall p ps w s w' e, p w s dt = (w', Err e) -> called dt (p :: ps) w s w' (Err e)
  | called_later : forall p ps w s w1 d s1 w2 e, p w s dt = (w1, Ok (d, s1)) -> called dt ps w1 s1 w2 (Err e) -> called dt (p :: ps) w s w2 (Err e)
  | called_all : forall p ps w s w1 d s1 w2 ds next, p w s dt = (w1, Ok (d, s1)) -> called dt ps w1 s1 w2 (Ok (ds, next)) ->
      called dt (p :: ps) w s w2 (Ok (d :: ds, next)).

  (** The state has no time to compare, and the exception that this raises. *)
  Definition no_time (st : state T) (e : exn) : Prop :=
    dget "time" st = None /\ e = EKey \/ (exists a, dget "time" st = Some (VDA a)) /\ e = EType.

  (** The loop, given what is called in one pass: from objects and a state to objects and
      either an exception or what became of the state, the diagnostics and the next state.
      The list holds the states given to the monitor; no result: the loop goes on. *)
  Inductive loop (pass : W -> state T -> W -> res (state T * list (dict (da T)) * state T) -> Prop)
      (store : W -> state T -> W * res unit) (stop dt : Z) : W -> state T -> W -> list (state T) -> option (res (state T)) -> Prop :=
  | loop_goes_on : forall w st, loop pass store stop dt w st w [] None
  | loop_untimed : forall w st e, no_time st e -> loop pass store stop dt w st w [] (Some (Err e))
  | loop_ended : forall w st t, has_time t st -> (stop <= t)%Z -> loop pass store stop dt w st w [] (Some (Ok st))
  | loop_raised : forall w st t w1 e, has_time t st -> (t < stop)%Z -> pass w st w1 (Err e) -> loop pass store stop dt w st w1 [] (Some (Err e))
  | loop_not_stored : forall w st t w1 s ds next S w2 e, has_time t st -> (t < stop)%Z -> pass w st w1 (Ok (s, ds, next)) -> completed s ds S ->
      store w1 S = (w2, Err e) -> loop pass store stop dt w st w2 [S] (Some (Err e))
  | loop_lost_time : forall w st t w1 s ds next S w2 x e, has_time t st -> (t < stop)%Z -> pass w st w1 (Ok (s, ds, next)) -> completed s ds S ->
      store w1 S = (w2, Ok x) -> no_time S e -> loop pass store stop dt w st w2 [S] (Some (Err e))
  | loop_next : forall w st t w1 s ds next S w2 x t1 s' w3 log r, has_time t st -> (t < stop)%Z -> pass w st w1 (Ok (s, ds, next)) -> completed s ds S ->
      store w1 S = (w2, Ok x) -> has_time t1 S -> has_time (t1 + dt) s' -> (forall X, X <> "time" -> dget X s' = dget X next) ->
      loop pass store stop dt w2 s' w3 log r -> loop pass store stop dt w st w3 (S :: log) r.

  (** One pass of quickstart.rst: the state itself is left alone. *)
  Definition plain_pass (ps : list (process (T:=T) W)) (dt : Z) (w : W) (st : state T) (w1 : W) (r : res (state T * list (dict (da T)) * state T)) : Prop :=
    (exists e, called dt ps w st w1 (Err e) /\ r = Err e) \/
    (exists ds next, called dt ps w st w1 (Ok (ds, next)) /\ r = Ok (st, ds, next)).
End Spec.

(** One pass with a Leapfrog object first, which filters the state. *)
Definition leap_pass {T} {A : Arith T} {R : Registry} {U V} (cfg : tstep) (prog : icaller U) (qs : list (process (T:=T) V)) (dt : Z)
    (w : (leap T * U) * V) (st : state T) (w1 : (leap T * U) * V) (r : res (state T * list (dict (da T)) * state T)) : Prop :=
  (exists s1 st' e, leapfrog cfg prog (fst w) st dt = (s1, st', Err e) /\ w1 = (s1, snd w) /\ r = Err e) \/
  (exists s1 st' d new v1 e, leapfrog cfg prog (fst w) st dt = (s1, st', Ok (d, new)) /\ called dt qs (snd w) new v1 (Err e) /\ w1 = (s1, v1) /\ r = Err e) \/
  (exists s1 st' d new v1 ds next, leapfrog cfg prog (fst w) st dt = (s1, st', Ok (d, new)) /\ called dt qs (snd w) new v1 (Ok (ds, next)) /\
     w1 = (s1, v1) /\ r = Ok (st', d :: ds, next)).

(** A monitor next to objects of which it knows nothing. *)
Definition beside_store {T S V} (store : V -> state T -> V * res unit) (w : S * V) (st : state T) : (S * V) * res unit :=
  let (v, r) := store (snd w) st in ((fst w, v), r).
