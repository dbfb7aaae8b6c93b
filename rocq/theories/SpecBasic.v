(** Specification vocabulary for the basic components and wrappers (C39-C41, C64). *)
From Coq Require Import String List Bool Arith ZArith QArith Qcanon.
From Verif Require Import Prelude ArithM NdArray Units DataArrayM Basic SpecUnits SpecDa SpecComposite SpecSteppers.
Import ListNotations.
Open Scope string_scope.
Open Scope nat_scope.
Open Scope list_scope.

Section Spec.
  Context {T : Type} {A : Arith T} {R : Registry}.

  (** [y] is the value of [a] at [c], in units [u]. *)
  Definition value_in (a : da T) (u : string) (c : string -> nat) (y : T) : Prop :=
    exists own, units_of a = Some own /\ converted own u (da_at a c) y.

  (** [a] has units that convert to [u]. *)
  Definition convertible (a : da T) (u : string) : Prop :=
    exists own u1 u2, units_of a = Some own /\ parse own = Some u1 /\ parse u = Some u2 /\ u_dim u1 = u_dim u2.

  (** [t], in units [tu], is the Newtonian relaxation (e - x) / s of [x] towards [e]
      with timescale [s], computed in units [u] and seconds, on the joint grid. *)
  Definition is_relaxation (u tu : string) (x e s t : da T) : Prop :=
    wf_da t /\ attrs t = [("units", tu)] /\ dims t = dedup (dims x ++ dims e ++ dims s) /\
    (forall d, dim_len t d = first_len d [x; e; s]) /\
    forall c, in_grid t c -> in_grid x c /\ in_grid e c /\ in_grid s c /\
      exists vx ve vs, value_in x u c vx /\ value_in e u c ve /\ value_in s "s" c vs /\
        da_at t c = adiv (asub ve vx) vs.

  (** [t] is the rate at which [old] becomes [new] over [dt], in units [tu]: the
      difference in the units of [new], over the seconds of the step, converted. *)
  Definition is_difference (dt : Z) (tu : string) (old new t : da T) : Prop :=
    wf_da t /\ sizes_match new old /\ (exists un rate_u, units_of new = Some un /\
      rate_u = (if String.eqb un "" then "s^-1" else (un ++ " s^-1")%string) /\
      (forall d, dim_len t d = first_len d [new; old]) /\
      (units_of t = Some tu \/ units_of t = Some rate_u /\ exists u1 u2, parse rate_u = Some u1 /\ parse tu = Some u2 /\ one_eqb u1 u2 = true) /\
      forall c, in_grid t c -> in_grid new c /\ in_grid old c /\
        exists vo, value_in old un c vo /\
          converted rate_u tu (adiv (asub (da_at new c) vo) (aofQ (dt # 1000000))) (da_at t c)).
End Spec.

(** [over_s u] is a unit of the size of [u], per second. *)
Definition over_second_law (R : Registry) (over_s : string -> res string) : Prop :=
  forall u tu x x', over_s u = Ok tu -> parse u = Some x -> parse tu = Some x' ->
    u_fac x' = u_fac x /\ u_off x' = 0%Qc.

(** [z] lies between [x] and [y]. *)
Definition between (x z y : Qc) : Prop := (x <= z /\ z <= y)%Qc \/ (y <= z /\ z <= x)%Qc.

(** ** Call logs of an UpdateFrequencyWrapper *)

(** A component that also notes how it was called and with what result. *)
Definition recording {T O U : Type} (component : U -> state T -> option Z -> U * res O)
    (ul : U * list (option Z * res O)) (st : state T) (ts : option Z) : (U * list (option Z * res O)) * res O :=
  let (u', r) := component (fst ul) st ts in ((u', snd ul ++ [(ts, r)]), r).

(** One call of the wrapper: the state's time, the timestep given, the calls of the
    component made meanwhile, and the outcome. *)
Record ucall (O : Type) : Type := mkucall {
  uc_time : Z; uc_step : option Z; uc_tried : list (option Z * res O); uc_out : res (option O)
}.
Arguments mkucall {O} _ _ _ _.
Arguments uc_time {O} _.
Arguments uc_step {O} _.
Arguments uc_tried {O} _.
Arguments uc_out {O} _.

(** The result of the last call of the component, if it succeeded. *)
Definition last_ok {O} (tried : list (option Z * res O)) : option O :=
  match last (map (fun p => Some (snd p)) tried) None with
  | Some (Ok o) => Some o
  | _ => None
  end.

(** Time and output of the last update in the log (oldest call first). *)
Fixpoint last_update {O} (log : list (ucall O)) : option (Z * O) :=
  match log with
  | [] => None
  | e :: r => match last_update r with
              | Some p => Some p
              | None => match last_ok (uc_tried e) with Some o => Some (uc_time e, o) | None => None end
              end
  end.

(** [log]: successive calls, of any outcome, of one wrapper on arbitrary states with
    a time. *)
Inductive uhistory {T O U : Type} (call : ufw O * (U * list (option Z * res O)) -> state T -> option Z ->
      (ufw O * (U * list (option Z * res O))) * res (option O)) : ufw O * U -> list (ucall O) -> ufw O * U -> Prop :=
| uhistory_nil : forall s, uhistory call s [] s
| uhistory_snoc : forall s0 log w u st t ts w' u' tried out,
    uhistory call s0 log (w, u) -> dget "time" st = Some (VTime t) ->
    call (w, (u, [])) st ts = ((w', (u', tried)), out) ->
    uhistory call s0 (log ++ [mkucall t ts tried out]) (w', u').

(** ** Constant components *)

(** Given arrays that can be returned: distinct names, proper, with units, and no
    dim called "*". *)
Definition constants {T} (d : dict (da T)) : Prop :=
  NoDup (keys d) /\ forall X a, In (X, a) d -> wf_da a /\ ~ In "*" (dims a) /\ exists u, units_of a = Some u.

(** The same values on the same grid in the same units. *)
Definition same_units_values {T} (a b : da T) : Prop :=
  dims b = dims a /\ arr b = arr a /\ exists u, units_of a = Some u /\ attrs b = [("units", u)].
