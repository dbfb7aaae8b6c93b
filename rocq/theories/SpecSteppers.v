(** Specification vocabulary for the time steppers (C24-C38). *)
From Coq Require Import String List Bool Arith ZArith QArith Qcanon.
From Verif Require Import Prelude ArithM NdArray Units DataArrayM GetNp Components SpecUnits SpecDa SpecComposite Composite Steppers.
Import ListNotations.
Open Scope string_scope.
Open Scope nat_scope.
Open Scope list_scope.

Section Spec.
  Context {T : Type} {A : Arith T} {R : Registry}.

  (** ** Rates of change *)

  (** [y] is, at [c], the tendency [t] of quantity [X] expressed in (units of [X] in
      [st]) per second; a tendency without units is taken as it is. *)
  Definition rate (st : state T) (X : string) (t : da T) (c : string -> nat) (y : T) : Prop :=
    match units_of t with
    | None => y = da_at t c
    | Some ut => exists x us, dget X st = Some (VDA x) /\ units_of x = Some us /\
                              converted ut (us ++ " s^-1") (da_at t c) y
    end.

  (** The tendency [t] can be expressed that way. *)
  Definition has_rate (st : state T) (X : string) (t : da T) : Prop :=
    match units_of t with
    | None => True
    | Some ut => exists x us u1 u2, dget X st = Some (VDA x) /\ units_of x = Some us /\
                   parse ut = Some u1 /\ parse (us ++ " s^-1") = Some u2 /\ u_dim u1 = u_dim u2
    end.

  (** [r] lies on the grid of [x], extended only by dims of [ts], and is described as [x] is. *)
  Definition extends (x : da T) (ts : list (da T)) (r : da T) : Prop :=
    wf_da r /\ attrs r = attrs x /\ (exists extra, dims r = dims x ++ extra) /\
    forall d, dim_len r d = first_len d (x :: ts).

  (** Quantities that agree on the length of every dimension two of them share. *)
  Definition same_sizes (l : list (da T)) : Prop := forall a b, In a l -> In b l -> sizes_match a b.

  (** ** Runs *)

  (** One successful call: the state given, the tendencies the components returned,
      the diagnostics and the new state returned. *)
  Record entry : Type := mkentry {
    e_st : state T; e_tend : dict (da T); e_diag : dict (da T); e_new : state T
  }.

  (** [log]: successive successful calls of one stepper object, on arbitrary states,
      all with timestep [dt]. *)
  Inductive history {S U : Type} (call : S * U -> state T -> Z -> (S * U) * res (stepped T))
      (prog : icaller U) (dt : Z) : S * U -> list entry -> S * U -> Prop :=
  | history_nil : forall s, history call prog dt s [] s
  | history_snoc : forall s0 log s u st u' tend pdiag s' diag new,
      history call prog dt s0 log (s, u) ->
      prog u st dt = (u', Ok (tend, pdiag)) ->
      call (s, u) st dt = ((s', u'), Ok (diag, new)) ->
      history call prog dt s0 (log ++ [mkentry st tend diag new]) (s', u').

  (** A state of proper DataArrays. *)
  Definition proper_state (st : state T) : Prop :=
    NoDup (keys st) /\ forall X a, dget X st = Some (VDA a) -> wf_da a.

  (** Components that return proper DataArrays. *)
  Definition proper_components {U} (prog : U -> state T -> Z -> U * res (dict (da T) * dict (da T))) : Prop :=
    forall u st dt u' (tend diag : dict (da T)), prog u st dt = (u', Ok (tend, diag)) -> proper tend.

  (** The stepper object and the rest of the program after any calls, whatever their
      outcomes. *)
  Definition after {S U : Type} (call : S * U -> state T -> Z -> (S * U) * res (stepped T))
      (calls : list (state T * Z)) (s : S * U) : S * U :=
    fold_left (fun s c => fst (call s (fst c) (snd c))) calls s.

  (** States and tendencies of proper DataArrays. *)
  Definition wf_log (log : list entry) : Prop :=
    forall e, In e log -> proper_state (e_st e) /\ proper (e_tend e).

  (** The newest [k] entries up to [e], newest first. *)
  Definition latest (k : nat) (pre : list entry) (e : entry) : list entry := firstn k (e :: rev pre).

  (** The rates of change of [X] at [c] during the calls [es]. *)
  Definition rates_of (es : list entry) (X : string) (c : string -> nat) (ys : list T) : Prop :=
    Forall2 (fun e y => exists t, dget X (e_tend e) = Some t /\ in_grid t c /\ rate (e_st e) X t c y) es ys.

  (** The tendencies of [X] returned during the calls [es]. *)
  Definition tendencies_of (es : list entry) (X : string) (ts : list (da T)) : Prop :=
    Forall2 (fun e t => dget X (e_tend e) = Some t) es ts.

  (** ** Adams-Bashforth in any arithmetic: the value and the rates, newest first *)
  Definition ab_formula (sec x : T) (ys : list T) : T :=
    match ys with
    | [y1] => aadd x (amul y1 sec)
    | [y1; y2] => aadd x (amul sec (asub (amul (aofQ (3 # 2)) y1) (amul (aofQ (1 # 2)) y2)))
    | [y1; y2; y3] =>
        aadd x (amul sec (aadd (asub (amul (aofQ (23 # 12)) y1) (amul (aofQ (4 # 3)) y2))
                               (amul (aofQ (5 # 12)) y3)))
    | [y1; y2; y3; y4] =>
        aadd x (amul sec (asub (aadd (asub (amul (aofQ (55 # 24)) y1) (amul (aofQ (59 # 24)) y2))
                                     (amul (aofQ (37 # 24)) y3))
                               (amul (aofQ (3 # 8)) y4)))
    | _ => x
    end.

  (** The state [st] can be stepped with the tendencies [tend] just returned, after
      calls that returned the tendencies [olds] (newest first): units are fine, the
      quantities stepped have a tendency each time, and dimension lengths agree. *)
  Definition can_step (st : state T) (tend : dict (da T)) (olds : list (dict (da T))) : Prop :=
    (forall X t, In (X, t) tend -> has_rate st X t) /\
    forall X, In X (keys (last olds tend)) -> exists x ts, dget X st = Some (VDA x) /\
      Forall2 (fun d t => dget X d = Some t) (tend :: olds) ts /\ same_sizes (x :: ts).

  (** Two state dictionaries agree outside [names]. *)
  Definition same_outside (names : list string) (st st' : state T) : Prop :=
    forall X, ~ In X names -> dget X st' = dget X st.

  (** One forward Euler step of [st] with the tendencies [tend]. *)
  Definition euler_step (dt : Z) (st : state T) (tend : dict (da T)) (st' : state T) : Prop :=
    same_outside (keys tend) st st' /\
    forall X t, dget X tend = Some t -> exists x r,
      dget X st = Some (VDA x) /\ dget X st' = Some (VDA r) /\ extends x [t] r /\
      forall c, in_grid r c -> in_grid t c /\ exists y, rate st X t c y /\
        da_at r c = aadd (da_at x c) (amul y (aofQ (dt # 1000000))).

  (** [out] is [f] applied to the values of [st] and [st'], quantity by quantity;
      it describes and times them as [st] does. *)
  Definition combination (f : T -> T -> T) (st st' out : state T) : Prop :=
    dget "time" out = dget "time" st /\
    forall X, X <> "time" ->
      match dget X st with
      | None => dget X out = None
      | Some (VTime _) => False
      | Some (VDA x) => exists x' r, dget X st' = Some (VDA x') /\ dget X out = Some (VDA r) /\
          extends x [x'] r /\ forall c, in_grid r c -> in_grid x' c /\ da_at r c = f (da_at x c) (da_at x' c)
      end.

  (** ** Leapfrog runs: the caller's state also changes *)
  Record lentry : Type := mklentry {
    l_st : state T; l_tend : dict (da T); l_after : state T; l_diag : dict (da T); l_new : state T
  }.

  Inductive lhistory {U : Type} (cfg : tstep) (prog : icaller U) (dt : Z)
      : leap T * U -> list lentry -> leap T * U -> Prop :=
  | lhistory_nil : forall s, lhistory cfg prog dt s [] s
  | lhistory_snoc : forall s0 log l u st u' tend pdiag l' st' diag new,
      lhistory cfg prog dt s0 log (l, u) ->
      prog u st dt = (u', Ok (tend, pdiag)) ->
      leapfrog cfg prog (l, u) st dt = ((l', u'), st', Ok (diag, new)) ->
      lhistory cfg prog dt s0 (log ++ [mklentry st tend st' diag new]) (l', u').

  (** The filtered current value and the new value of one number, from the previous
      value [o], the current value [x] and the rate [y]. *)
  Definition leapfrog_values (sec nu alpha o x y : T) : T * T :=
    let n := aadd o (amul (amul (aofQ (2 # 1)) y) sec) in
    let w := amul (amul (aofQ (1 # 2)) nu) (aadd (asub o (amul (aofQ (2 # 1)) x)) n) in
    (aadd x (amul alpha w),
     if aeqb alpha (aofQ (1 # 1)) then n else aadd n (amul (asub alpha (aofQ (1 # 1))) w)).

  (** One filtered leapfrog step: [before] is the previous (filtered) state, [st] the
      current one, which becomes [st']. *)
  Definition leap_step (dt : Z) (nu alpha : T) (before st : state T) (tend : dict (da T)) (st' new : state T) : Prop :=
    same_outside (keys tend) st st' /\ same_outside (keys tend) st new /\
    forall X t, dget X tend = Some t -> exists o x x' n,
      dget X before = Some (VDA o) /\ dget X st = Some (VDA x) /\
      dget X st' = Some (VDA x') /\ dget X new = Some (VDA n) /\
      extends x [] x' /\ extends o [t] n /\
      (forall c, in_grid x c -> in_grid o c /\ in_grid t c /\ exists y, rate st X t c y /\
         da_at x' c = fst (leapfrog_values (aofQ (dt # 1000000)) nu alpha (da_at o c) (da_at x c) y)) /\
      (forall c, in_grid n c -> in_grid t c /\ (aeqb alpha (aofQ (1 # 1)) = false -> in_grid x c) /\ exists y, rate st X t c y /\
         da_at n c = snd (leapfrog_values (aofQ (dt # 1000000)) nu alpha (da_at o c) (da_at x c) y)).

  (** The state [st] can be stepped by leapfrog from [before]: units are fine, lengths
      agree, and neither in-place update would change the dims of a quantity. *)
  Definition can_leap (alpha : T) (before st : state T) (tend : dict (da T)) : Prop :=
    forall X t, dget X tend = Some t -> has_rate st X t /\ exists o x,
      dget X before = Some (VDA o) /\ dget X st = Some (VDA x) /\ same_sizes [o; x; t] /\
      incl (dims o) (dims x) /\ incl (dims t) (dims x) /\
      (aeqb alpha (aofQ (1 # 1)) = false -> incl (dims x) (dims o ++ dims t)).

  Definition wf_llog (log : list lentry) : Prop :=
    forall e, In e log -> proper_state (l_st e) /\ proper (l_tend e).
End Spec.
Arguments entry T : clear implicits.
Arguments lentry T : clear implicits.

(** The Adams-Bashforth weights of the textbook, newest rate first. *)
Definition ab_weights (k : nat) : list Qc :=
  match k with
  | 1 => [1]
  | 2 => [Q2Qc (3 # 2); Q2Qc (-1 # 2)]
  | 3 => [Q2Qc (23 # 12); Q2Qc (-16 # 12); Q2Qc (5 # 12)]
  | 4 => [Q2Qc (55 # 24); Q2Qc (-59 # 24); Q2Qc (37 # 24); Q2Qc (-9 # 24)]
  | _ => []
  end%Qc.

Fixpoint dot (ws ys : list Qc) : Qc :=
  match ws, ys with
  | w :: ws', y :: ys' => (w * y + dot ws' ys')%Qc
  | _, _ => 0%Qc
  end.

(** Polynomials by their coefficients, lowest degree first. *)
Fixpoint peval (p : list Qc) (t : Qc) : Qc :=
  match p with [] => 0 | a :: p' => a + t * peval p' t end%Qc.

Fixpoint pderiv_from (n : Qc) (p : list Qc) : list Qc :=
  match p with [] => [] | a :: p' => (n * a)%Qc :: pderiv_from (n + 1)%Qc p' end.

Definition pderiv (p : list Qc) : list Qc :=
  match p with [] => [] | _ :: p' => pderiv_from 1%Qc p' end.

(** Times of the last [k] calls, newest first. *)
Fixpoint times_back (k : nat) (t h : Qc) : list Qc :=
  match k with 0 => [] | S k' => t :: times_back k' (t - h)%Qc h end.

(** The number given as the 'order' argument. *)
Definition is_order (o : order_arg) (n : nat) : Prop :=
  match o with
  | OInt z => z = Z.of_nat n
  | OFloat q => q == inject_Z (Z.of_nat n)
  | OOther => False
  end.

(** Units per second: the same size, no offset. *)
Definition per_second_law (R : Registry) : Prop :=
  forall s t u u', t = (s ++ " s^-1")%string \/ s = "" /\ t = "s^-1" -> parse s = Some u -> parse t = Some u' ->
    u_fac u' = u_fac u /\ u_off u' = 0%Qc.

(** ** Linear invariants: a weighted sum of values at named coordinates *)
Definition term : Type := (string * (string -> nat) * Qc)%type.

Definition value (st : state Qc) (X : string) (c : string -> nat) : Qc :=
  match dget X st with Some (VDA x) => da_at x c | _ => 0%Qc end.

Definition total (terms : list term) (st : state Qc) : Qc :=
  fold_right (fun (tm : term) s => let '(X, c, w) := tm in (w * value st X c + s)%Qc) 0%Qc terms.

(** Every point of [terms] is a point of [st]. *)
Definition on_grid (terms : list term) (st : state Qc) : Prop :=
  Forall (fun tm : term => let '(X, c, w) := tm in exists x, dget X st = Some (VDA x) /\ in_grid x c) terms.

(** The tendencies [tend] of [st] leave the weighted sum alone. *)
Definition balanced {R : Registry} (terms : list term) (st : state Qc) (tend : dict (da Qc)) : Prop :=
  exists ys, Forall2 (fun (tm : term) y => let '(X, c, w) := tm in
                        exists t, dget X tend = Some t /\ in_grid t c /\ rate st X t c y) terms ys /\
    dot (map snd terms) ys = 0%Qc.

(** Each call was given the state the previous call returned. *)
Definition chained {T} (log : list (entry T)) : Prop :=
  forall pre e1 e2 post, log = pre ++ e1 :: e2 :: post -> e_st e2 = e_new e1.

Definition lchained {T} (log : list (lentry T)) : Prop :=
  forall pre e1 e2 post, log = pre ++ e1 :: e2 :: post -> l_st e2 = l_new e1.

(** The Leapfrog object and the rest of the program after any calls. *)
Definition lafter {T U : Type} (call : leap T * U -> state T -> Z -> (leap T * U) * state T * res (stepped T))
    (calls : list (state T * Z)) (s : leap T * U) : leap T * U :=
  fold_left (fun s c => fst (fst (call s (fst c) (snd c)))) calls s.

(** The tendency [t] of [X] is zero everywhere and adds no dims to [X]. *)
Definition no_change {R : Registry} (st : state Qc) (X : string) (t : da Qc) : Prop :=
  (forall c y, in_grid t c -> rate st X t c y -> y = 0%Qc) /\
  forall x, dget X st = Some (VDA x) -> incl (dims t) (dims x).

(** A set of states closed under convex combination, value by value. *)
Definition convex_set (K : state Qc -> Prop) : Prop :=
  forall a b st st' out, (0 <= a)%Qc -> (0 <= b)%Qc -> (a + b = 1)%Qc -> K st -> K st' ->
    combination (fun x y => (a * x + b * y)%Qc) st st' out -> K out.

(** Pointwise bounds on a quantity. *)
Definition within (X : string) (lo hi : Qc) (st : state Qc) : Prop :=
  exists x, dget X st = Some (VDA x) /\ forall c, in_grid x c -> (lo <= da_at x c)%Qc /\ (da_at x c <= hi)%Qc.

(** ** Physical equality *)

(** Same grid, and the same physical amount, known on both sides, at each point. *)
Definition alike {R : Registry} (a b : da Qc) : Prop :=
  (forall d, dim_len a d = dim_len b d) /\
  forall c, in_grid a c -> exists v, amount a c = Some v /\ amount b c = Some v.

Definition alike_states {R : Registry} (st1 st2 : state Qc) : Prop :=
  forall X, match dget X st1, dget X st2 with
            | Some (VDA a), Some (VDA b) => alike a b
            | Some (VTime s), Some (VTime t) => s = t
            | None, None => True
            | _, _ => False
            end.

Definition alike_tendencies {R : Registry} (t1 t2 : dict (da Qc)) : Prop :=
  forall X, match dget X t1, dget X t2 with
            | Some a, Some b => alike a b
            | None, None => True
            | _, _ => False
            end.

(** Quantity [X] has the same units in all the states. *)
Definition same_units (X : string) (sts : list (state Qc)) : Prop :=
  forall st st' x x', In st sts -> In st' sts -> dget X st = Some (VDA x) -> dget X st' = Some (VDA x') ->
    units_of x = units_of x'.

(** ** Tendencies in diagnostics *)

(** [d] is the rate at which [old] becomes [new] over [dt], in [base] per second: the
    difference of the two, in units [base], over the seconds of the step.  (The code
    multiplies by the seconds of one second.) *)
Definition difference {T} {A : Arith T} {R : Registry} (dt : Z) (base : string) (old new d : da T) : Prop :=
  wf_da d /\ units_of d = Some (if String.eqb base "" then "s^-1" else (base ++ " s^-1")%string) /\
  (forall dd, dim_len d dd = first_len dd [new; old]) /\
  forall c, in_grid d c -> exists uo un yo yn, units_of old = Some uo /\ units_of new = Some un /\
    converted uo base (da_at old c) yo /\ converted un base (da_at new c) yn /\
    da_at d c = amul (adiv (asub yn yo) (aofQ (dt # 1000000))) (aofQ (1000000 # 1000000)).

(** What the caller asked: tendencies for each stepped quantity, and nothing else changed. *)
Definition with_differences {T} {A : Arith T} {R : Registry} (cfg : tstep) (dt : Z) (st new : state T)
    (diag diag' : dict (da T)) : Prop :=
  (forall X, In X (keys (ts_out cfg)) -> dget (tendency_name (ts_name cfg) X) diag = None /\
     exists p base old x d, dget X (ts_inp cfg) = Some p /\ p_units p = Some base /\
       dget X st = Some (VDA old) /\ dget X new = Some (VDA x) /\
       dget (tendency_name (ts_name cfg) X) diag' = Some d /\ difference dt base old x d) /\
  forall k, (forall X, In X (keys (ts_out cfg)) -> k <> tendency_name (ts_name cfg) X) -> dget k diag' = dget k diag.
