(** sympl/_core/tendencystepper.py, sympl/_components/timesteppers.py and
    sympl/_core/state.py: the time steppers.

    The wrapped components are one arbitrary callable [icaller U] (composite.py's
    ImplicitTendencyComponentComposite is an instance of it, see Composite.v).
    A stepper object is a record that each call threads through, together with the
    state [U] of the rest of the program, also when the call raises.
    Values only: Heap.v deals with arrays shared between dictionaries. *)
From Coq Require Import String List Bool Arith ZArith QArith.
From Verif Require Import Prelude ArithM NdArray Units DataArrayM Wildcard GetNp Restore Tracers Components Composite.
Import ListNotations.
Open Scope string_scope.
Open Scope nat_scope.
Open Scope list_scope.

(** ** Construction: tendencystepper.py 51-159 *)

(** What a time stepper computes from the properties of its components. *)
Record tstep : Type := mktstep {
  ts_tid : bool;          (* tendencies_in_diagnostics *)
  ts_name : string;
  ts_inp : pdict;         (* input_properties *)
  ts_diag : pdict;        (* diagnostic_properties *)
  ts_out : pdict          (* output_properties *)
}.

Section Construct.
  Context {R : Registry}.
  Variable ord : list string -> list string.
  (** units.py 60-61: clean_units, the spelling of the base units of a unit. *)
  Variable clean : string -> res string.

  (** tendencystepper.py 85-91: output_properties from the tendency properties *)
  Definition clean_output (np : string * props) : res (string * props) :=
    let (name, p) := np in
    match p_units p with
    | None => Err EKey
    | Some u => let* u' := clean (u ++ " s") in
                Ok (name, mkprops (p_dims p) (p_tuple p) (Some u') (p_alias p) (p_tracer p))
    end.

  Definition ts_output_properties (tend : pdict) : res pdict := mapM clean_output tend.

  (** tendencystepper.py 66-83: diagnostic_properties *)
  Definition ts_insert_diag (comp : string) (d : pdict) (np : string * props) : res pdict :=
    match p_units (snd np), p_dims (snd np) with
    | Some u, Some ds => Ok (dset (tendency_name comp (fst np)) (mkprops (Some ds) (p_tuple (snd np)) (Some u) None false) d)
    | _, _ => Err EKey
    end.

  Definition ts_diagnostic_properties (tid : bool) (comp : string) (cs : list cprops) (tend : pdict) : res pdict :=
    let d := fold_left (fun acc c => dupdate acc (cp_diag c)) cs [] in
    if tid then foldM (ts_insert_diag comp) tend d else Ok d.

  (** tendencystepper.py 124-159: TendencyStepper.__init__, with Stepper.__init__
      (base_components.py 483-516).  The property dictionaries are recomputed at
      each access, so what _insert_tendency_properties writes into them is lost;
      its checks remain. *)
  Definition make_tstep (g : treg) (cs : list (bool * cprops)) (name : string) (tid : bool) : res tstep :=
    let* comp := make_tendency_composite ord true g cs in
    let cs := map snd cs in
    let* inp0 := composite_inputs ord g cs in
    let* tend := composite_tendencies ord g cs in
    let* outp := ts_output_properties tend in
    let* inp := combine_properties ord [inp0; outp] [] in
    let* diag := ts_diagnostic_properties tid name cs tend in
    let* _ := check_input_properties inp in
    let* _ := check_diagnostic_properties diag inp in
    let* _ := check_output_properties outp inp in
    let* _ := if tid
              then foldM (fun _ np => let* _ := stepper_insert_step name (inp, diag, []) np in Ok tt) outp tt
              else Ok tt in
    let* _ := raise_if (existsb (fun k => negb (dmem k outp)) (keys (t_tend comp))) EInvalidProps in
    Ok (mktstep tid name inp diag outp).
End Construct.

Section Steppers.
  Context {T : Type} {A : Arith T} {R : Registry}.

  (** ** state.py *)

  (** state.py 1-4: copy_untouched_quantities *)
  Definition copy_untouched (old new : state T) : state T :=
    fold_left (fun acc kv => if dmem (fst kv) acc then acc else dset (fst kv) (snd kv) acc) old new.

  (** [st[k]] used as an operand: a datetime is no number. *)
  Definition state_da (k : string) (st : state T) : res (da T) :=
    let* v := dgetE k st in
    match v with VDA a => Ok a | VTime _ => Err EType end.

  (** The 'time' entry put first, state.py 9-10, 21-22. *)
  Definition time_first (st : state T) : state T :=
    match dget "time" st with Some v => [("time", v)] | None => [] end.

  (** state.py 7-16: add *)
  Definition add_states_step (st2 : state T) (acc : state T) (kv : string * pval T) : res (state T) :=
    if String.eqb (fst kv) "time" then Ok acc
    else
      match snd kv with
      | VTime _ => Err EType
      | VDA a => let* b := state_da (fst kv) st2 in
                 let* s := da_add a b in Ok (dset (fst kv) (VDA s) acc)
      end.

  Definition add_states (st1 st2 : state T) : res (state T) :=
    foldM (add_states_step st2) st1 (time_first st1).

  (** state.py 19-28: multiply *)
  Definition multiply_step (x : T) (acc : state T) (kv : string * pval T) : res (state T) :=
    if String.eqb (fst kv) "time" then Ok acc
    else
      match snd kv with
      | VTime _ => Err EType
      | VDA a => Ok (dset (fst kv) (VDA (da_map (fun y => amul x y) (attrs a) a)) acc)
      end.

  Definition multiply (x : T) (st : state T) : res (state T) :=
    foldM (multiply_step x) st (time_first st).

  (** ** timesteppers.py 163-173: convert_tendencies_units_for_state *)

  Definition convert_one (st : state T) (kv : string * da T) : res (string * da T) :=
    let (k, t) := kv in
    match dget "units" (attrs t) with
    | None => Ok (k, t)
    | Some _ =>
        let* v := dgetE k st in
        match v with
        | VTime _ => Err EAttr
        | VDA x =>
            match dget "units" (attrs x) with
            | None => Err EKey
            | Some us => let* t' := to_units t (us ++ " s^-1") in Ok (k, t')
            end
        end
    end.

  Definition convert_tendencies (st : state T) (tend : dict (da T)) : res (dict (da T)) :=
    mapM (convert_one st) tend.

  (** ** Step formulas *)

  (** A dict built key by key over the (distinct) keys of another dict. *)
  Definition for_keys (f : string -> res (da T)) (ks : list string) : res (state T) :=
    mapM (fun k => let* v := f k in Ok (k, VDA v)) ks.

  (** timesteppers.py 320-324: step_forward_euler *)
  Definition euler_one (sec : T) (st : state T) (tend : dict (da T)) (k : string) : res (da T) :=
    let* x := state_da k st in
    let* t := dgetE k tend in
    da_add x (da_scale t sec).

  Definition step_forward_euler (st : state T) (tend : dict (da T)) (dt : Z) : res (state T) :=
    for_keys (euler_one (total_seconds dt) st tend) (keys tend).

  (** [tendencies_list[-1 - n][key]] *)
  Definition past (hist : list (dict (da T))) (n : nat) (k : string) : res (da T) :=
    match nth_error (rev hist) n with
    | None => Err EIndex
    | Some d => dgetE k d
    end.

  (** timesteppers.py 327-337: second_bashforth *)
  Definition ab2_one (sec : T) (st : state T) (hist : list (dict (da T))) (k : string) : res (da T) :=
    let* x := state_da k st in
    let* t1 := past hist 0 k in
    let* t2 := past hist 1 k in
    let* s := da_sub (da_lscale (aofQ (3 # 2)) t1) (da_lscale (aofQ (1 # 2)) t2) in
    da_add x (da_lscale sec s).

  (** timesteppers.py 340-351: third_bashforth *)
  Definition ab3_one (sec : T) (st : state T) (hist : list (dict (da T))) (k : string) : res (da T) :=
    let* x := state_da k st in
    let* t1 := past hist 0 k in
    let* t2 := past hist 1 k in
    let* s := da_sub (da_lscale (aofQ (23 # 12)) t1) (da_lscale (aofQ (4 # 3)) t2) in
    let* t3 := past hist 2 k in
    let* s := da_add s (da_lscale (aofQ (5 # 12)) t3) in
    da_add x (da_lscale sec s).

  (** timesteppers.py 354-366: fourth_bashforth *)
  Definition ab4_one (sec : T) (st : state T) (hist : list (dict (da T))) (k : string) : res (da T) :=
    let* x := state_da k st in
    let* t1 := past hist 0 k in
    let* t2 := past hist 1 k in
    let* s := da_sub (da_lscale (aofQ (55 # 24)) t1) (da_lscale (aofQ (59 # 24)) t2) in
    let* t3 := past hist 2 k in
    let* s := da_add s (da_lscale (aofQ (37 # 24)) t3) in
    let* t4 := past hist 3 k in
    let* s := da_sub s (da_lscale (aofQ (3 # 8)) t4) in
    da_add x (da_lscale sec s).

  (** The keys of the oldest stored tendencies. *)
  Definition oldest_keys (hist : list (dict (da T))) : res (list string) :=
    match hist with [] => Err EIndex | d :: _ => Ok (keys d) end.

  (** timesteppers.py 134-152: AdamsBashforth._perform_step *)
  Definition perform_step (order : nat) (hist : list (dict (da T))) (st : state T) (dt : Z) : res (state T) :=
    let sec := total_seconds dt in
    match Nat.min order (length hist) with
    | 1 => match nth_error (rev hist) 0 with
           | None => Err EIndex
           | Some tend => step_forward_euler st tend dt
           end
    | 2 => let* ks := oldest_keys hist in for_keys (ab2_one sec st hist) ks
    | 3 => let* ks := oldest_keys hist in for_keys (ab3_one sec st hist) ks
    | 4 => let* ks := oldest_keys hist in for_keys (ab4_one sec st hist) ks
    | _ => Err ERuntime
    end.

  (** ** AdamsBashforth *)

  (** timesteppers.py 88-99: the 'order' argument. *)
  Inductive order_arg : Type :=
  | OInt (z : Z)
  | OFloat (q : Q)
  | OOther.

  Record ab : Type := mkab {
    ab_order : nat;
    ab_dt : option Z;                     (* _timestep *)
    ab_hist : list (dict (da T))          (* _tendencies_list, oldest first *)
  }.

  Definition check_order (o : order_arg) : res nat :=
    let* z := match o with
              | OInt z => Ok z
              | OFloat q => if Z.eqb (Qnum (Qred q) mod Zpos (Qden (Qred q))) 0
                            then Ok (Qnum (Qred q) / Zpos (Qden (Qred q)))%Z else Err EType
              | OOther => Err EType
              end in
    if (Z.leb 1 z && Z.leb z 4)%bool then Ok (Z.to_nat z) else Err EValue.

  Definition new_ab (o : order_arg) : res ab :=
    let* n := check_order o in Ok (mkab n None []).

  (** timesteppers.py 154-159, 263-269: _ensure_constant_timestep *)
  Definition ensure_timestep (old : option Z) (dt : Z) : res unit :=
    match old with
    | None => Ok tt
    | Some dt0 => raise_if (negb (Z.eqb dt0 dt)) EValue
    end.

  (** What a stepper call returns: diagnostics and the new state. *)
  Definition stepped : Type := (dict (da T) * state T)%type.

  (** timesteppers.py 101-132: AdamsBashforth._call *)
  Definition ab_call {U} (prog : icaller U) (s : ab * U) (st : state T) (dt : Z) : (ab * U) * res stepped :=
    let (a, u) := s in
    match ensure_timestep (ab_dt a) dt with
    | Err e => ((a, u), Err e)
    | Ok _ =>
        let (u', r) := prog u st dt in
        match (let* td := r in
               let* tend := convert_tendencies st (fst td) in Ok (tend, snd td)) with
        | Err e => ((mkab (ab_order a) (Some dt) (ab_hist a), u'), Err e)
        | Ok (tend, diag) =>
            let hist := ab_hist a ++ [tend] in
            match perform_step (ab_order a) hist st dt with
            | Err e => ((mkab (ab_order a) (Some dt) hist, u'), Err e)
            | Ok new =>
                ((mkab (ab_order a) (Some dt) (if Nat.eqb (length hist) (ab_order a) then tl hist else hist), u'),
                 Ok (diag, copy_untouched st new))
            end
        end
    end.

  (** ** TendencyStepper.__call__: tendencystepper.py 172-228 *)

  (** tendencystepper.py 205-228: _insert_tendencies_to_diagnostics, one quantity.
      time_unit_name and time_unit_timedelta are 's' and one second. *)
  Definition insert_one (cfg : tstep) (dt : Z) (st new : state T) (diag : dict (da T))
      (np : string * props) : res (dict (da T)) :=
    let name := fst np in
    let tn := tendency_name (ts_name cfg) name in
    if dmem tn diag then Err ERuntime
    else
      let* p := dgetE name (ts_inp cfg) in
      let* base := match p_units p with Some b => Ok b | None => Err EKey end in
      let* vn := dgetE name new in
      let* n := match vn with VDA n => to_units n base | VTime _ => Err EAttr end in
      let* vo := dgetE name st in
      let* o := match vo with VDA o => to_units o base | VTime _ => Err EAttr end in
      let* d := da_sub n o in
      let q := da_scale (da_divs d (total_seconds dt)) (total_seconds 1000000) in
      Ok (dset tn (mkda (dims q) (arr q) [("units", per_second base)]) diag).

  Definition insert_differences (cfg : tstep) (dt : Z) (st new : state T) (diag : dict (da T)) : res (dict (da T)) :=
    foldM (insert_one cfg dt st new) (ts_out cfg) diag.

  (** tendencystepper.py 195-203: what __call__ does with the result of _call *)
  Definition finish_step (cfg : tstep) (dt : Z) (st : state T) (r : res stepped) : res stepped :=
    let* dn := r in
    let new := copy_untouched st (snd dn) in
    let* diag := if ts_tid cfg then insert_differences cfg dt st new (fst dn) else Ok (fst dn) in
    Ok (diag, new).

  (** AdamsBashforth.__call__ *)
  Definition adams_bashforth {U} (cfg : tstep) (prog : icaller U) (s : ab * U) (st : state T) (dt : Z)
      : (ab * U) * res stepped :=
    let (s', r) := ab_call prog s st dt in (s', finish_step cfg dt st r).

  (** ** SSPRungeKutta: timesteppers.py 13-71 *)

  Record rk : Type := mkrk { rk_stages : nat; rk_euler : ab }.

  (** timesteppers.py 24-31; [stages] is compared with 2 and 3. *)
  Definition new_rk (stages : Z) : res rk :=
    if Z.eqb stages 2 then Ok (mkrk 2 (mkab 1 None []))
    else if Z.eqb stages 3 then Ok (mkrk 3 (mkab 1 None []))
    else Err EValue.

  (** The internal Euler stepper, called as a TendencyStepper without tendencies
      in its diagnostics. *)
  Definition inner_euler {U} (prog : icaller U) (s : ab * U) (st : state T) (dt : Z) : (ab * U) * res stepped :=
    let (s', r) := ab_call prog s st dt in
    (s', let* dn := r in Ok (fst dn, copy_untouched st (snd dn))).

  (** timesteppers.py 56-63: _step_3_stages *)
  Definition rk3 {U} (prog : icaller U) (s : ab * U) (st : state T) (dt : Z) : (ab * U) * res stepped :=
    let (s1, r1) := inner_euler prog s st dt in
    match r1 with
    | Err e => (s1, Err e)
    | Ok (diag, st1) =>
        let (s2, r2) := inner_euler prog s1 st1 dt in
        match (let* dn := r2 in
               let* a := multiply (aofQ (3 # 4)) st in
               let* b := multiply (aofQ (1 # 4)) (snd dn) in
               add_states a b) with
        | Err e => (s2, Err e)
        | Ok st2 =>
            let (s3, r3) := inner_euler prog s2 st2 dt in
            (s3, let* dn := r3 in
                 let* a := multiply (aofQ (1 # 3)) st in
                 let* b := multiply (aofQ (2 # 3)) (snd dn) in
                 let* out := add_states a b in Ok (diag, out))
        end
    end.

  (** timesteppers.py 65-71: _step_2_stages *)
  Definition rk2 {U} (prog : icaller U) (s : ab * U) (st : state T) (dt : Z) : (ab * U) * res stepped :=
    let (s1, r1) := inner_euler prog s st dt in
    match r1 with
    | Err e => (s1, Err e)
    | Ok (diag, st1) =>
        let (s2, r2) := inner_euler prog s1 st1 dt in
        (s2, let* dn := r2 in
             let* sum := add_states st (snd dn) in
             let* out := multiply (aofQ (1 # 2)) sum in Ok (diag, out))
    end.

  (** SSPRungeKutta.__call__ (timesteppers.py 33-54) *)
  Definition ssp_rk {U} (cfg : tstep) (prog : icaller U) (s : rk * U) (st : state T) (dt : Z)
      : (rk * U) * res stepped :=
    let (k, u) := s in
    let '((e, u'), r) := (if Nat.eqb (rk_stages k) 2 then rk2 else rk3) prog (rk_euler k, u) st dt in
    ((mkrk (rk_stages k) e, u'), finish_step cfg dt st r).

  (** ** Leapfrog: timesteppers.py 176-317 *)

  Record leap : Type := mkleap {
    lf_nu : T;                       (* _asselin_strength *)
    lf_alpha : T;
    lf_dt : option Z;
    lf_old : option (state T)        (* _old_state *)
  }.

  Definition new_leap (nu alpha : T) : leap := mkleap nu alpha None None.

  (** xarray's [a += b]: the dims of [a] cannot change. *)
  Definition da_iadd (a b : da T) : res (da T) :=
    if forallb (fun d => mem d (dims a)) (dims b) then da_add a b else Err EValue.

  (** timesteppers.py 309-312: new value and filter influence of one quantity *)
  Definition leap_one (sec nu : T) (old st : state T) (tend : dict (da T)) (k : string) : res (da T * da T) :=
    let* o := state_da k old in
    let* t := dgetE k tend in
    let* new := da_add o (da_scale (da_lscale (aofQ (2 # 1)) t) sec) in
    let* x := state_da k st in
    let* w := da_sub o (da_lscale (aofQ (2 # 1)) x) in
    let* w := da_add w new in
    Ok (new, da_lscale (amul (aofQ (1 # 2)) nu) w).

  (** timesteppers.py 307-317: the loop of step_leapfrog.  The state is filtered in
      place, so what was filtered before an exception stays filtered. *)
  Fixpoint leap_loop (sec nu alpha : T) (old : state T) (tend : dict (da T)) (ks : list string)
      (st new : state T) : state T * res (state T) :=
    match ks with
    | [] => (st, Ok new)
    | k :: ks' =>
        match (let* ni := leap_one sec nu old st tend k in
               let* x := state_da k st in
               let* x' := da_iadd x (da_lscale alpha (snd ni)) in Ok (fst ni, snd ni, x')) with
        | Err e => (st, Err e)
        | Ok (n, infl, x') =>
            let st' := dset k (VDA x') st in
            match (if aeqb alpha (aofQ (1 # 1)) then Ok n
                   else da_iadd n (da_lscale (asub alpha (aofQ (1 # 1))) infl)) with
            | Err e => (st', Err e)
            | Ok n' => leap_loop sec nu alpha old tend ks' st' (dset k (VDA n') new)
            end
        end
    end.

  (** timesteppers.py 217-261: Leapfrog._call.  The first result component also
      holds the caller's state dictionary after the call. *)
  Definition leap_call {U} (prog : icaller U) (s : leap * U) (st : state T) (dt : Z)
      : (leap * U) * state T * res stepped :=
    let (l, u) := s in
    match ensure_timestep (lf_dt l) dt with
    | Err e => ((l, u), st, Err e)
    | Ok _ =>
        let l1 := mkleap (lf_nu l) (lf_alpha l) (Some dt) (lf_old l) in
        let (u', r) := prog u st dt in
        match (let* td := r in
               let* tend := convert_tendencies st (fst td) in Ok (tend, snd td)) with
        | Err e => ((l1, u'), st, Err e)
        | Ok (tend, diag) =>
            let (st', rn) :=
              match lf_old l with
              | None => (st, step_forward_euler st tend dt)
              | Some old => leap_loop (total_seconds dt) (lf_nu l) (lf_alpha l) old tend (keys tend) st []
              end in
            match rn with
            | Err e => ((l1, u'), st', Err e)
            | Ok new =>
                ((mkleap (lf_nu l) (lf_alpha l) (Some dt) (Some st'), u'), st',
                 Ok (diag, copy_untouched st' new))
            end
        end
    end.

  (** Leapfrog.__call__; _insert_tendencies_to_diagnostics sees the filtered state. *)
  Definition leapfrog {U} (cfg : tstep) (prog : icaller U) (s : leap * U) (st : state T) (dt : Z)
      : (leap * U) * state T * res stepped :=
    let '(s', st', r) := leap_call prog s st dt in (s', st', finish_step cfg dt st' r).
End Steppers.
Arguments ab T : clear implicits.
Arguments rk T : clear implicits.
Arguments leap T : clear implicits.
Arguments stepped T : clear implicits.
