(** Memory: which arrays are fresh and which are written in place.

    The other model files compute with values.  Here arrays live in a memory made
    of cells, so that two arrays can share memory, and the operations are modelled
    as the code performs them: in place, by allocating, or by passing a reference.
    Modelled: sympl/_core/util.py 195-220, sympl/_core/composite.py 132-241,
    sympl/_components/timesteppers.py, sympl/_core/tendencystepper.py,
    sympl/_core/state.py, sympl/_core/wrappers.py 6-189 and
    sympl/_components/basic.py 105-236.

    An array is a list of cells in row-major order, so any numpy view (a
    transposition, a slice, an overlapping window) is covered.  attrs are values:
    xarray's attrs setter copies the dict it is given.  Dictionaries are values
    too: the code modelled here never stores a dictionary it got from its caller
    without copying it, except where the comment says so.
    Intermediate arrays nobody can reach afterwards are not allocated. *)
From Coq Require Import String List Bool Arith ZArith QArith Qcanon.
From Verif Require Import Prelude ArithM NdArray Units DataArrayM GetNp Restore Components Composite Steppers.
Import ListNotations.
Open Scope string_scope.
Open Scope nat_scope.
Open Scope list_scope.

(** A DataArray in memory. *)
Record hda : Type := mkhda {
  h_dims : list string;
  h_shape : list nat;
  h_cells : list nat;
  h_attrs : dict string
}.

Inductive hval : Type :=
| HDA (a : hda)
| HTime (t : Z).

Definition hstate : Type := dict hval.

Section Memory.
  Context {T : Type} {A : Arith T} {R : Registry}.

  Definition heap : Type := list T.

  (** ** Reading, writing and allocating *)

  Definition cell (h : heap) (c : nat) : T := nth c h azero.

  Fixpoint set_cell (h : heap) (c : nat) (x : T) : heap :=
    match h, c with
    | [], _ => []
    | _ :: h', 0 => x :: h'
    | y :: h', S c' => y :: set_cell h' c' x
    end.

  Fixpoint store (h : heap) (cs : list nat) (xs : list T) : heap :=
    match cs, xs with
    | c :: cs', x :: xs' => store (set_cell h c x) cs' xs'
    | _, _ => h
    end.

  (** What an array holds. *)
  Definition load (h : heap) (a : hda) : da T :=
    mkda (h_dims a) (mknd (h_shape a) (map (cell h) (h_cells a))) (h_attrs a).

  Definition load_val (h : heap) (v : hval) : pval T :=
    match v with HDA a => VDA (load h a) | HTime t => VTime t end.

  Definition load_dict (h : heap) (d : dict hda) : dict (da T) :=
    map (fun kv => (fst kv, load h (snd kv))) d.

  Definition load_state (h : heap) (st : hstate) : state T :=
    map (fun kv => (fst kv, load_val h (snd kv))) st.

  (** A new array holding [v], in new memory. *)
  Definition alloc (h : heap) (v : da T) : heap * hda :=
    (h ++ data (arr v),
     mkhda (dims v) (shape (arr v)) (seq (length h) (length (data (arr v)))) (attrs v)).

  Fixpoint alloc_state (h : heap) (st : state T) : heap * hstate :=
    match st with
    | [] => (h, [])
    | (k, VTime t) :: st' =>
        let (h', out) := alloc_state h st' in (h', (k, HTime t) :: out)
    | (k, VDA v) :: st' =>
        let (h1, a) := alloc h v in
        let (h', out) := alloc_state h1 st' in (h', (k, HDA a) :: out)
    end.

  (** An operation in place: [a] now holds the values of [v]. *)
  Definition write (h : heap) (a : hda) (v : da T) : heap :=
    store h (h_cells a) (data (arr v)).

  (** ** util.py 195-220: update_dict_by_adding_another *)

  (** dataarray.py 24-54 and units.py 77-86: [to_units] returns the very array
      when the units agree, and a new one otherwise. *)
  Definition h_to_units (h : heap) (a : hda) (units : string) : heap * res hda :=
    match to_units (load h a) units with
    | Err e => (h, Err e)
    | Ok v =>
        match (let* own := dgetE "units" (h_attrs a) in
               let* u1 := parseE own in
               let* u2 := parseE units in
               Ok (one_eqb u1 u2)) with
        | Ok true => (h, Ok a)
        | _ => let (h', b) := alloc h v in (h', Ok b)
        end
    end.

  (** util.py 208-217: [+=] writes into the memory of [a]; when it raises
      ValueError, [a + b] makes a new array.  The converted [b] of the first
      attempt is an unreachable temporary. *)
  Definition h_add_quantities (h : heap) (a b : hda) : heap * res hda :=
    match dget "units" (h_attrs a), dget "units" (h_attrs b) with
    | Some u, Some _ =>
        match to_units (load h b) u with
        | Err e => (h, Err e)
        | Ok b' =>
            match da_iadd (load h a) b' with
            | Ok s => (write h a s, Ok a)
            | Err EValue =>
                match da_add (load h a) b' with
                | Ok s => let (h', c) := alloc h s in (h', Ok c)
                | Err e => (h, Err e)
                end
            | Err e => (h, Err e)
            end
        end
    | _, _ => (h, Err EInvalidState)
    end.

  (** util.py 204-220: [copy] allocates. *)
  Fixpoint h_update_by_adding (h : heap) (d1 d2 : dict hda) : heap * res (dict hda) :=
    match d2 with
    | [] => (h, Ok d1)
    | (key, b) :: d2' =>
        match dget key d1 with
        | None => let (h1, c) := alloc h (load h b) in h_update_by_adding h1 (dset key c d1) d2'
        | Some a =>
            match h_add_quantities h a b with
            | (h1, Ok s) => h_update_by_adding h1 (dset key s d1) d2'
            | (h1, Err e) => (h1, Err e)
            end
        end
    end.

  (** ** Composites *)

  (** A component in memory: any program that may read and write memory, keep
      state [U] and return tendencies and diagnostics. *)
  Definition hcaller (U : Type) : Type :=
    U -> heap -> hstate -> (U * heap) * res (dict hda * dict hda).

  (** composite.py 157-167 and 229-241 *)
  Fixpoint h_composite_loop {U} (cs : list (hcaller U)) (u : U) (h : heap) (st : hstate)
      (tend diag : dict hda) : (U * heap) * res (dict hda * dict hda) :=
    match cs with
    | [] => ((u, h), Ok (tend, diag))
    | c :: cs' =>
        let '((u1, h1), r) := c u h st in
        match r with
        | Err e => ((u1, h1), Err e)
        | Ok (t, d) =>
            match h_update_by_adding h1 tend t with
            | (h2, Err e) => ((u1, h2), Err e)
            | (h2, Ok tend') => h_composite_loop cs' u1 h2 st tend' (dupdate diag d)
            end
        end
    end.

  Definition h_composite {U} (cs : list (hcaller U)) : hcaller U :=
    fun u h st => h_composite_loop cs u h st [] [].

  Definition hicaller (U : Type) : Type :=
    U -> heap -> hstate -> Z -> (U * heap) * res (dict hda * dict hda).

  Definition h_implicit_composite {U} (cs : list (hicaller U + hcaller U)) : hicaller U :=
    fun u h st dt => h_composite (map (fun c => match c with
                                                | inl f => fun u h st => f u h st dt
                                                | inr f => f
                                                end) cs) u h st.

  (** ** Steppers *)

  (** state.py 1-4: references are copied, not arrays. *)
  Definition h_copy_untouched (old new : hstate) : hstate :=
    fold_left (fun acc kv => if dmem (fst kv) acc then acc else dset (fst kv) (snd kv) acc) old new.

  (** timesteppers.py 163-173 *)
  Definition h_convert_one (h : heap) (st : hstate) (k : string) (t : hda) : heap * res hda :=
    match dget "units" (h_attrs t) with
    | None => (h, Ok t)
    | Some _ =>
        match (let* v := dgetE k st in
               match v with
               | HTime _ => Err EAttr
               | HDA x => match dget "units" (h_attrs x) with None => Err EKey | Some us => Ok us end
               end) with
        | Err e => (h, Err e)
        | Ok us => h_to_units h t (us ++ " s^-1")
        end
    end.

  Fixpoint h_convert (h : heap) (st : hstate) (tend : dict hda) : heap * res (dict hda) :=
    match tend with
    | [] => (h, Ok [])
    | (k, t) :: tend' =>
        match h_convert_one h st k t with
        | (h1, Err e) => (h1, Err e)
        | (h1, Ok t') =>
            match h_convert h1 st tend' with
            | (h2, Err e) => (h2, Err e)
            | (h2, Ok out) => (h2, Ok ((k, t') :: out))
            end
        end
    end.

  Record hab : Type := mkhab {
    hab_order : nat;
    hab_dt : option Z;
    hab_hist : list (dict hda)
  }.

  Definition hstepped : Type := (dict hda * hstate)%type.

  (** timesteppers.py 101-152: every formula of _perform_step makes new arrays. *)
  Definition h_ab_call {U} (prog : hicaller U) (s : hab * U) (h : heap) (st : hstate) (dt : Z)
      : (hab * U * heap) * res hstepped :=
    let (a, u) := s in
    match ensure_timestep (hab_dt a) dt with
    | Err e => ((a, u, h), Err e)
    | Ok _ =>
        let '((u', h1), r) := prog u h st dt in
        let failed hist h' e := ((mkhab (hab_order a) (Some dt) hist, u', h'), Err e) in
        match r with
        | Err e => failed (hab_hist a) h1 e
        | Ok (t, diag) =>
            match h_convert h1 st t with
            | (h2, Err e) => failed (hab_hist a) h2 e
            | (h2, Ok tend) =>
                let hist := hab_hist a ++ [tend] in
                match perform_step (hab_order a) (map (load_dict h2) hist) (load_state h2 st) dt with
                | Err e => failed hist h2 e
                | Ok new =>
                    let (h3, out) := alloc_state h2 new in
                    ((mkhab (hab_order a) (Some dt)
                            (if Nat.eqb (length hist) (hab_order a) then tl hist else hist), u', h3),
                     Ok (diag, h_copy_untouched st out))
                end
            end
        end
    end.

  (** tendencystepper.py 195-228: the tendencies put into the diagnostics are new
      arrays. *)
  Fixpoint h_insert_differences (cfg : tstep) (dt : Z) (h : heap) (st new : hstate) (diag : dict hda)
      (out : pdict) : heap * res (dict hda) :=
    match out with
    | [] => (h, Ok diag)
    | np :: out' =>
        match insert_one cfg dt (load_state h st) (load_state h new) (load_dict h diag) np with
        | Err e => (h, Err e)
        | Ok diag1 =>
            match dget (tendency_name (ts_name cfg) (fst np)) diag1 with
            | None => (h, Err EKey)
            | Some v => let (h1, a) := alloc h v in
                        h_insert_differences cfg dt h1 st new
                          (dset (tendency_name (ts_name cfg) (fst np)) a diag) out'
            end
        end
    end.

  Definition h_finish (cfg : tstep) (dt : Z) (h : heap) (st : hstate) (r : res hstepped) : heap * res hstepped :=
    match r with
    | Err e => (h, Err e)
    | Ok (diag, new0) =>
        let new := h_copy_untouched st new0 in
        if ts_tid cfg then
          match h_insert_differences cfg dt h st new diag (ts_out cfg) with
          | (h', Err e) => (h', Err e)
          | (h', Ok diag') => (h', Ok (diag', new))
          end
        else (h, Ok (diag, new))
    end.

  Definition h_adams_bashforth {U} (cfg : tstep) (prog : hicaller U) (s : hab * U) (h : heap) (st : hstate) (dt : Z)
      : (hab * U * heap) * res hstepped :=
    let '((a', u', h1), r) := h_ab_call prog s h st dt in
    let (h2, r') := h_finish cfg dt h1 st r in ((a', u', h2), r').

  (** timesteppers.py 13-71: SSPRungeKutta; [multiply] and [add] of state.py make
      new arrays. *)
  Record hrk : Type := mkhrk { hrk_stages : nat; hrk_euler : hab }.

  Definition h_inner_euler {U} (prog : hicaller U) (s : hab * U) (h : heap) (st : hstate) (dt : Z)
      : (hab * U * heap) * res hstepped :=
    let '(s', r) := h_ab_call prog s h st dt in
    (s', let* dn := r in Ok (fst dn, h_copy_untouched st (snd dn))).

  Definition alloc_result (h : heap) (r : res (state T)) : heap * res hstate :=
    match r with
    | Err e => (h, Err e)
    | Ok v => let (h', st) := alloc_state h v in (h', Ok st)
    end.

  Definition h_rk3 {U} (prog : hicaller U) (s : hab * U) (h : heap) (st : hstate) (dt : Z)
      : (hab * U * heap) * res hstepped :=
    let '((a1, u1, h1), r1) := h_inner_euler prog s h st dt in
    match r1 with
    | Err e => ((a1, u1, h1), Err e)
    | Ok (diag, st1) =>
        let '((a2, u2, h2), r2) := h_inner_euler prog (a1, u1) h1 st1 dt in
        match r2 with
        | Err e => ((a2, u2, h2), Err e)
        | Ok (_, st12) =>
            match alloc_result h2 (let* a := multiply (aofQ (3 # 4)) (load_state h2 st) in
                                   let* b := multiply (aofQ (1 # 4)) (load_state h2 st12) in
                                   add_states a b) with
            | (h3, Err e) => ((a2, u2, h3), Err e)
            | (h3, Ok st2) =>
                let '((a3, u3, h4), r3) := h_inner_euler prog (a2, u2) h3 st2 dt in
                match r3 with
                | Err e => ((a3, u3, h4), Err e)
                | Ok (_, st23) =>
                    let (h5, out) := alloc_result h4 (let* a := multiply (aofQ (1 # 3)) (load_state h4 st) in
                                                      let* b := multiply (aofQ (2 # 3)) (load_state h4 st23) in
                                                      add_states a b) in
                    ((a3, u3, h5), let* o := out in Ok (diag, o))
                end
            end
        end
    end.

  Definition h_rk2 {U} (prog : hicaller U) (s : hab * U) (h : heap) (st : hstate) (dt : Z)
      : (hab * U * heap) * res hstepped :=
    let '((a1, u1, h1), r1) := h_inner_euler prog s h st dt in
    match r1 with
    | Err e => ((a1, u1, h1), Err e)
    | Ok (diag, st1) =>
        let '((a2, u2, h2), r2) := h_inner_euler prog (a1, u1) h1 st1 dt in
        match r2 with
        | Err e => ((a2, u2, h2), Err e)
        | Ok (_, st12) =>
            let (h3, out) := alloc_result h2 (let* sum := add_states (load_state h2 st) (load_state h2 st12) in
                                              multiply (aofQ (1 # 2)) sum) in
            ((a2, u2, h3), let* o := out in Ok (diag, o))
        end
    end.

  Definition h_ssp_rk {U} (cfg : tstep) (prog : hicaller U) (s : hrk * U) (h : heap) (st : hstate) (dt : Z)
      : (hrk * U * heap) * res hstepped :=
    let (k, u) := s in
    let '((e, u', h1), r) := (if Nat.eqb (hrk_stages k) 2 then h_rk2 else h_rk3) prog (hrk_euler k, u) h st dt in
    let (h2, r') := h_finish cfg dt h1 st r in
    ((mkhrk (hrk_stages k) e, u', h2), r').

  (** timesteppers.py 176-317: Leapfrog.  The new value is a new array; the state is
      filtered in place, in the memory of the caller's arrays. *)
  Record hleap : Type := mkhleap {
    hlf_nu : T;
    hlf_alpha : T;
    hlf_dt : option Z;
    hlf_old : option hstate
  }.

  Definition h_state_da (k : string) (st : hstate) : res hda :=
    let* v := dgetE k st in
    match v with HDA a => Ok a | HTime _ => Err EType end.

  (** timesteppers.py 307-317 *)
  Fixpoint h_leap_loop (sec nu alpha : T) (old : hstate) (tend : dict hda) (ks : list string)
      (h : heap) (st new : hstate) : heap * res hstate :=
    match ks with
    | [] => (h, Ok new)
    | k :: ks' =>
        match (let* ni := leap_one sec nu (load_state h old) (load_state h st) (load_dict h tend) k in
               let* x := h_state_da k st in
               let* x' := da_iadd (load h x) (da_lscale alpha (snd ni)) in Ok (fst ni, snd ni, x, x')) with
        | Err e => (h, Err e)
        | Ok (n, infl, x, x') =>
            let h1 := write h x x' in
            match (if aeqb alpha (aofQ (1 # 1)) then Ok n
                   else da_iadd n (da_lscale (asub alpha (aofQ (1 # 1))) infl)) with
            | Err e => (h1, Err e)
            | Ok n' =>
                let (h2, a) := alloc h1 n' in
                h_leap_loop sec nu alpha old tend ks' h2 st (dset k (HDA a) new)
            end
        end
    end.

  (** timesteppers.py 217-261 *)
  Definition h_leap_call {U} (prog : hicaller U) (s : hleap * U) (h : heap) (st : hstate) (dt : Z)
      : (hleap * U * heap) * res hstepped :=
    let (l, u) := s in
    match ensure_timestep (hlf_dt l) dt with
    | Err e => ((l, u, h), Err e)
    | Ok _ =>
        let l1 := mkhleap (hlf_nu l) (hlf_alpha l) (Some dt) (hlf_old l) in
        let '((u', h1), r) := prog u h st dt in
        match r with
        | Err e => ((l1, u', h1), Err e)
        | Ok (t, diag) =>
            match h_convert h1 st t with
            | (h2, Err e) => ((l1, u', h2), Err e)
            | (h2, Ok tend) =>
                let (h3, rn) :=
                  match hlf_old l with
                  | None => alloc_result h2 (step_forward_euler (load_state h2 st) (load_dict h2 tend) dt)
                  | Some old => h_leap_loop (total_seconds dt) (hlf_nu l) (hlf_alpha l) old tend (keys tend) h2 st []
                  end in
                match rn with
                | Err e => ((l1, u', h3), Err e)
                | Ok new =>
                    ((mkhleap (hlf_nu l) (hlf_alpha l) (Some dt) (Some st), u', h3),
                     Ok (diag, h_copy_untouched st new))
                end
            end
        end
    end.

  Definition h_leapfrog {U} (cfg : tstep) (prog : hicaller U) (s : hleap * U) (h : heap) (st : hstate) (dt : Z)
      : (hleap * U * heap) * res hstepped :=
    let '((l', u', h1), r) := h_leap_call prog s h st dt in
    let (h2, r') := h_finish cfg dt h1 st r in ((l', u', h2), r').

  (** ** ScalingWrapper: wrappers.py 6-189 *)

  Inductive skind : Type := KStepper | KTendency | KImplicit | KDiagnostic.

  (** What the constructor looks at: the kind ([None]: no component) and the
      property dictionaries the component has. *)
  Record scomp : Type := mkscomp {
    sc_kind : option skind;
    sc_inp : pdict;
    sc_out : option pdict;
    sc_tend : option pdict;
    sc_diag : option pdict
  }.

  Record scaling : Type := mkscaling {
    sw_kind : skind;
    sw_inp : list string;          (* keys of input_properties *)
    sw_in : dict T;
    sw_out : dict T;
    sw_tend : dict T;
    sw_diag : dict T
  }.

  Definition fields_have (fs : dict T) (p : pdict) : bool :=
    forallb (fun k => dmem k p) (keys fs).

  (** wrappers.py 77-101, one of the three optional groups of factors *)
  Definition check_factors (fs : option (dict T)) (p : option pdict) : res (dict T) :=
    match fs with
    | None => Ok []
    | Some fs =>
        match p with
        | None => Err EType
        | Some p => if fields_have fs p then Ok fs else Err EValue
        end
    end.

  (** wrappers.py 22-108; the order of the checks is input, diagnostic, output,
      tendency. *)
  Definition new_scaling (c : scomp) (fin fout ftend fdiag : option (dict T)) : res scaling :=
    match sc_kind c with
    | None => Err EType
    | Some k =>
        let* i := check_factors fin (Some (sc_inp c)) in
        let* d := check_factors fdiag (sc_diag c) in
        let* o := check_factors fout (sc_out c) in
        let* t := check_factors ftend (sc_tend c) in
        Ok (mkscaling k (keys (sc_inp c)) i o t d)
    end.

  (** wrappers.py 139-149: the state handed to the component.  [state[x]*f] is a
      new array, the other inputs are passed by reference. *)
  Definition scale_input (h : heap) (f : T) (v : hval) : heap * res hval :=
    match v with
    | HTime _ => (h, Err EType)
    | HDA a =>
        let (h', b) := alloc h (da_map (fun x => amul x f) (h_attrs a) (load h a)) in (h', Ok (HDA b))
    end.

  Fixpoint scale_inputs (h : heap) (fs : dict T) (st : hstate) (names : list string) (acc : hstate)
      : heap * res hstate :=
    match names with
    | [] => (h, Ok acc)
    | k :: names' =>
        match dgetE k st with
        | Err e => (h, Err e)
        | Ok v =>
            match dget k fs with
            | None => scale_inputs h fs st names' (dset k v acc)
            | Some f =>
                match scale_input h f v with
                | (h1, Err e) => (h1, Err e)
                | (h1, Ok v') => scale_inputs h1 fs st names' (dset k v' acc)
                end
            end
        end
    end.

  Definition scaled_state (w : scaling) (h : heap) (st : hstate) : heap * res hstate :=
    scale_inputs h (sw_in w) st (sw_inp w)
      (match dget "time" st with Some t => [("time", t)] | None => [] end).

  (** [out[name] *= f]: in place *)
  Fixpoint scale_outputs (h : heap) (fs : dict T) (out : hstate) : heap * res unit :=
    match fs with
    | [] => (h, Ok tt)
    | (k, f) :: fs' =>
        match dgetE k out with
        | Err e => (h, Err e)
        | Ok (HTime _) => (h, Err EType)
        | Ok (HDA a) =>
            scale_outputs (write h a (da_map (fun x => amul x f) (h_attrs a) (load h a))) fs' out
        end
    end.

  (** The wrapped component: any program.  It returns two dictionaries (a
      DiagnosticComponent only the first): diagnostics and new state, tendencies and
      diagnostics, or diagnostics. *)
  Definition hwrapped (U : Type) : Type :=
    U -> heap -> hstate -> option Z -> (U * heap) * res (hstate * hstate).

  (** wrappers.py 121-189 *)
  Definition scaling_call {U} (w : scaling) (comp : hwrapped U) (u : U) (h : heap) (st : hstate)
      (dt : option Z) : (U * heap) * res (hstate * hstate) :=
    match scaled_state w h st with
    | (h1, Err e) => ((u, h1), Err e)
    | (h1, Ok sst) =>
        let run dt' (first second : dict T) swap :=
          let '((u', h2), r) := comp u h1 sst dt' in
          match r with
          | Err e => ((u', h2), Err e)
          | Ok (o1, o2) =>
              match scale_outputs h2 first (if swap : bool then o2 else o1) with
              | (h3, Err e) => ((u', h3), Err e)
              | (h3, Ok _) =>
                  match scale_outputs h3 second (if swap then o1 else o2) with
                  | (h4, Err e) => ((u', h4), Err e)
                  | (h4, Ok _) => ((u', h4), Ok (o1, o2))
                  end
              end
          end in
        match sw_kind w, dt with
        | KStepper, None => ((u, h1), Err EType)
        | KStepper, Some _ => run dt (sw_out w) (sw_diag w) true
        | KTendency, _ => run None (sw_tend w) (sw_diag w) false
        | KImplicit, None => ((u, h1), Err EType)
        | KImplicit, Some _ => run dt (sw_tend w) (sw_diag w) false
        | KDiagnostic, _ => run None (sw_diag w) [] false
        end
    end.

  (** ** basic.py 105-236: the constant components keep their arrays and return
      DataArrays on the very same memory (restore_data_arrays does not copy an
      array whose dims have no '*'). *)
  Definition h_constant (first second : dict hda) : hwrapped unit :=
    fun u h st dt => ((u, h), Ok (map (fun kv => (fst kv, HDA (snd kv))) first,
                                  map (fun kv => (fst kv, HDA (snd kv))) second)).
End Memory.
Arguments heap T : clear implicits.
Arguments hleap T : clear implicits.
Arguments scaling T : clear implicits.
