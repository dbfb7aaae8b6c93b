(** The run scripts of docs/quickstart.rst 42-51 in memory (C99): the same loop as
    [main_loop], with arrays that may share memory.

    A TendencyStepper or Stepper object is an [hprocess]: it may read and change memory,
    keep arrays it is given and return them.  Dictionaries are values, as in Heap.v: the
    loop calls [update] on the dictionary [state] only, which no object keeps. *)
From Coq Require Import String List Bool Arith ZArith QArith.
From Verif Require Import Prelude ArithM NdArray Units DataArrayM Heap GetNp Components Composite Steppers Basic Tracers StrFun NetCDF HeapNetCDF HeapCalls MainLoop.
Import ListNotations.
Open Scope string_scope.
Open Scope nat_scope.
Open Scope list_scope.

Section HeapLoop.
  Context {T : Type} {A : Arith T} {R : Registry}.

  Definition hprocess (W : Type) : Type := W -> heap T -> hstate -> Z -> (W * heap T) * res (dict hda * hstate).

  Definition hmonitor (W : Type) : Type := W -> heap T -> hstate -> (W * heap T) * res unit.

  (** A dictionary of arrays used as a state: the very arrays. *)
  Definition h_as_state (d : dict hda) : hstate := map (fun kv => (fst kv, HDA (snd kv))) d.

  (** base_components.py 581-634: a Stepper object. *)
  Definition h_stepper_process {U} (cp : nd nat -> list nat -> bool) (g : treg) (c : Components.scomp)
      (hac : harray T U (dict (nd nat) * dict (nd nat))) : hprocess U :=
    fun u h st dt =>
      let '((u', h'), r) := h_stepper_call cp g c hac u h st dt in
      ((u', h'), let* dn := r in Ok (fst dn, h_as_state (snd dn))).

  (** An object next to one of which it knows nothing. *)
  Definition h_beside {S U} (p : hprocess U) : hprocess (S * U) :=
    fun w h st dt => let '((u', h'), r) := p (snd w) h st dt in ((fst w, u', h'), r).

  Definition h_first {S U} (p : hprocess S) : hprocess (S * U) :=
    fun w h st dt => let '((s', h'), r) := p (fst w) h st dt in ((s', snd w, h'), r).

  (** The same, on values. *)
  Definition first_of {S U} (p : process (T:=T) S) : process (T:=T) (S * U) :=
    fun w st dt => let (s', r) := p (fst w) st dt in ((s', snd w), r).

  (** quickstart.rst 45-46 *)
  Fixpoint h_run_processes {W} (ps : list (hprocess W)) (w : W) (h : heap T) (st : hstate) (dt : Z)
      : (W * heap T) * res (list (dict hda) * hstate) :=
    match ps with
    | [] => ((w, h), Ok ([], st))
    | p :: ps' =>
        match p w h st dt with
        | ((w1, h1), Err e) => ((w1, h1), Err e)
        | ((w1, h1), Ok (d, st1)) =>
            let '((w2, h2), r) := h_run_processes ps' w1 h1 st1 dt in
            ((w2, h2), let* dn := r in Ok (d :: fst dn, snd dn))
        end
    end.

  (** quickstart.rst 47-48: [update] puts the very arrays into the state. *)
  Definition h_update_all (ds : list (dict hda)) (st : hstate) : hstate :=
    fold_left (fun s d => dupdate s (h_as_state d)) ds st.

  (** quickstart.rst 44 and 50: state['time']; used as a datetime. *)
  Definition h_state_time (st : hstate) : res Z :=
    match dget "time" st with
    | None => Err EKey
    | Some (HTime t) => Ok t
    | Some (HDA _) => Err EType
    end.

  (** quickstart.rst 44-51.  At most [n] passes; None: the loop is still running.  The list
      holds the states given to the monitor: the arrays, not what they hold. *)
  Fixpoint h_main_loop {W} (n : nat) (ps : list (hprocess W)) (store : hmonitor W) (stop dt : Z)
      (w : W) (h : heap T) (st : hstate) : (W * heap T * list hstate) * option (res hstate) :=
    match n with
    | 0 => ((w, h, []), None)
    | S n' =>
        match h_state_time st with
        | Err e => ((w, h, []), Some (Err e))
        | Ok t =>
            if (t <? stop)%Z
            then
              match h_run_processes ps w h st dt with
              | ((w1, h1), Err e) => ((w1, h1, []), Some (Err e))
              | ((w1, h1), Ok (ds, next)) =>
                  let st1 := h_update_all ds st in
                  match store w1 h1 st1 with
                  | ((w2, h2), Err e) => ((w2, h2, [st1]), Some (Err e))
                  | ((w2, h2), Ok _) =>
                      match h_state_time st1 with
                      | Err e => ((w2, h2, [st1]), Some (Err e))
                      | Ok t1 =>
                          let '((w3, h3, log), r) := h_main_loop n' ps store stop dt w2 h2 (dset "time" (HTime (t1 + dt)) next) in
                          ((w3, h3, st1 :: log), r)
                      end
                  end
              end
            else ((w, h, []), Some (Ok st))
        end
    end.

  (** The same loop with a Leapfrog object as the first process, as [leap_main_loop]. *)
  Fixpoint h_leap_main_loop {U V} (n : nat) (cfg : tstep) (prog : hicaller (T:=T) U) (qs : list (hprocess V)) (store : hmonitor V) (stop dt : Z)
      (s : hleap T * U) (v : V) (h : heap T) (st : hstate) : ((hleap T * U) * V * heap T * list hstate) * option (res hstate) :=
    match n with
    | 0 => ((s, v, h, []), None)
    | S n' =>
        match h_state_time st with
        | Err e => ((s, v, h, []), Some (Err e))
        | Ok t =>
            if (t <? stop)%Z
            then
              match h_leapfrog cfg prog s h st dt with
              | ((s1, h1), Err e) => ((s1, v, h1, []), Some (Err e))
              | ((s1, h1), Ok (d, new)) =>
                  match h_run_processes qs v h1 new dt with
                  | ((v1, h2), Err e) => ((s1, v1, h2, []), Some (Err e))
                  | ((v1, h2), Ok (ds, next)) =>
                      let st1 := h_update_all (d :: ds) st in
                      match store v1 h2 st1 with
                      | ((v2, h3), Err e) => ((s1, v2, h3, [st1]), Some (Err e))
                      | ((v2, h3), Ok _) =>
                          match h_state_time st1 with
                          | Err e => ((s1, v2, h3, [st1]), Some (Err e))
                          | Ok t1 =>
                              let '((s3, v3, h4, log), r) := h_leap_main_loop n' cfg prog qs store stop dt s1 v2 h3 (dset "time" (HTime (t1 + dt)) next) in
                              ((s3, v3, h4, st1 :: log), r)
                          end
                      end
                  end
              end
            else ((s, v, h, []), Some (Ok st))
        end
    end.
End HeapLoop.
Arguments hprocess T W : clear implicits.
Arguments hmonitor T W : clear implicits.

Section HeapFile.
  Context {T : Type} {A : Arith T} {N : NcLib T}.

  (** netcdf.py 68-116: the store method of a NetCDF monitor in a program with other
      objects [U]; its cache holds the very arrays. *)
  Definition h_to_file {U} (ord : list string -> list string) (m : monitor) : hmonitor T ((files T * cache_t nat) * U) :=
    fun w h st =>
      match ref_step ord m (RStore (refs_state st)) h (fst (fst w)) (snd (fst w)) with
      | (o, h', fs, c) => ((((fs, c), snd w), h'), o)
      end.
End HeapFile.
