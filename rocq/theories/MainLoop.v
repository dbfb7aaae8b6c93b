(** The run scripts of docs/quickstart.rst 42-51 and docs/timestepping.rst 15-22: the
    main loop of a model (C75, C76).

    A TendencyStepper or Stepper object is a [process]: called with a state and a timestep
    it returns diagnostics and a new state, or raises; [W] is all that the program
    remembers (stepper objects, components, monitors).  Values only: a process that
    changes the arrays of its argument (Leapfrog) is not a process here. *)
From Coq Require Import String List Bool Arith ZArith QArith.
From Verif Require Import Prelude ArithM NdArray Units DataArrayM Wildcard GetNp Restore Tracers Components Composite Steppers Basic.
Import ListNotations.
Open Scope string_scope.
Open Scope nat_scope.
Open Scope list_scope.

Section MainLoop.
  Context {T : Type} {A : Arith T} {R : Registry}.

  Definition process (W : Type) : Type := W -> state T -> Z -> W * res (dict (da T) * state T).

  (** A dictionary of DataArrays used as a state. *)
  Definition as_state (d : dict (da T)) : state T := map (fun kv => (fst kv, VDA (snd kv))) d.

  (** base_components.py 581-634: a Stepper object. *)
  Definition stepper_process {U} (g : treg) (c : scomp)
      (ac : U -> dict (rval T) -> Z -> U * res (dict (nd T) * dict (nd T))) : process U :=
    fun u st dt =>
      let (u', r) := stepper_call g c ac u st dt in
      (u', let* dn := r in Ok (fst dn, as_state (snd dn))).

  (** A process next to an object of which it knows nothing. *)
  Definition beside {S U} (p : process U) : process (S * U) :=
    fun w st dt => let (u', r) := p (snd w) st dt in ((fst w, u'), r).

  (** quickstart.rst 45-46: each process is called with the state returned by the one
      before it; the list of all diagnostics, and the last state. *)
  Fixpoint run_processes {W} (ps : list (process W)) (w : W) (st : state T) (dt : Z)
      : W * res (list (dict (da T)) * state T) :=
    match ps with
    | [] => (w, Ok ([], st))
    | p :: ps' =>
        match p w st dt with
        | (w1, Err e) => (w1, Err e)
        | (w1, Ok (d, st1)) =>
            let (w2, r) := run_processes ps' w1 st1 dt in
            (w2, let* dn := r in Ok (d :: fst dn, snd dn))
        end
    end.

  (** quickstart.rst 47-48: state.update(diagnostics), for each dictionary in turn. *)
  Definition update_all (ds : list (dict (da T))) (st : state T) : state T :=
    fold_left (fun s d => dupdate s (as_state d)) ds st.

  (** quickstart.rst 44-51.  At most [n] passes; None: the loop is still running.  The
      list holds the states given to the monitor, in order. *)
  Fixpoint main_loop {W} (n : nat) (ps : list (process W)) (store : W -> state T -> W * res unit) (stop dt : Z)
      (w : W) (st : state T) : (W * list (state T)) * option (res (state T)) :=
    match n with
    | 0 => ((w, []), None)
    | S n' =>
        match state_time st with
        | Err e => ((w, []), Some (Err e))
        | Ok t =>
            if (t <? stop)%Z
            then
              match run_processes ps w st dt with
              | (w1, Err e) => ((w1, []), Some (Err e))
              | (w1, Ok (ds, next)) =>
                  let st1 := update_all ds st in
                  match store w1 st1 with
                  | (w2, Err e) => ((w2, [st1]), Some (Err e))
                  | (w2, Ok _) =>
                      match state_time st1 with
                      | Err e => ((w2, [st1]), Some (Err e))
                      | Ok t1 =>
                          let '((w3, log), r) := main_loop n' ps store stop dt w2 (dset "time" (VTime (t1 + dt)) next) in
                          ((w3, st1 :: log), r)
                      end
                  end
              end
            else ((w, []), Some (Ok st))
        end
    end.
End MainLoop.
