(** The run scripts of docs/quickstart.rst 42-51 and docs/timestepping.rst 15-22 with a
    Leapfrog object as the first process: it changes the state it is given (C80). *)
From Coq Require Import String List Bool Arith ZArith QArith.
From Verif Require Import Prelude ArithM NdArray Units DataArrayM GetNp Components Composite Steppers Basic MainLoop.
Import ListNotations.
Open Scope string_scope.
Open Scope nat_scope.
Open Scope list_scope.

Section LeapLoop.
  Context {T : Type} {A : Arith T} {R : Registry} {U V : Type}.

  (** quickstart.rst 44-51, as [main_loop].  [s] is the Leapfrog object and the components
      it wraps, [v] all else that the program remembers.  Simplification: the components
      are called by the Leapfrog object only. *)
  Fixpoint leap_main_loop (n : nat) (cfg : tstep) (prog : icaller U) (qs : list (process V)) (store : V -> state T -> V * res unit) (stop dt : Z)
      (s : leap T * U) (v : V) (st : state T) : ((leap T * U) * V * list (state T)) * option (res (state T)) :=
    match n with
    | 0 => ((s, v, []), None)
    | S n' =>
        match state_time st with
        | Err e => ((s, v, []), Some (Err e))
        | Ok t =>
            if (t <? stop)%Z
            then
              match leapfrog cfg prog s st dt with
              | (s1, _, Err e) => ((s1, v, []), Some (Err e))
              | (s1, st', Ok (d, new)) =>
                  match run_processes qs v new dt with
                  | (v1, Err e) => ((s1, v1, []), Some (Err e))
                  | (v1, Ok (ds, next)) =>
                      let st1 := update_all (d :: ds) st' in
                      match store v1 st1 with
                      | (v2, Err e) => ((s1, v2, [st1]), Some (Err e))
                      | (v2, Ok _) =>
                          match state_time st1 with
                          | Err e => ((s1, v2, [st1]), Some (Err e))
                          | Ok t1 =>
                              let '((s3, v3, log), r) := leap_main_loop n' cfg prog qs store stop dt s1 v2 (dset "time" (VTime (t1 + dt)) next) in
                              ((s3, v3, st1 :: log), r)
                          end
                      end
                  end
              end
            else ((s, v, []), Some (Ok st))
        end
    end.
End LeapLoop.
