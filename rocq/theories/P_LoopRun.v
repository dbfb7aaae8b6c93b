(** Property theorems about all that a main loop does (C76, C80). *)
From Coq Require Import String List Bool Arith ZArith QArith Qcanon.
From Verif Require Import Prelude ArithM NdArray Units DataArrayM ExampleRegistry Tracers Components SpecCalls Composite
  Steppers MainLoop SpecMainLoop LeapLoop SpecLoopRun LoopRunMain Ex_Components Ex_Steppers Ex_MainLoop Ex_LeapLoop Ex_LoopRun.
Import ListNotations.
Open Scope string_scope.
Open Scope nat_scope.
Open Scope list_scope.

#[local] Existing Instance ex_registry | 5.

(** C76: all that the loop does, in order, from the first call to the end or the first exception; what a call that raised did to the objects of the program stays. *)
Theorem c76_everything : forall {T : Type} {A : Arith T} {R : Registry}, forall {W} n (ps : list (process (T:=T) W)) store stop dt w st w' log r,
  main_loop n ps store stop dt w st = ((w', log), r) -> loop (plain_pass ps dt) store stop dt w st w' log r.
Proof. exact @main_run. Qed.
Print Assumptions c76_everything.

(** A monitor that fails on the second store: both states were given to it, and its count stays. *)
Example c76_everything_case : exists w log, main_loop 9 [after_l] store_fail 4000000 1000000 0 st_l = ((w, log), Some (Err EIO)) /\ length log = 2 /\ w = 22.
Proof. exact @ex_loop_run. Qed.

(** C80: the same with a Leapfrog object. *)
Theorem c80_everything : forall {T : Type} {A : Arith T} {R : Registry}, forall {U V} n cfg (prog : icaller (T:=T) U) (qs : list (process (T:=T) V)) (store : V -> state T -> V * res unit) stop dt s v st s' v' log r,
  leap_main_loop n cfg prog qs store stop dt s v st = ((s', v', log), r) ->
  loop (leap_pass cfg prog qs dt) (beside_store store) stop dt (s, v) st (s', v') log r.
Proof. exact @main_leap_all. Qed.
Print Assumptions c80_everything.

(**  *)
Example c80_everything_case : exists s v log, leap_main_loop 9 cfg_0 prog_l [after_l] store_fail 4000000 1000000 (new_leap nu_e half, 0) 0 st_l = ((s, v, log), Some (Err EIO)) /\
  length log = 2 /\ v = 22 /\ snd s = 2.
Proof. exact @ex_leap_loop_run. Qed.
