(** Specification for C101: how the run from a turned state ends, compared with the other run. *)
From Coq Require Import String List Bool Arith ZArith QArith Qcanon.
From Verif Require Import Prelude ArithM NdArray Units DataArrayM SpecTurn.
Import ListNotations.

(** Both return, and all that was stored and the states they end with are turned; or both raise the same; or
    both are still running. *)
Definition turned_end {R : Registry} (g : turn) {W W'} (x : (W * list (state Qc)) * option (res (state Qc))) (y : (W' * list (state Qc)) * option (res (state Qc))) : Prop :=
  match snd x, snd y with
  | Some (Ok e), Some (Ok e') => Forall2 (turned_record g) (snd (fst x)) (snd (fst y)) /\ turned_state g e e'
  | Some (Err a), Some (Err b) => a = b
  | None, None => True
  | _, _ => False
  end.
