(** A backend of its own kind, and calls with it (C73). *)
From Coq Require Import String List Bool Arith ZArith QArith Qcanon Lia.
From Verif Require Import Prelude PreludeFacts ArithM NdArray NdFacts Units DataArrayM
  Wildcard GetNp Restore ExampleRegistry Checks Tracers Components Ex_Components Ex_Tracers Backend SpecBackend BackendMain.
Import ListNotations.
Open Scope string_scope.
Open Scope nat_scope.
Open Scope list_scope.

#[local] Existing Instance ex_registry | 5.

(** A container that has units in a field of its own and, when it was made by the backend,
    the number of quantities of the state it was made for. *)
Inductive boxed : Type :=
| Box (units : string) (axes : list string) (values : nd Qc) (made_from : option nat)
| Clock (t : Z).

Definition box_backend : backend Qc boxed :=
  mkbackend
    (fun v => match v with Box _ ds _ _ => Ok ds | Clock _ => Err EAttr end)
    (fun v => match v with Box _ _ a _ => Ok (shape a) | Clock _ => Err EAttr end)
    (fun v _ u ds dl => match v with
                        | Box bu bd a _ => get_array (VDA (mkda bd a [("units", bu)])) u ds dl
                        | Clock _ => Err EAttr
                        end)
    (fun a _ u ds st => if Nat.eqb (length ds) (length (shape a)) then Ok (Box u ds a (Some (length st))) else Err EValue).

Definition boxes (v : boxed) (w : pval Qc) : Prop :=
  match v, w with
  | Box u ds a _, VDA q => q = mkda ds a [("units", u)]
  | Clock t, VTime s => t = s
  | _, _ => False
  end.

Lemma box_represents : represents boxes box_backend da_backend.
Proof.
  split.
  - intros [u ds a m|t] [q|s] H; cbn in *; try contradiction; subst; reflexivity.
  - intros [u ds a m|t] [q|s] H; cbn in *; try contradiction; subst; reflexivity.
  - intros [u ds a m|t] [q|s] n un d dl H; cbn [box_backend da_backend b_get boxes] in *; try contradiction; subst; reflexivity.
  - intros a n u ds st1 st2 _. cbn. unfold create_quantity. destruct (Nat.eqb (length ds) (length (shape a))); cbn; reflexivity.
Qed.

Definition bst_c : dict boxed :=
  [ ("time", Clock 0%Z);
    ("T", Box "K" ["x"; "z"] (cramp [3; 2]) None);
    ("wind", Box "km s^-1" ["x"] (cramp [3]) None);
    ("unused", Box "kg" ["y"] (cramp [5]) (Some 9)) ].

Lemma box_state : same_dict boxes bst_c st_c.
Proof. repeat constructor. Qed.

(** The same computations, on what this backend gives. *)
Definition unbox (raw : dict (grval Qc boxed)) : dict (rval Qc) :=
  map (fun kv => (fst kv, match snd kv with
                          | GArr a => RArr a
                          | GTime (Clock t) => RTime (VTime t)
                          | GTime (Box u ds a _) => RTime (VDA (mkda ds a [("units", u)]))
                          end)) raw.

Lemma unbox_same : forall r1 r2, same_raw boxes r1 r2 -> unbox r1 = default_raw r2.
Proof.
  intros r1 r2 H. unfold unbox, default_raw. induction H as [|[k x] [k' y] r1 r2 [Hk Hv] H IH]; [reflexivity|].
  cbn [map fst snd] in *. subst k'. f_equal; [|exact IH]. f_equal.
  destruct x as [a|[u ds a m|t]], y as [b|[q|s]]; cbn in Hv; try contradiction; subst; reflexivity.
Qed.

Definition bac_t (u : nat) (raw : dict (grval Qc boxed)) := ac_t u (unbox raw).
Definition bac_d (u : nat) (raw : dict (grval Qc boxed)) := ac_d u (unbox raw).
Definition bac_s (u : nat) (raw : dict (grval Qc boxed)) (dt : Z) := ac_s u (unbox raw) dt.

Definition is_box (u : string) (ds : list string) (sh : list nat) (m : nat) (v : option boxed) : bool :=
  match v with
  | Some (Box bu bd a bm) => String.eqb u bu && list_eqb ds bd && nats_eq sh (shape a) &&
                             match bm with Some k => Nat.eqb k m | None => false end
  | _ => false
  end.

(** The hypotheses of the transfer theorems hold, and the calls succeed: what they return are
    boxes, which know the state they were made for. *)
Lemma ex_inherit :
  represents boxes box_backend da_backend /\ same_dict boxes bst_c st_c /\
  (forall u r1 r2, same_raw boxes r1 r2 -> bac_t u r1 = ac_t u (default_raw r2)) /\
  (forall u r1 r2, same_raw boxes r1 r2 -> bac_d u r1 = ac_d u (default_raw r2)) /\
  (forall u r1 r2 dt, same_raw boxes r1 r2 -> bac_s u r1 dt = ac_s u (default_raw r2) dt) /\
  (exists tend diag, gb_tendency_call box_backend empty_treg (c_t true) bac_t 4 bst_c = (5, Ok (tend, diag)) /\
     is_box "K s^-1" ["z"; "x"] [2; 3] 4 (dget "T" tend) = true /\
     is_box "m s^-1" ["x"] [3] 4 (dget "speed" diag) = true /\
     is_box "K s^-1" ["z"; "x"] [2; 3] 4 (dget "T_tendency_from_heater" diag) = true) /\
  (exists diag, gb_diagnostic_call box_backend c_d bac_d 4 bst_c = (5, Ok diag) /\
     is_box "m s^-1" ["x"] [3] 4 (dget "speed" diag) = true).
Proof.
  split; [exact box_represents|]. split; [exact box_state|].
  split; [intros; unfold bac_t; rewrite (unbox_same r1 r2); auto|].
  split; [intros; unfold bac_d; rewrite (unbox_same r1 r2); auto|].
  split; [intros; unfold bac_s; rewrite (unbox_same r1 r2); auto|].
  split.
  - assert (E : match gb_tendency_call box_backend empty_treg (c_t true) bac_t 4 bst_c with
                | (5, Ok (tend, diag)) =>
                    is_box "K s^-1" ["z"; "x"] [2; 3] 4 (dget "T" tend) &&
                    is_box "m s^-1" ["x"] [3] 4 (dget "speed" diag) &&
                    is_box "K s^-1" ["z"; "x"] [2; 3] 4 (dget "T_tendency_from_heater" diag)
                | _ => false end = true) by (vm_compute; reflexivity).
    destruct (gb_tendency_call box_backend empty_treg (c_t true) bac_t 4 bst_c) as [n [[tend diag]|e]];
      do 6 (destruct n as [|n]; try discriminate E).
    apply andb_true_iff in E as [E E3]. apply andb_true_iff in E as [E1 E2]. exists tend, diag. auto.
  - assert (E : match gb_diagnostic_call box_backend c_d bac_d 4 bst_c with
                | (5, Ok diag) => is_box "m s^-1" ["x"] [3] 4 (dget "speed" diag)
                | _ => false end = true) by (vm_compute; reflexivity).
    destruct (gb_diagnostic_call box_backend c_d bac_d 4 bst_c) as [n [diag|e]];
      do 6 (destruct n as [|n]; try discriminate E).
    exists diag. auto.
Qed.

Definition bst_s : dict boxed := bst_c ++ [("q", Box "g" ["z"] (cramp [2]) None)].

(** With a Stepper, tendencies in the diagnostics, and an input that no array has. *)
Lemma ex_box_stepper : same_dict boxes bst_s st_s /\
  exists diag new, gb_stepper_call box_backend empty_treg (c_s 1000000) bac_s 0 bst_s 2000000 = (1, Ok (diag, new)) /\
    is_box "m s^-1" ["x"] [3] 5 (dget "speed" diag) = true /\
    is_box "K" ["z"; "x"] [2; 3] 5 (dget "T" new) = true.
Proof.
  split; [repeat constructor|].
  assert (E : match gb_stepper_call box_backend empty_treg (c_s 1000000) bac_s 0 bst_s 2000000 with
              | (1, Ok (diag, new)) => is_box "m s^-1" ["x"] [3] 5 (dget "speed" diag) && is_box "K" ["z"; "x"] [2; 3] 5 (dget "T" new)
              | _ => false end = true) by (vm_compute; reflexivity).
  destruct (gb_stepper_call box_backend empty_treg (c_s 1000000) bac_s 0 bst_s 2000000) as [n [[diag new]|e]];
    do 2 (destruct n as [|n]; try discriminate E).
  apply andb_true_iff in E as [E1 E2]. exists diag, new. auto.
Qed.

Lemma ex_asks_hyps : NoDup (keys (d_diag c_d)) /\ NoDup (keys (t_tend (c_t true))) /\ NoDup (keys (t_diag (c_t true))) /\
  NoDup (keys (s_out (c_s 1000000))) /\ NoDup (keys (s_diag (c_s 1000000))).
Proof. repeat split; apply nodupb_ok; vm_compute; reflexivity. Qed.

Lemma ex_set_backend : last_accepted Nat.even 0 [2; 3; 4; 5] = 4.
Proof. reflexivity. Qed.
