(** get_component_aliases and same_list (C60, C63). *)
From Coq Require Import String List Bool Arith ZArith Lia Permutation.
From Verif Require Import Prelude PreludeFacts ArithM NdArray DataArrayM NetCDF NetCDFMain UtilM SpecUtil UtilFacts.
Import ListNotations.
Open Scope string_scope.
Open Scope nat_scope.
Open Scope list_scope.

Lemma last_of_app : forall l1 l2, last_of (l1 ++ l2) = or_else (last_of l2) (last_of l1).
Proof.
  intros l1 l2. induction l1 as [|x l1 IH]. { cbn [app]. destruct (last_of l2); auto. }
  destruct l1 as [|y l1]. { cbn [app]. destruct l2 as [|z l2]; auto. change (last_of (x :: z :: l2)) with (last_of (z :: l2)). assert (E : exists w, last_of (z :: l2) = Some w). { clear. revert z. induction l2 as [|y l2 IH]; intros z; [cbn; eauto|]. apply IH. } destruct E as (w & ->). auto. }
  change (last_of ((x :: y :: l1) ++ l2)) with (last_of ((y :: l1) ++ l2)). rewrite IH. auto.
Qed.

Lemma or_else_assoc : forall a b c, or_else a (or_else b c) = or_else (or_else a b) c.
Proof. intros [a|] b c; auto. Qed.

Lemma alias_props : forall pd n d,
  dget n (fold_left (fun d np => match p_alias (snd np) with Some al => dset (fst np) al d | None => d end) pd d) =
  or_else (last_of (flat_map (fun np : string * props => if String.eqb n (fst np) then match p_alias (snd np) with Some al => [al] | None => [] end else []) pd)) (dget n d).
Proof.
  induction pd as [|[k p] pd IH]; intros n d; auto. cbn [fold_left flat_map fst snd]. rewrite IH. rewrite last_of_app. rewrite <- or_else_assoc. f_equal.
  destruct (p_alias p) as [al|]; [|destruct (String.eqb n k); auto]. rewrite dget_dset. destruct (String.eqb n k); auto.
Qed.

Lemma alias_level : forall get cs n d,
  dget n (fold_left (fun d c => match get c with
                                | None => d
                                | Some pd => fold_left (fun d np => match p_alias (snd np) with Some al => dset (fst np) al d | None => d end) pd d
                                end) cs d) = or_else (last_of (aliases_in get cs n)) (dget n d).
Proof.
  intros get cs. induction cs as [|c cs IH]; intros n d; auto. cbn [fold_left]. unfold aliases_in. cbn [flat_map]. rewrite last_of_app, IH. rewrite <- or_else_assoc. f_equal.
  destruct (get c) as [pd|]; auto. apply alias_props.
Qed.

(** C60: the alias of a quantity. *)
Theorem main_aliases : forall cs n, dget n (get_component_aliases cs) =
  or_else (last_of (aliases_in ps_input cs n)) (or_else (last_of (aliases_in ps_output cs n)) (or_else (last_of (aliases_in ps_diagnostic cs n)) (last_of (aliases_in ps_tendency cs n)))).
Proof. intros cs n. unfold get_component_aliases. cbn [fold_left]. rewrite !alias_level. cbn [dget]. f_equal. f_equal. f_equal. destruct (last_of _); auto. Qed.

(** C63 *)
Theorem main_same_list : forall a b, NoDup a \/ NoDup b -> (same_list a b = true <-> Permutation a b).
Proof.
  intros a b H. split; [|apply perm_same_list]. intros S. destruct H as [H|H].
  - apply Permutation_sym. apply same_list_perm; auto. unfold same_list in *. apply andb_true_iff in S as (S1 & S2). apply andb_true_iff in S2 as (S2 & S3). apply Nat.eqb_eq in S1. rewrite S1, Nat.eqb_refl, S2, S3. auto.
  - apply same_list_perm; auto.
Qed.

Theorem main_reordering : forall a b, Permutation a b -> same_list a b = true.
Proof. exact perm_same_list. Qed.
