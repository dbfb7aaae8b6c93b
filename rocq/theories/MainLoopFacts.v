(** Lemmas about the main loop (C75, C76). *)
From Coq Require Import String List Bool Arith ZArith QArith Lia.
From Verif Require Import Prelude PreludeFacts ArithM NdArray Units DataArrayM Wildcard GetNp Restore Tracers
  Components SpecCalls Composite Steppers Basic MainLoop SpecMainLoop.
Import ListNotations.
Open Scope string_scope.
Open Scope nat_scope.
Open Scope list_scope.

Lemma foldM_keys : forall {S B} (K : S -> list string) (key : B -> string) (f : S -> B -> res S),
  (forall s x s', f s x = Ok s' -> forall k, In k (K s') <-> In k (K s) \/ k = key x) ->
  forall l s s', foldM f l s = Ok s' -> forall k, In k (K s') <-> In k (K s) \/ In k (map key l).
Proof.
  intros S B K key f Hf. induction l as [|x l IH]; cbn [foldM map]; intros s s' H k.
  - injection H as <-. cbn. tauto.
  - apply bind_ok in H as (s1 & H1 & H2). rewrite (IH _ _ H2 k), (Hf _ _ _ H1 k). cbn [In]. firstorder congruence.
Qed.

Section Facts.
  Context {T : Type} {A : Arith T} {R : Registry}.

  Lemma keys_as_state : forall (d : dict (da T)), keys (as_state d) = keys d.
  Proof. intros d. unfold keys, as_state. rewrite map_map. reflexivity. Qed.

  Lemma restore_keys : forall raw outp (st : state T) inp out,
    restore_data_arrays_with_properties raw outp st inp [] false = Ok out ->
    forall k, In k (keys out) <-> In k (keys outp).
  Proof.
    intros raw outp st inp out H k. unfold restore_data_arrays_with_properties in H. cbn [app] in H.
    apply bind_ok in H as ((wn & dl) & _ & H). apply bind_ok in H as (dd & Hd & H).
    apply bind_ok in H as ((dl' & out') & Hf & H). injection H as <-.
    assert (K1 : forall k, In k (keys dd) <-> In k (keys outp)).
    { intros k0. unfold extract_output_dims_properties in Hd.
      rewrite (foldM_keys (@keys _) fst (extract_dims_step inp [])) with (l := outp) (s := []) (s' := dd); auto.
      - cbn. unfold keys. tauto.
      - clear. intros s x s' H k. unfold extract_dims_step in H. destruct x as [n p]. cbn [fst snd] in *. change (mem n []) with false in H. cbv iota in H.
        repeat match type of H with
        | bind ?X _ = _ => apply bind_ok in H as (? & ? & H)
        | (if ?b then _ else _) = _ => destruct b; try discriminate H
        | match ?X with _ => _ end = _ => destruct X; try discriminate H
        end; injection H as <-; rewrite In_keys_dset; tauto. }
    rewrite <- K1.
    pose proof (foldM_keys (fun s => keys (snd s)) fst (restore_step raw outp inp wn [])) as F.
    rewrite (F) with (l := dd) (s := (dl, [])) (s' := (dl', out')); auto.
    - cbn. unfold keys. tauto.
    - clear. intros [dl o] [n ds] s' H k. unfold restore_step in H. change (mem n []) with false in H. cbv iota in H.
      apply bind_ok in H as (rn & _ & H). apply bind_ok in H as (((dl3 & ds3) & oa) & _ & H).
      apply bind_ok in H as (p & _ & H). apply bind_ok in H as (u & _ & H).
      apply bind_ok in H as (q & _ & H). injection H as <-. cbn [snd fst]. rewrite In_keys_dset. tauto.
  Qed.

  Lemma unpack_keys : forall g pk m raw (st : state T) tr raw', unpack_tracers g pk m raw st = Ok (tr, raw') ->
    forall k, In k (keys tr) <-> In k (read_tracers g pk).
  Proof.
    intros g [p|] m raw st tr raw' H k; cbn [unpack_tracers read_tracers] in *.
    - apply bind_ok in H as (t & _ & H). apply bind_ok in H as (o & Ho & H). injection H as <- _.
      unfold unpack in Ho. apply bind_ok in Ho as (raw1 & _ & Ho). rewrite (restore_keys _ _ _ _ _ Ho).
      unfold keys. rewrite map_map. cbn [fst]. tauto.
    - injection H as <- _. cbn. tauto.
  Qed.
End Facts.
