(** Concrete cases for C87. *)
From Coq Require Import String List Bool Arith ZArith QArith Qcanon Permutation Lia.
From Verif Require Import Prelude PreludeFacts ArithM NdArray Units DataArrayM ExampleRegistry Checks StrFun NetCDF SpecNetCDF NetCDFSucceeds Ex_Components Ex_NetCDF
  Components Composite Steppers Basic MainLoop SpecMainLoop LeapLoop SpecLeapLoop Ex_Steppers Ex_LeapLoop SpecRunFile.
Import ListNotations.
Open Scope string_scope.
Open Scope nat_scope.
Open Scope list_scope.

(** Warms the air by a degree and gives a new wind as a diagnostic. *)
Definition warm : process (T:=Qc) nat := fun u st dt =>
  match dget "air_temperature" st with
  | Some (VDA a) =>
      (S u, Ok ([("wind", mkda ["y"] (nd_map (fun v => (v + cz (Z.of_nat u))%Qc) (cramp [3])) [("units", "m s^-1")])],
                dset "air_temperature" (VDA (mkda (dims a) (nd_map (fun v => (v + 1)%Qc) (arr a)) (attrs a))) st))
  | _ => (u, Err EKey)
  end.

(** The same, but its third call raises. *)
Definition warm_twice : process (T:=Qc) nat := fun u st dt => if Nat.ltb u 2 then warm u st dt else (u, Err (EUser 7)).

Definition mon_run_ex (on : bool) : monitor := mkmon "out.nc" "seconds" None on [("air_temperature", "temp")] false.
Definition schema_run : schema :=
  mkschema ["temp"; "wind"] (fun n => if String.eqb n "wind" then ["y"] else ["x"; "y"])
    (fun n => if String.eqb n "wind" then [("units", "m s^-1")] else [("units", "K"); ("note", "a")]).

Lemma warm_leaves_time : leaves_time warm /\ leaves_time warm_twice.
Proof.
  assert (G : leaves_time warm).
  { intros w st dt w' d new H. unfold warm in H. destruct (dget "air_temperature" st) as [[a|]|]; try discriminate.
    injection H as _ <- _. simpl. intros [E|[]]. discriminate. }
  split; [exact G|]. intros w st dt w' d new H. unfold warm_twice in H. destruct (Nat.ltb w 2); [|discriminate]. eapply G; eauto.
Qed.

Definition good_recordb (m : monitor) (S : state Qc) : bool :=
  grid_stateb Lx S && match prepare ident m S with Ok (t, cs) => fitsb schema_run cs | Err _ => false end &&
  negb (mem "" (chosen ident m S)) && no_clashesb (m_aliases m) (chosen ident m S).

Lemma good_recordb_ok : forall m S, good_recordb m S = true -> grid_state Lx S /\ conforms ident m schema_run S /\ aliased ident m S.
Proof.
  intros m S H. apply andb_true_iff in H as (H & H4). apply andb_true_iff in H as (H & H3). apply andb_true_iff in H as (H1 & H2).
  split; [apply grid_stateb_ok; exact H1|]. split; [|split].
  - destruct (prepare ident m S) as [[t cs]|e] eqn:E; [|discriminate]. exists t, cs. split; [exact E|apply fitsb_ok; exact H2].
  - apply negb_true_iff, mem_false in H3. exact H3.
  - apply no_clashesb_ok. exact H4.
Qed.

Definition run_ex (on : bool) (p : process (T:=Qc) nat) :=
  main_loop 9 (map beside [p]) (to_file ident (mon_run_ex on)) (30 * second) (10 * second) (([], []), 0) (state_at 0 1).

Lemma run_good : forall on p, In p [warm; warm_twice] -> forall S, In S (snd (fst (run_ex on p))) ->
  grid_state Lx S /\ conforms ident (mon_run_ex on) schema_run S /\ aliased ident (mon_run_ex on) S.
Proof.
  intros on p Hp S HS. apply good_recordb_ok. revert S HS. apply forallb_forall.
  destruct on, Hp as [<-|[<-|[]]]; vm_compute; reflexivity.
Qed.

Lemma run_clock : forall on, clock (mon_run_ex on).
Proof. intros on. unfold clock. simpl. intros r t. eexists. reflexivity. Qed.

(** Three passes; and two, after which the component raises. *)
Lemma ex_run_hyps : forall on, plain_fit ex_lib /\ clock (mon_run_ex on) /\ (forall l, Permutation (ident l) l) /\ sc_names schema_run <> [] /\
  (forall la, In la (m_aliases (mon_run_ex on)) -> str_in (fst la) "time" = false) /\ has_time 0 (state_at 0 1) /\
  file_holds (mon_run_ex on) Lx [] [] /\ file_clock (T:=Qc) (mon_run_ex on) [] /\ leaves_time warm /\ leaves_time warm_twice /\
  (forall p, In p [warm; warm_twice] -> forall S, In S (snd (fst (run_ex on p))) ->
     grid_state Lx S /\ conforms ident (mon_run_ex on) schema_run S /\ aliased ident (mon_run_ex on) S).
Proof.
  intros on. split; [exact ex_fit|]. split; [apply run_clock|]. split; [exact ident_perm|]. split; [discriminate|].
  split; [intros la [<-|[]]; reflexivity|]. split; [reflexivity|].
  split; [split; [intros ts []|reflexivity]|]. split; [intros f Hf; discriminate|]. split; [apply warm_leaves_time|]. split; [apply warm_leaves_time|].
  apply run_good.
Qed.

Definition file_of (x : ((files Qc * cache_t Qc) * nat) * list (state Qc) * option (res (state Qc))) : list Z * list (option (nd Qc)) * nat :=
  match x with
  | ((((fs, c), _), log), _) =>
      match dget "out.nc" fs with
      | Some f => (match d_time f with Some tv => t_vals tv | None => [] end,
                   match dget "temp" (d_vars f) with Some v => nv_rows v | None => [] end, length log)
      | None => ([], [], length log)
      end
  end.

Definition temps (k : Z) : option (nd Qc) := Some (nd_map (fun v => (v + cz k)%Qc) (cramp [2; 3])).

Lemma ex_run_files :
  file_of (run_ex true warm) = ([0; 10; 20]%Z, [temps 1; temps 2; temps 3], 3) /\
  file_of (run_ex true warm_twice) = ([0; 10]%Z, [temps 1; temps 2], 2) /\
  snd (run_ex true warm_twice) = Some (Err (EUser 7)) /\
  file_of (run_ex false warm) = ([], [], 3).
Proof. repeat split; vm_compute; reflexivity. Qed.

(** ** With a Leapfrog object *)
#[local] Existing Instance ex_registry | 5.

Definition mon_leap_ex (on : bool) : monitor := mkmon "out.nc" "seconds" (Some ["T"; "b"]) on [("T", "temp")] false.
Definition schema_leap : schema :=
  mkschema ["temp"; "b"] (fun n => ["x"]) (fun n => if String.eqb n "b" then [("units", "g")] else [("units", "K"); ("note", "n")]).
Definition Ll (d : string) : nat := if String.eqb d "x" then 3 else 2.
Definition run_leap (on : bool) :=
  leap_main_loop 9 cfg_0 prog_l (map beside [after_l]) (to_file ident (mon_leap_ex on)) (3 * second) second (new_leap nu_e half, 0) (([], []), 0) st_l.

Definition good_leapb (m : monitor) (S : state Qc) : bool :=
  grid_stateb Ll S && match prepare ident m S with Ok (t, cs) => fitsb schema_leap cs | Err _ => false end &&
  negb (mem "" (chosen ident m S)) && no_clashesb (m_aliases m) (chosen ident m S).

Lemma good_leapb_ok : forall m S, good_leapb m S = true -> grid_state Ll S /\ conforms ident m schema_leap S /\ aliased ident m S.
Proof.
  intros m S H. apply andb_true_iff in H as (H & H4). apply andb_true_iff in H as (H & H3). apply andb_true_iff in H as (H1 & H2).
  split; [apply grid_stateb_ok; exact H1|]. split; [|split].
  - destruct (prepare ident m S) as [[t cs]|e] eqn:E; [|discriminate]. exists t, cs. split; [exact E|apply fitsb_ok; exact H2].
  - apply negb_true_iff, mem_false in H3. exact H3.
  - apply no_clashesb_ok. exact H4.
Qed.

Lemma run_leap_good : forall on, forallb (good_leapb (mon_leap_ex on)) (snd (fst (run_leap on))) = true.
Proof. intros [|]; vm_compute; reflexivity. Qed.

Definition leap_file (x : ((leap Qc * nat) * ((files Qc * cache_t Qc) * nat) * list (state Qc)) * option (res (state Qc))) : list Z * nat * nat :=
  match x with
  | ((_, ((fs, c), _), log), _) =>
      match dget "out.nc" fs with
      | Some f => (match d_time f with Some tv => t_vals tv | None => [] end,
                   match dget "temp" (d_vars f) with Some v => length (nv_rows v) | None => 0 end, length log)
      | None => ([], 0, length log)
      end
  end.

(** Three passes, each of which leaves a record. *)
Lemma ex_leap_file : forall on, clock (mon_leap_ex on) /\ sc_names schema_leap <> [] /\
  (forall la, In la (m_aliases (mon_leap_ex on)) -> str_in (fst la) "time" = false) /\ has_time 0 st_l /\
  (forall u st u' t d, prog_l u st second = (u', Ok (t, d)) -> ~ In "time" (keys d)) /\ Forall leaves_time [after_l] /\
  file_holds (mon_leap_ex on) Ll [] [] /\ file_clock (T:=Qc) (mon_leap_ex on) [] /\
  (forall S, In S (snd (fst (run_leap on))) -> grid_state Ll S /\ conforms ident (mon_leap_ex on) schema_leap S /\ aliased ident (mon_leap_ex on) S) /\
  leap_file (run_leap true) = ([0; 1; 2]%Z, 3, 3).
Proof.
  intros on. split; [intros r t; eexists; reflexivity|]. split; [discriminate|]. split; [intros la [<-|[]]; reflexivity|]. split; [vm_compute; reflexivity|].
  split; [exact ex_prog_time|]. split; [exact ex_after_time|]. split; [split; [intros ts []|reflexivity]|]. split; [intros f Hf; discriminate|].
  split; [|vm_compute; reflexivity]. intros S HS. apply good_leapb_ok. revert S HS. apply forallb_forall. apply run_leap_good.
Qed.
