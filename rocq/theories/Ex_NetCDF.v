(** Concrete cases for the property theorems about the NetCDF monitors (C53-C57, C67). *)
From Coq Require Import String List Bool Arith ZArith QArith Qcanon Permutation Lia.
From Verif Require Import Prelude PreludeFacts ArithM NdArray NdFacts DataArrayM SpecArrays Checks StrFun NetCDF SpecNetCDF NetCDFKeeps NetCDFMain NetCDFSucceeds
  NetCDFAlias NetCDFRestart Heap HeapNetCDF SpecHeapNetCDF HeapNetCDFFacts Ex_Components.
Import ListNotations.
Open Scope string_scope.
Open Scope nat_scope.
Open Scope list_scope.

(** A library: times in whole seconds, days or hours since the reference, slots of the
    exact shape, and decoding as xarray does it: a variable with units of time becomes a
    timedelta without units. *)
Definition second : Z := 1000000.
Definition unit_of (u : string) : option Z :=
  if String.eqb u "seconds" then Some second else if String.eqb u "hours" then Some (3600 * second)%Z else if String.eqb u "days" then Some (86400 * second)%Z else None.

#[export] Instance ex_lib : NcLib Qc := {
  delta_code := fun u t => match unit_of u with Some k => Ok (Z.quot t k) | None => Err EValue end;
  date_code := fun u r t => match unit_of u with Some k => Ok (Z.quot (t - r) k) | None => Err EValue end;
  date_decode := fun u r z => match unit_of u with Some k => Ok (r + z * k)%Z | None => Err EValue end;
  nc_fit := fun a sh => if list_eq_dec Nat.eq_dec (shape a) sh then Ok a else Err EIndex;
  xr_decode := fun at0 a => match dget "units" at0 with
                            | Some u => match unit_of u with Some _ => Ok (ddel "units" at0, a) | None => Ok (at0, a) end
                            | None => Ok (at0, a)
                            end
}.

Lemma ex_fit : plain_fit ex_lib.
Proof. intros a. cbn. destruct (list_eq_dec _ _ _); [auto|contradiction]. Qed.

Definition ident (l : list string) : list string := l.
Lemma ident_perm : forall l, Permutation (ident l) l.
Proof. intros l. apply Permutation_refl. Qed.

(** ** Checks *)

Definition grid_stateb {T} (L : string -> nat) (st : state T) : bool :=
  nodupb (keys st) && forallb (fun nv => match snd nv with
                                         | VDA a => wf_dab a && (if list_eq_dec Nat.eq_dec (shape (arr a)) (map L (dims a)) then true else false) && negb (mem "time" (dims a))
                                         | VTime _ => true
                                         end) st.

Lemma grid_stateb_ok : forall {T} L (st : state T), grid_stateb L st = true -> grid_state L st.
Proof.
  intros T L st H. apply andb_true_iff in H as (H1 & H2). split. apply nodupb_ok; auto. intros n a Ha. apply dget_In in Ha. rewrite forallb_forall in H2. apply H2 in Ha. cbn [snd] in Ha.
  apply andb_true_iff in Ha as (Ha & H4). apply andb_true_iff in Ha as (Ha & H3). split. apply wf_dab_ok; auto. split. destruct (list_eq_dec _ _ _); auto; discriminate. apply negb_true_iff, mem_false in H4. auto.
Qed.

Definition attrs_dec : forall a b : list (string * string), {a = b} + {a <> b}.
Proof. apply list_eq_dec. intros [a b] [c d]. destruct (string_dec a c), (string_dec b d); subst; auto; right; congruence. Defined.

Definition fitsb {T} (S : schema) (s : dict (pval T)) : bool :=
  forallb (fun n => mem n (sc_names S)) (keys s) && forallb (fun n => mem n (keys s)) (sc_names S) &&
  forallb (fun nv => match snd nv with
                     | VDA a => list_eqb (dims a) (sc_dims S (fst nv)) && negb (Nat.eqb (length (dims a)) 0) && (if attrs_dec (attrs a) (sc_attrs S (fst nv)) then true else false) && nodupb (keys (attrs a))
                     | VTime _ => false
                     end) s.

Lemma fitsb_ok : forall {T} S (s : dict (pval T)), fitsb S s = true -> fits S s.
Proof.
  intros T S s H. apply andb_true_iff in H as (H & H3). apply andb_true_iff in H as (H1 & H2). rewrite forallb_forall in H1, H2, H3. split.
  - intros n. split; intros Hn. apply mem_In; auto. apply mem_In; auto.
  - intros n v Hv. apply dget_In in Hv. apply H3 in Hv. cbn [fst snd] in Hv. destruct v as [a|]; [|discriminate Hv].
    apply andb_true_iff in Hv as (Hv & H4). apply andb_true_iff in Hv as (Hv & H5). apply andb_true_iff in Hv as (H6 & H7). exists a. split; auto. split. apply list_eqb_eq; auto.
    split. { intros E. rewrite E in H7. discriminate H7. } split. destruct (attrs_dec _ _); auto; discriminate. apply nodupb_ok; auto.
Qed.

Fixpoint no_clashb (la : string * string) (ks : list string) : bool :=
  match ks with
  | [] => true
  | k :: r => negb (String.eqb (renamed la k) "") && forallb (fun k' => negb (String.eqb (renamed la k') (renamed la k)) && negb (String.eqb (renamed la k) k')) r && no_clashb la r
  end.
Fixpoint no_clashesb (al : dict string) (ks : list string) : bool :=
  match al with [] => true | la :: r => no_clashb la ks && no_clashesb r (names_after la ks) end.

Lemma no_clashb_ok : forall la ks, no_clashb la ks = true -> no_clash la ks.
Proof.
  intros la ks. induction ks as [|k r IH]; intros H; [exact I|]. cbn in H. apply andb_true_iff in H as (H & H3). apply andb_true_iff in H as (H1 & H2). rewrite forallb_forall in H2. split.
  - intros _ E. rewrite E in H1. discriminate H1.
  - split; auto. intros k' Hk. apply H2, andb_true_iff in Hk as (Ha & Hb). apply negb_true_iff in Ha, Hb. split; intros E; rewrite E, String.eqb_refl in *; discriminate.
Qed.
Lemma no_clashesb_ok : forall al ks, no_clashesb al ks = true -> no_clashes al ks.
Proof. induction al as [|la r IH]; intros ks H; [exact I|]. cbn in H. apply andb_true_iff in H as (H1 & H2). split; auto. apply no_clashb_ok; auto. Qed.

Definition all_ok (os : list (res unit)) : bool := forallb is_ok os.
Lemma all_ok_ok : forall os, all_ok os = true -> Forall (eq (Ok tt)) os.
Proof. intros os H. unfold all_ok in H. rewrite forallb_forall in H. apply Forall_forall. intros [[]|e] Ho; auto. apply H in Ho. discriminate Ho. Qed.

(** ** Monitors *)

Definition Lx (d : string) : nat := if String.eqb d "x" then 2 else if String.eqb d "y" then 3 else 1.
Definition state_at (t : Z) (k : Z) : state Qc :=
  [("air_temperature", VDA (mkda ["x"; "y"] (nd_map (fun v => (v + cz k)%Qc) (cramp [2; 3])) [("units", "K"); ("note", "a")]));
   ("time", VTime t);
   ("wind", VDA (mkda ["y"] (nd_map (fun v => (v + cz k)%Qc) (cramp [3])) [("units", "m s^-1")]))].
Definition schema_ex : schema :=
  mkschema ["air_temperature"; "wind"] (fun n => if String.eqb n "wind" then ["y"] else ["x"; "y"])
    (fun n => if String.eqb n "wind" then [("units", "m s^-1")] else [("units", "K"); ("note", "a")]).
Definition mon_ex (on_store : bool) : monitor := mkmon "out.nc" "seconds" None on_store [] false.
Definition ops_ex : list (mon_op Qc) :=
  [Store (state_at (20 * second) 1); Store (state_at (10 * second) 2); Store (state_at (20 * second) 3); Write; Store (state_at (15 * second) 4); Write; Store (state_at (40 * second) 5)].

Lemma ex_grid : forall on st, In (Store st) ops_ex -> grid_state Lx st /\ conforms ident (mon_ex on) schema_ex st /\ storable ident (mon_ex on) Lx st.
Proof.
  intros on st H. assert (G : forall t k, grid_state Lx (state_at t k) /\ conforms ident (mon_ex on) schema_ex (state_at t k) /\ storable ident (mon_ex on) Lx (state_at t k)).
  { intros t k. assert (Gs : grid_state Lx (state_at t k)) by (apply grid_stateb_ok; reflexivity). split; auto. split.
    - eexists t, _. split; [reflexivity|]. apply fitsb_ok. reflexivity.
    - split; auto. intros t' cs' E. injection E as <- <-. discriminate. }
  cbn [In ops_ex] in H. repeat destruct H as [H|H]; try discriminate H; try (injection H as <-; apply G). destruct H.
Qed.

Lemma ex_clock : forall on, clock (mon_ex on).
Proof. intros on r t. cbn. eauto. Qed.

Lemma ex_monitor_hyps : plain_fit ex_lib /\ clock (mon_ex false) /\ (forall l, Permutation (ident l) l) /\ sc_names schema_ex <> [] /\
  (forall st, In (Store st) ops_ex -> grid_state Lx st /\ conforms ident (mon_ex false) schema_ex st /\ storable ident (mon_ex false) Lx st) /\
  file_holds (mon_ex false) Lx [] [] /\ file_clock (T := Qc) (mon_ex false) [] /\ Forall (fun states => states <> []) (fst (batches false [] ops_ex)) /\
  Forall (eq (Ok tt)) (fst (fst (mon_run ident (mon_ex false) ops_ex [] []))).
Proof.
  split; [exact ex_fit|]. split; [apply ex_clock|]. split; [exact ident_perm|]. split; [discriminate|]. split; [apply ex_grid|]. split; [split; [intros ts []|reflexivity]|]. split; [intros f E; discriminate E|].
  split; [repeat constructor; discriminate|]. apply all_ok_ok. vm_compute. reflexivity.
Qed.

(** What that program leaves: the times 10, 20 and 15, the last state stored for 20. *)
Definition times_of (f : nfile Qc) : list Z := match d_time f with Some tv => t_vals tv | None => [] end.
Definition first_numbers (n : string) (f : nfile Qc) : list (option Qc) :=
  match dget n (d_vars f) with Some v => map (fun r => match r with Some a => Some (at_ a (map (fun _ => 0) (shape a))) | None => None end) (nv_rows v) | None => [] end.
Definition zs_eq (a b : list Z) : bool := if list_eq_dec Z.eq_dec a b then true else false.
Definition numbers_are (l : list (option Qc)) (zs : list Z) : bool :=
  Nat.eqb (length l) (length zs) && forallb (fun p => match fst p with Some q => Qc_eq_bool q (cz (snd p)) | None => false end) (combine l zs).

Lemma ex_monitor_file : match mon_run ident (mon_ex false) ops_ex [] [] with
  | (_, fs, c) => match dget "out.nc" fs with
                  | Some f => zs_eq (times_of f) [0; 10; 5]%Z && numbers_are (first_numbers "wind" f) [2; 3; 4]%Z && Nat.eqb (length c) 1
                  | None => false
                  end
  end = true.
Proof. vm_compute. reflexivity. Qed.

(** C53: units of the later states of a batch are not looked at. *)
Definition celsius (t : Z) : state Qc := [("air_temperature", VDA (mkda ["x"] (cramp [2]) [("units", "degC")])); ("time", VTime t)].
Definition kelvin (t : Z) : state Qc := [("air_temperature", VDA (mkda ["x"] (cramp [2]) [("units", "K")])); ("time", VTime t)].
Lemma ex_units_ignored : exists fs c f v a, mon_run ident (mon_ex false) [Store (kelvin 0); Store (celsius second); Write] [] [] = ([Ok tt; Ok tt; Ok tt], fs, c) /\
  dget "out.nc" fs = Some f /\ dget "air_temperature" (d_vars f) = Some v /\ dget "air_temperature" (celsius second) = Some (VDA a) /\
  dget "units" (attrs a) = Some "degC" /\ dget "units" (nv_attrs v) = Some "K" /\ nth 1 (nv_rows v) None = Some (arr a).
Proof. do 5 eexists. split; [vm_compute; reflexivity|]. split; [reflexivity|]. split; [reflexivity|]. split; [reflexivity|]. split; [reflexivity|]. split; [reflexivity|]. vm_compute. reflexivity. Qed.

(** C54: a quantity whose dims have changed.  The times are in the file, the rows are not;
    every further attempt adds the time again. *)
Definition other_dims (t : Z) : state Qc := [("air_temperature", VDA (mkda ["y"] (cramp [3]) [("units", "K")])); ("time", VTime t)].
Definition bad_ops : list (mon_op Qc) := [Store (kelvin 0); Write; Store (other_dims second); Write; Write].
Lemma ex_failed_write : match mon_run ident (mon_ex false) bad_ops [] [] with
  | (os, fs, c) => match os with [Ok _; Ok _; Ok _; Err EIO; Err EIO] => true | _ => false end &&
                   match dget "out.nc" fs with
                   | Some f => zs_eq (times_of f) [0; 1; 1]%Z && numbers_are (first_numbers "air_temperature" f) [0]%Z
                   | None => false
                   end
  end = true.
Proof. vm_compute. reflexivity. Qed.

Lemma ex_failed_write_refuted : exists (m : monitor) (fs : files Qc) c f f' fs' c', dget (m_file m) fs = Some f /\ NetCDF.write m fs c = (Err EIO, fs', c') /\ dget (m_file m) fs' = Some f' /\
  n_times f' <> n_times f /\ exists f'' fs'' c'', NetCDF.write m fs' c' = (Err EIO, fs'', c'') /\ dget (m_file m) fs'' = Some f'' /\ n_times f'' <> n_times f'.
Proof.
  exists (mon_ex false). destruct (mon_run ident (mon_ex false) [Store (kelvin 0); Write] [] []) as [[os fs] c0] eqn:E. exists fs, [(second, ddel "time" (other_dims second))].
  vm_compute in E. injection E as _ <- _. do 4 eexists. split; [reflexivity|]. split; [vm_compute; reflexivity|]. split; [reflexivity|]. split; [vm_compute; discriminate|].
  do 3 eexists. split; [vm_compute; reflexivity|]. split; [reflexivity|]. vm_compute. discriminate.
Qed.

(** A quantity without dims. *)
Definition scalar (t : Z) : state Qc := [("pressure", VDA (mkda [] (cramp []) [("units", "Pa")])); ("time", VTime t)].
Lemma ex_scalar : match mon_run ident (mon_ex true) [Store (scalar 0)] [] [] with
  | (os, fs, c) => match os with [Err EIndex] => true | _ => false end && match dget "out.nc" fs with Some f => zs_eq (times_of f) [0]%Z | None => false end
  end = true.
Proof. vm_compute. reflexivity. Qed.

(** ** Restart files *)

Definition lone (t : Z) (k : Z) : state Qc := [("time", VTime t); ("x_wind", VDA (mkda ["x"; "y"] (nd_map (fun v => (v + cz k)%Qc) (cramp [2; 3])) [("units", "m s^-1")]))].
Definition restart_ok (r : res unit * files Qc) : bool := match r with (Ok _, _) => true | _ => false end.

Lemma ex_restart_hyps : forall t k, plain_fit ex_lib /\ clock (restart_monitor "r.nc" false) /\ grid_state Lx (lone t k) /\ (exists n, n <> "time" /\ In n (keys (lone t k))) /\ ~ In "" (keys (lone t k)) /\
  dget "time" (lone t k) = Some (VTime t) /\ (forall n v, dget n (lone t k) = Some v -> n <> "time" -> exists a, v = VDA a /\ dims a <> [] /\ NoDup (keys (attrs a))) /\
  (forall n a n' a', dget n (lone t k) = Some (VDA a) -> dget n' (lone t k) = Some (VDA a') -> ~ In n (dims a')) /\
  (forall n a, dget n (lone t k) = Some (VDA a) -> xr_decode (attrs a) (arr a) = Ok (attrs a, arr a)) /\
  (forall t0 z, dget "time" (lone t k) = Some (VTime t0) -> date_code "seconds" t0 t0 = Ok z -> date_decode "seconds" t0 z = Ok t0).
Proof.
  intros t k. split; [exact ex_fit|]. split; [intros r t'; cbn; eauto|]. split; [apply grid_stateb_ok; reflexivity|]. split; [exists "x_wind"; split; [discriminate|cbn; auto]|].
  split; [intros [H|[H|[]]]; discriminate H|]. split; [reflexivity|].
  assert (Hq : forall n a, dget n (lone t k) = Some (VDA a) -> n = "x_wind" /\ dims a = ["x"; "y"] /\ attrs a = [("units", "m s^-1")]).
  { intros n a H. apply dget_In in H. destruct H as [H|[H|[]]]; [discriminate H|]. injection H as <- <-. auto. }
  split.
  { intros n v H Hn. apply dget_In in H. destruct H as [H|[H|[]]]. { injection H as <- _. contradiction Hn; auto. } injection H as <- <-. eexists. split; [reflexivity|]. split; [discriminate|]. apply nodupb_ok. reflexivity. }
  split. { intros n a n' a' H H'. apply Hq in H as (-> & _). apply Hq in H' as (_ & -> & _). intros [H|[H|[]]]; discriminate H. }
  split. { intros n a H. apply Hq in H as (_ & _ & ->). reflexivity. }
  intros t0 z _ H. cbn in H. injection H as <-. cbn. f_equal. rewrite Z.sub_diag. cbn. lia.
Qed.

(** A store that returns, one that dies between the two renames, the removal of the new
    file, one more store. *)
Lemma ex_restart_history : exists fs1 fs2 fs4, restart_store "r.nc" false (lone 0 1) [] = (Ok tt, fs1) /\ crash_points "r.nc" false (lone second 2) fs1 fs2 /\ dget "r.nc" fs2 = None /\
  restart_store "r.nc" false (lone (2 * second) 3) (ddel (new_name "r.nc") fs2) = (Ok tt, fs4) /\
  restart_history "r.nc" false [] [(lone 0 1, true); (lone second 2, false); (lone (2 * second) 3, true)] fs4.
Proof.
  destruct (restart_store "r.nc" false (lone 0 1) []) as [r1 fs1] eqn:E1. assert (r1 = Ok tt) by (vm_compute in E1; injection E1 as <- _; auto). subst r1.
  destruct (write_new "r.nc" false (lone second 2) fs1) as [r2 fs1'] eqn:E2. assert (r2 = Ok tt) by (vm_compute in E1; injection E1 as <-; vm_compute in E2; injection E2 as <- _; auto). subst r2.
  exists fs1, (backup "r.nc" fs1'). destruct (restart_store "r.nc" false (lone (2 * second) 3) (ddel (new_name "r.nc") (backup "r.nc" fs1'))) as [r4 fs4] eqn:E4.
  assert (r4 = Ok tt) by (vm_compute in E1; injection E1 as <-; vm_compute in E2; injection E2 as <-; vm_compute in E4; injection E4 as <- _; auto). subst r4. exists fs4.
  assert (C : crash_points "r.nc" false (lone second 2) fs1 (backup "r.nc" fs1')). { right. right. exists fs1'. split; auto. }
  split; auto. split; auto. split. { vm_compute in E1; injection E1 as <-; vm_compute in E2; injection E2 as <-. vm_compute. reflexivity. } split; auto.
  pose proof (rh_store "r.nc" false [] [] [] (lone 0 1) (Ok tt) fs1 (rh_start _ _ _) E1) as H1. pose proof (rh_crash _ _ _ _ _ _ _ H1 C) as H2. apply rh_remove in H2.
  exact (rh_store _ _ _ _ _ _ (Ok tt) _ H2 E4).
Qed.

(** C55: dying between the renames, there is no file under its own name; load() fails. *)
Lemma ex_restart_missing : exists fs1 fs2, restart_store "r.nc" false (lone 0 1) [] = (Ok tt, fs1) /\ crash_points "r.nc" false (lone second 2) fs1 fs2 /\ dget "r.nc" fs2 = None /\ NetCDF.load "r.nc" fs2 = Err EIO.
Proof. destruct ex_restart_history as (fs1 & fs2 & fs4 & H1 & H2 & H3 & _). exists fs1, fs2. split; auto. split; auto. split; auto. unfold NetCDF.load. rewrite H3. auto. Qed.

(** A quantity without dims: store() raises and leaves a new file, after which no state can
    be stored. *)
Lemma ex_restart_blocked : exists e fs1, restart_store "r.nc" false (scalar 0) [] = (Err e, fs1) /\ forall st fs2 r, restart_store "r.nc" false st fs1 = (r, fs2) -> r = Err EIO /\ fs2 = fs1.
Proof.
  destruct (restart_store "r.nc" false (scalar 0) []) as [r1 fs1] eqn:E1. vm_compute in E1. injection E1 as <- <-. do 2 eexists. split; [reflexivity|].
  intros st fs2 r H. cbn in H. injection H as <- <-. auto.
Qed.

(** C56: names that are dims, timedeltas, and units of time. *)
Definition named_dim : state Qc := [("time", VTime 0); ("x", VDA (mkda ["x"] (cramp [2]) [("units", "m")]))].
Lemma ex_restart_dim : exists fs, restart_store "r.nc" false named_dim [] = (Ok tt, fs) /\ NetCDF.load "r.nc" fs = Err EValue.
Proof. eexists. split; [vm_compute; reflexivity|]. vm_compute. reflexivity. Qed.

Lemma ex_restart_delta : exists fs, restart_store "r.nc" true (lone 0 1) [] = (Ok tt, fs) /\ NetCDF.load "r.nc" fs = Err EType.
Proof. eexists. split; [vm_compute; reflexivity|]. vm_compute. reflexivity. Qed.

Definition coordinate : state Qc := [("time", VTime 0); ("x", VDA (mkda ["y"] (cramp [3]) [("units", "m")])); ("u", VDA (mkda ["x"] (cramp [2]) [("units", "m")]))].
Lemma ex_restart_coord : exists fs st', restart_store "r.nc" false coordinate [] = (Ok tt, fs) /\ NetCDF.load "r.nc" fs = Ok st' /\ dget "x" st' = None /\ dget "x" coordinate <> None.
Proof. do 2 eexists. split; [vm_compute; reflexivity|]. split; [vm_compute; reflexivity|]. split; [reflexivity|]. discriminate. Qed.

Definition lifetime : state Qc := [("time", VTime 0); ("lifetime", VDA (mkda ["x"] (cramp [2]) [("units", "days")]))].
Lemma ex_restart_units : exists fs st' a, restart_store "r.nc" false lifetime [] = (Ok tt, fs) /\ NetCDF.load "r.nc" fs = Ok st' /\ dget "lifetime" st' = Some (VDA a) /\ dget "units" (attrs a) = None.
Proof. do 3 eexists. split; [vm_compute; reflexivity|]. split; [vm_compute; reflexivity|]. split; [reflexivity|]. reflexivity. Qed.

(** ** Aliases *)

Definition mon_alias (al : dict string) (names : option (list string)) : monitor := mkmon "out.nc" "seconds" names false al false.
Definition al_ex : dict string := [("air_temperature", "T"); ("_flux", "F"); ("T", "temp")].
Definition st_alias : state Qc :=
  [("air_temperature", VTime 1); ("air_temperature_tendency", VTime 2); ("time", VTime 9); ("heat_flux", VTime 3); ("wind", VTime 4)].

Lemma ex_alias_hyps : NoDup (keys st_alias) /\ dget "time" st_alias = Some (VTime 9) /\ ~ In "" (chosen ident (mon_alias al_ex None) st_alias) /\
  no_clashes al_ex (chosen ident (mon_alias al_ex None) st_alias) /\ (forall la, In la al_ex -> str_in (fst la) "time" = false) /\
  map (final_name al_ex) (keys st_alias) = ["temp"; "temp_tendency"; "time"; "heatF"; "wind"].
Proof.
  split; [apply nodupb_ok; reflexivity|]. split; [reflexivity|]. split. { intros H. cbn in H. repeat destruct H as [H|H]; try discriminate H. destruct H. }
  split; [apply no_clashesb_ok; reflexivity|].
  split; [|reflexivity]. intros la H. cbn in H. repeat destruct H as [<-|H]; try reflexivity. destruct H.
Qed.

(** C57: two names with the same alias; an alias that makes one name into another that is
    still to be renamed; and 'time'. *)
Definition two_winds : state Qc := [("time", VTime 0); ("wind_a", VTime 1); ("wind_b", VTime 2)].
Lemma ex_alias_same : exists cs, prepare ident (mon_alias [("wind_a", "wind"); ("wind_b", "wind")] None) two_winds = Ok (0%Z, cs) /\ cs = [("wind", VTime 2)].
Proof. eexists. split; reflexivity. Qed.

Definition winds : state Qc := [("time", VTime 0); ("u", VTime 1); ("uu", VTime 2)].
Lemma ex_alias_order : exists cs, prepare ident (mon_alias [("u", "uu")] None) winds = Ok (0%Z, cs) /\ cs = [("uuuu", VTime 1)] /\
  NoDup (map (final_name [("u", "uu")]) (keys winds)).
Proof. eexists. split; [reflexivity|]. split; [reflexivity|]. apply nodupb_ok. reflexivity. Qed.

Lemma ex_alias_time : prepare ident (mon_alias [("m", "M")] None) two_winds = Err EKey.
Proof. reflexivity. Qed.

(** ** Memory *)

Definition shared : dict (pval nat) := [("time", VTime 0); ("u", VDA (mkda ["x"] (mknd [2] [0; 1]) [("units", "m")]))].
Definition mem0 : heap Qc := [cz 1; cz 2; cz 3].
Definition mem1 : heap Qc := [cz 7; cz 2; cz 3].
Definition mem2 : heap Qc := [cz 1; cz 2; cz 8].
Definition file_numbers (fs : files Qc) : list (option Qc) := match dget "out.nc" fs with Some f => first_numbers "u" f | None => [] end.

Lemma ex_disturbed : exists fs fs' c c', ref_run ident (mon_ex false) [RStore shared; RMemory mem1; RWrite] mem0 [] [] = ([Ok tt; Ok tt], fs, c) /\
  mon_run ident (mon_ex false) (at_store mem0 [RStore shared; RMemory mem1; RWrite]) [] [] = ([Ok tt; Ok tt], fs', c') /\ fs <> fs'.
Proof.
  do 4 eexists. split; [vm_compute; reflexivity|]. split; [vm_compute; reflexivity|].
  intros E. apply (f_equal (fun fs => numbers_are (file_numbers fs) [7]%Z)) in E. vm_compute in E. discriminate E.
Qed.

Lemma ex_undisturbed : undisturbed false [] mem0 [RStore shared; RMemory mem2; RWrite; RMemory mem1; RStore shared; RWrite] /\
  Forall (eq (Ok tt)) (fst (fst (ref_run ident (mon_ex false) [RStore shared; RMemory mem2; RWrite; RMemory mem1; RStore shared; RWrite] mem0 [] []))).
Proof.
  split. { cbn [undisturbed]. split; [|split; [intros x []|auto]]. intros x H. cbn in H. repeat destruct H as [<-|H]; try reflexivity. destruct H. }
  apply all_ok_ok. vm_compute. reflexivity.
Qed.

Lemma ex_on_store : Forall (eq (Ok tt)) (fst (fst (ref_run ident (mon_ex true) [RStore shared; RMemory mem1; RStore shared] mem0 [] []))) /\
  match ref_run ident (mon_ex true) [RStore shared; RMemory mem1; RStore shared] mem0 [] [] with (_, fs, _) => numbers_are (file_numbers fs) [1; 7]%Z end = true.
Proof. split. apply all_ok_ok. vm_compute. reflexivity. vm_compute. reflexivity. Qed.
