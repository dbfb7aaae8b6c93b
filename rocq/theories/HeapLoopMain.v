(** Runs of a model in memory (C99): proofs. *)
From Coq Require Import String List Bool Arith ZArith QArith Lia.
From Verif Require Import Prelude ArithM NdArray Units DataArrayM Heap GetNp Components Composite Steppers Basic Tracers StrFun NetCDF HeapNetCDF HeapNetCDFFacts HeapCalls HeapCallsMain
  SpecHeap SpecHeapCalls MainLoop HeapLoop SpecRunFile SpecHeapLoop HeapFacts HeapComposite HeapSteppers.
Import ListNotations.
Open Scope string_scope.
Open Scope nat_scope.
Open Scope list_scope.

Section Main.
  Context {T : Type} {A : Arith T} {R : Registry}.

  Lemma h_time_load : forall (h : heap T) st, state_time (load_state h st) = h_state_time st.
  Proof. intros h st. unfold state_time, h_state_time, dgetE. rewrite dget_load_state. destruct (dget "time" st) as [[a|t]|]; reflexivity. Qed.

  Lemma load_as_state : forall (h : heap T) d, load_state h (h_as_state d) = as_state (load_dict h d).
  Proof. intros h d. unfold load_state, h_as_state, as_state, load_dict. rewrite !map_map. reflexivity. Qed.

  Lemma as_state_cells : forall d c, state_cells (h_as_state d) c -> cells_of d c.
  Proof.
    intros d c (k & a & K & Kc). apply in_map_iff in K as ((k', a') & E & K). injection E as <- <-. exists k', a'. auto.
  Qed.

  Lemma load_dupdate : forall (h : heap T) d2 d1, load_state h (dupdate d1 d2) = dupdate (load_state h d1) (load_state h d2).
  Proof.
    intros h. unfold dupdate. induction d2 as [|[k v] d2 IH]; intros d1; auto.
    change (load_state h ((k, v) :: d2)) with ((k, load_val h v) :: load_state h d2). cbn [fold_left fst snd]. rewrite IH, load_state_dset. reflexivity.
  Qed.

  Lemma dset_cells : forall k v st c, state_cells (dset k v st) c -> (exists a, v = HDA a /\ In c (h_cells a)) \/ state_cells st c.
  Proof.
    intros k v st c (j & a & K & Kc). apply In_dset in K as [(-> & E)|K]; [left; exists a; auto|right; exists j, a; auto].
  Qed.

  Lemma dupdate_cells : forall d2 d1 c, state_cells (dupdate d1 d2) c -> state_cells d1 c \/ state_cells d2 c.
  Proof.
    unfold dupdate. induction d2 as [|[k v] d2 IH]; intros d1 c K; auto. cbn [fold_left fst snd] in K.
    apply IH in K as [K|(j & a & K & Kc)].
    - apply dset_cells in K as [(a & -> & Kc)|K]; auto. right. exists k, a. split; auto. left. reflexivity.
    - right. exists j, a. split; auto. right. exact K.
  Qed.

  Lemma load_update_all : forall (h : heap T) ds st, load_state h (h_update_all ds st) = update_all (map (load_dict h) ds) (load_state h st).
  Proof.
    intros h. unfold h_update_all, update_all. induction ds as [|d ds IH]; intros st; auto. cbn [fold_left map]. rewrite IH, load_dupdate, load_as_state. reflexivity.
  Qed.

  Lemma update_all_cells : forall ds st c, state_cells (h_update_all ds st) c -> state_cells st c \/ exists d, In d ds /\ cells_of d c.
  Proof.
    unfold h_update_all. induction ds as [|d ds IH]; intros st c K; auto. cbn [fold_left] in K.
    apply IH in K as [K|(d' & Kd & K)]; [|right; exists d'; split; auto; right; auto].
    apply dupdate_cells in K as [K|K]; auto. right. exists d. split; [left; auto|apply as_state_cells; auto].
  Qed.

  Lemma time_cells : forall t st c, state_cells (dset "time" (HTime t) st) c -> state_cells st c.
  Proof. intros t st c K. apply dset_cells in K as [(a & E & _)|K]; [discriminate E|exact K]. Qed.

  Section Run.
    Context {WH WV : Type} (J : invariant (T:=T) WH WV).
    Variables (hps : list (hprocess T WH)) (ps : list (process (T:=T) WV)).
    Hypothesis Hps : Forall2 (process_like J) hps ps.

    Lemma run_processes_like : forall (X : cells) h w v st dt w' h' r,
      J X h w v -> (forall x, X x -> x < length h) -> state_in h st -> avoids (state_cells st) X ->
      h_run_processes hps w h st dt = ((w', h'), r) ->
      grown h h' /\
      (exists v', run_processes ps v (load_state h st) dt =
                    (v', match r with Ok (ds, next) => Ok (map (load_dict h') ds, load_state h' next) | Err e => Err e end) /\ J X h' w' v') /\
      match r with
      | Ok (ds, next) => (forall d, In d ds -> dict_in h' d /\ avoids (cells_of d) X) /\ state_in h' next /\ avoids (state_cells next) X
      | Err _ => True
      end.
    Proof.
      induction Hps as [|hp p hps' ps' Hp Hf IH]; intros X h w v st dt w' h' r HJ HX Hi Hx H; cbn [h_run_processes run_processes] in *.
      - injection H as <- <- <-. split. apply grown_refl. split. { exists v. auto. } split; [intros d []|auto].
      - destruct (hp w h st dt) as [[w1 h1] r1] eqn:E1. destruct (Hp X h w v st dt w1 h1 r1 HJ HX Hi Hx E1) as (G1 & (v1 & V1 & J1) & O1).
        destruct r1 as [[d st1]|e]; cbn [load_stepped] in V1.
        + destruct O1 as (O1 & O2 & O3 & O4). destruct (h_run_processes hps' w1 h1 st1 dt) as [[w2 h2] r2] eqn:E2.
          assert (HX1 : forall x, X x -> x < length h1). { intros x Kx. apply HX in Kx. apply grown_length in G1. lia. }
          destruct (IH Hf X h1 w1 v1 st1 dt w2 h2 r2 J1 HX1 O2 O4 E2) as (G2 & (v2 & V2 & J2) & P2).
          injection H as <- <- <-. split. exact (grown_trans _ _ _ G1 G2). rewrite V1, V2. split.
          * exists v2. split; auto. destruct r2 as [[ds next]|e]; auto. cbn [bind fst snd map]. do 4 f_equal. symmetry. apply load_dict_grown; auto.
          * destruct r2 as [[ds next]|e]; auto. cbn [bind fst snd]. destruct P2 as (P2 & P3). split; auto. intros d' [<-|K]; auto. split; auto. exact (dict_in_grown _ _ _ G2 O1).
        + injection H as <- <- <-. split; auto. rewrite V1. split; auto. exists v1. auto.
    Qed.

    Variables (hstore : hmonitor T WH) (store : WV -> state T -> WV * res unit).
    Hypothesis Hst : monitor_like J hstore store.

    (** C99: the whole run. *)
    Lemma main_heap_run : forall n stop dt (X : cells) h w v st w' h' log r,
      J X h w v -> (forall x, X x -> x < length h) -> state_in h st -> avoids (state_cells st) X ->
      h_main_loop n hps hstore stop dt w h st = ((w', h', log), r) ->
      grown h h' /\
      (exists v', main_loop n ps store stop dt v (load_state h st) = ((v', map (load_state h') log), load_end h' r) /\ J X h' w' v') /\
      (forall S, In S log -> state_in h' S /\ avoids (state_cells S) X) /\ end_in X h' r.
    Proof.
      induction n as [|n IH]; intros stop dt X h w v st w' h' log r HJ HX Hi Hx H; cbn [h_main_loop main_loop] in *.
      - injection H as <- <- <- <-. split. apply grown_refl. split. { exists v. auto. } split. intros S []. intros s E. discriminate E.
      - rewrite h_time_load. destruct (h_state_time st) as [t|e].
        2: { injection H as <- <- <- <-. split. apply grown_refl. split. { exists v. auto. } split. intros S []. intros s E. discriminate E. }
        destruct (t <? stop)%Z.
        2: { injection H as <- <- <- <-. split. apply grown_refl. split. { exists v. auto. } split. intros S []. intros s E. injection E as <-. auto. }
        destruct (h_run_processes hps w h st dt) as [[w1 h1] r1] eqn:E1.
        destruct (run_processes_like X h w v st dt w1 h1 r1 HJ HX Hi Hx E1) as (G1 & (v1 & V1 & J1) & O1). rewrite V1.
        destruct r1 as [[ds next]|e].
        2: { injection H as <- <- <- <-. split; auto. split. { exists v1. auto. } split. intros S []. intros s E. discriminate E. }
        destruct O1 as (O1 & O2 & O3).
        assert (HX1 : forall x, X x -> x < length h1). { intros x Kx. apply HX in Kx. apply grown_length in G1. lia. }
        pose proof (state_in_grown _ _ _ G1 Hi) as Hi1.
        assert (Si : state_in h1 (h_update_all ds st)).
        { intros c Kc. apply update_all_cells in Kc as [Kc|(d & Kd & Kc)]; auto. apply O1 in Kd as (Kd & _). auto. }
        assert (Sx : avoids (state_cells (h_update_all ds st)) X).
        { intros c Kc. apply update_all_cells in Kc as [Kc|(d & Kd & Kc)]; auto. apply O1 in Kd as (_ & Kd). auto. }
        assert (Sv : update_all (map (load_dict h1) ds) (load_state h st) = load_state h1 (h_update_all ds st)).
        { rewrite load_update_all. f_equal. symmetry. apply load_state_grown; auto. }
        rewrite Sv. set (st1 := h_update_all ds st) in *.
        destruct (hstore w1 h1 st1) as [[w2 h2] r2] eqn:E2.
        destruct (Hst X h1 w1 v1 st1 w2 h2 r2 J1 HX1 Si Sx E2) as (G2 & v2 & V2 & J2). rewrite V2.
        pose proof (grown_trans _ _ _ G1 G2) as G12.
        destruct r2 as [u|e].
        2: { injection H as <- <- <- <-. split; auto. split. { exists v2. split; auto. cbn [map load_end]. do 3 f_equal. symmetry. apply load_state_grown; auto. }
             split. intros S [<-|[]]. split; auto. exact (state_in_grown _ _ _ G2 Si). intros s E. discriminate E. }
        rewrite h_time_load. destruct (h_state_time st1) as [t1|e].
        2: { injection H as <- <- <- <-. split; auto. split. { exists v2. split; auto. cbn [map load_end]. do 3 f_equal. symmetry. apply load_state_grown; auto. }
             split. intros S [<-|[]]. split; auto. exact (state_in_grown _ _ _ G2 Si). intros s E. discriminate E. }
        destruct (h_main_loop n hps hstore stop dt w2 h2 (dset "time" (HTime (t1 + dt)) next)) as [[[w3 h3] log3] r3] eqn:E3.
        injection H as <- <- <- <-.
        assert (Ni : state_in h2 (dset "time" (HTime (t1 + dt)) next)).
        { intros c Kc. apply time_cells in Kc. exact (state_in_grown _ _ _ G2 O2 c Kc). }
        assert (Nx : avoids (state_cells (dset "time" (HTime (t1 + dt)) next)) X).
        { intros c Kc. apply time_cells in Kc. auto. }
        assert (HX2 : forall x, X x -> x < length h2). { intros x Kx. apply HX1 in Kx. apply grown_length in G2. lia. }
        destruct (IH stop dt X h2 w2 v2 _ w3 h3 log3 r3 J2 HX2 Ni Nx E3) as (G3 & (v3 & V3 & J3) & L3 & F3).
        rewrite load_state_dset in V3. cbn [load_val] in V3. rewrite (load_state_grown h1 h2 next) in V3 by auto. rewrite V3.
        split. exact (grown_trans _ _ _ G12 G3). split.
        { exists v3. split; auto. cbn [map]. do 3 f_equal. symmetry. apply load_state_grown; auto. exact (grown_trans _ _ _ G2 G3). }
        split; auto. intros S [<-|K]; auto. split; auto. exact (state_in_grown _ _ _ (grown_trans _ _ _ G2 G3) Si).
    Qed.
  End Run.

  (** ** The objects *)

  Lemma main_ab_like : forall {UH UV} (I : invariant (T:=T) UH UV) prog vprog cfg, stable I -> behaves I prog vprog ->
    process_like (ab_inv I) (h_adams_bashforth cfg prog) (adams_bashforth cfg vprog).
  Proof.
    intros UH UV I prog vprog cfg HI Hb X h w v st dt [a' u'] h' r HJ HX Hi Hx H.
    exact (main_ab_memory I HI prog vprog Hb cfg X h w v st dt a' u' h' r HJ HX Hi Hx H).
  Qed.

  Lemma main_rk_like : forall {UH UV} (I : invariant (T:=T) UH UV) prog vprog cfg, stable I -> behaves I prog vprog ->
    process_like (rk_inv I) (h_ssp_rk cfg prog) (ssp_rk cfg vprog).
  Proof.
    intros UH UV I prog vprog cfg HI Hb X h w v st dt [a' u'] h' r HJ HX Hi Hx H.
    exact (main_rk_memory I HI prog vprog Hb cfg X h w v st dt a' u' h' r HJ HX Hi Hx H).
  Qed.

  Lemma main_stepper_like : forall {UH UV} (I : invariant (T:=T) UH UV) cp g c hac ac, stable I ->
    array_behaves_if True load_outs both I hac ac ->
    process_like I (h_stepper_process cp g c hac) (stepper_process g c ac).
  Proof.
    intros UH UV I cp g c hac ac HI Hb X h w v st dt w' h' r HJ HX Hi Hx H. unfold h_stepper_process in H.
    destruct (h_stepper_call cp g c hac w h st dt) as [[w1 h1] r1] eqn:E. injection H as <- <- <-.
    destruct (main_stepper_behaves cp True I g c hac ac HI Hb X h w v st dt w1 h1 r1 HJ HX Hi (fun _ => Hx) E) as (G & (v1 & V1 & J1) & O).
    split; auto. unfold stepper_process. rewrite V1. split.
    - exists v1. split; auto. f_equal. destruct r1 as [[d new]|e]; auto. cbn [rmap bind load_stepped load_pair_dicts fst snd]. rewrite load_as_state. reflexivity.
    - destruct r1 as [[d new]|e]; [|exact Logic.I]. cbn [bind fst snd step_out_in].
      destruct (O d) as (O1 & _ & O2); [left; auto|]. destruct (O new) as (O3 & _ & O4); [right; left; auto|].
      split; auto. split; [|split; auto].
      + intros x K. apply O3. apply as_state_cells. auto.
      + intros x K. apply O4. apply as_state_cells. auto.
  Qed.

  Lemma main_beside_like : forall {SH SV UH UV} (J : invariant (T:=T) SH SV) (I : invariant (T:=T) UH UV) hp p, stable J ->
    process_like I hp p -> process_like (both_inv J I) (h_beside hp) (beside p).
  Proof.
    intros SH SV UH UV J I hp p HJ Hp X h [s u] [vs vu] st dt w' h' r (K1 & K2) HX Hi Hx H. cbn [fst snd] in K1, K2. unfold h_beside in H. cbn [fst snd] in H.
    destruct (hp u h st dt) as [[u1 h1] r1] eqn:E. injection H as <- <- <-.
    destruct (Hp X h u vu st dt u1 h1 r1 K2 HX Hi Hx E) as (G & (v1 & V1 & J1) & O). split; auto. split; auto.
    exists (vs, v1). unfold beside. cbn [fst snd]. rewrite V1. split; auto. split; auto. cbn [fst snd].
    apply (HJ X X h h1 s vs K1). apply grown_changed; auto. auto.
  Qed.

  Lemma main_first_like : forall {SH SV UH UV} (J : invariant (T:=T) SH SV) (I : invariant (T:=T) UH UV) hp p, stable I ->
    process_like J hp p -> process_like (both_inv J I) (h_first hp) (first_of p).
  Proof.
    intros SH SV UH UV J I hp p HI Hp X h [s u] [vs vu] st dt w' h' r (K1 & K2) HX Hi Hx H. cbn [fst snd] in K1, K2. unfold h_first in H. cbn [fst snd] in H.
    destruct (hp s h st dt) as [[s1 h1] r1] eqn:E. injection H as <- <- <-.
    destruct (Hp X h s vs st dt s1 h1 r1 K1 HX Hi Hx E) as (G & (v1 & V1 & J1) & O). split; auto. split; auto.
    exists (v1, vu). unfold first_of. cbn [fst snd]. rewrite V1. split; auto. split; auto. cbn [fst snd].
    apply (HI X X h h1 u vu K2). apply grown_changed; auto. auto.
  Qed.

  (** The invariants of the steppers are stable, so that they can be objects of a program. *)
  Lemma ab_stable : forall {UH UV} (I : invariant (T:=T) UH UV), stable I -> stable (ab_inv I).
  Proof.
    intros UH UV I HI X X' h h' s v (K1 & K2 & K3) C HX. split; [|split].
    - rewrite K1. unfold load_ab. f_equal. apply map_ext_in. intros d Hd. destruct (K3 d Hd) as (K4 & K5). symmetry. exact (load_changed_dict _ _ _ _ C K4 K5).
    - exact (HI X X' h h' _ _ K2 C HX).
    - intros d Hd. destruct (K3 d Hd) as (K4 & K5). split.
      + intros c Kc. apply K4 in Kc. destruct C. lia.
      + intros c Kc Kx. apply (K5 c Kc). apply HX; auto.
  Qed.

  Lemma rk_stable : forall {UH UV} (I : invariant (T:=T) UH UV), stable I -> stable (rk_inv I).
  Proof.
    intros UH UV I HI X X' h h' s v (K1 & K2) C HX. split; auto. exact (ab_stable I HI X X' h h' _ _ K2 C HX).
  Qed.

  Lemma both_stable : forall {SH SV UH UV} (J : invariant (T:=T) SH SV) (I : invariant (T:=T) UH UV), stable J -> stable I -> stable (both_inv J I).
  Proof.
    intros SH SV UH UV J I HJ HI X X' h h' s v (K1 & K2) C HX. split; [exact (HJ X X' h h' _ _ K1 C HX)|exact (HI X X' h h' _ _ K2 C HX)].
  Qed.
End Main.

Section File.
  Context {T : Type} {A : Arith T} {N : NcLib T}.

  Lemma load_refs_state : forall (h : heap T) st, load_refs h (refs_state st) = load_state h st.
  Proof.
    intros h st. unfold load_refs, refs_state, load_state. rewrite map_map. apply map_ext. intros [k [a|t]]; reflexivity.
  Qed.

  Lemma file_stable : stable (T:=T) file_inv.
  Proof.
    intros X X' h h' u v (-> & K) C HX. split.
    - f_equal. symmetry. apply HeapNetCDFFacts.load_same. intros x Kx. unfold cache_cells in Kx. apply in_flat_map in Kx as ([t s] & Ks & Kx).
      apply in_flat_map in Kx as ([n [a|t']] & Kn & Kx); [|destruct Kx]. cbn [snd] in *. destruct (K t s n a x Ks Kn Kx) as (K1 & K2). apply C; auto.
    - intros t s n a c Ks Kn Kc. destruct (K t s n a c Ks Kn Kc) as (K1 & K2). destruct C as (C1 & _). split. lia. intros Kx. apply K2. auto.
  Qed.

  Lemma main_file_like : forall {UH UV} (I : invariant (T:=T) UH UV) ord m,
    monitor_like (both_inv file_inv I) (h_to_file ord m) (to_file ord m).
  Proof.
    intros UH UV I ord m X h [[fs c] u] [[vfs vc] vu] st w' h' r ((K1 & K2) & K3) HX Hi Hx H. cbn [fst snd] in *. injection K1 as -> ->.
    unfold h_to_file in H. cbn [fst snd ref_step] in H. unfold to_file, NetCDF.store. cbn [fst snd]. rewrite <- load_refs_state, prepare_refs.
    destruct (prepare ord m (refs_state st)) as [[t cs]|e] eqn:Ep; cbn [res_vals fst snd].
    2: { injection H as <- <- <-. split. apply grown_refl. exists ((fs, load_cache h c), vu). split; auto. split; auto. split; auto. }
    rewrite cache_add_refs.
    assert (Kin : forall t' s n a x, In (t', s) (cache_add t cs c) -> In (n, VDA a) s -> In x (data (arr a)) -> x < length h /\ ~ X x).
    { intros t' s n a x Ks Kn Kx. assert (Kc : In x (cache_cells (cache_add t cs c))).
      { apply in_flat_map. exists (t', s). split; auto. apply in_flat_map. exists (n, VDA a). auto. }
      apply cache_add_cells in Kc. apply in_app_iff in Kc as [Kc|Kc].
      - apply in_flat_map in Kc as ([n' [a'|t'']] & Kn' & Kc); [|destruct Kc]. cbn [snd] in Kc.
        destruct (prepare_from ord m (refs_state st) t cs Ep _ _ Kn') as (n'' & Kn''). unfold refs_state in Kn''. apply in_map_iff in Kn'' as ([k [b|t'']] & E & Kb); [|discriminate E].
        injection E as <- <-. cbn [refs arr data] in Kc. assert (Sc : state_cells st x). { exists k, b. auto. } split; [exact (Hi x Sc)|exact (Hx x Sc)].
      - apply in_flat_map in Kc as ([t2 s2] & Ks2 & Kc). apply in_flat_map in Kc as ([n' [a'|t'']] & Kn' & Kc); [|destruct Kc]. exact (K2 t2 s2 n' a' x Ks2 Kn' Kc). }
    destruct (m_on_store m).
    - destruct (ref_write m h fs (cache_add t cs c)) as [[o fs1] c1] eqn:Ew. injection H as <- <- <-. split. apply grown_refl.
      pose proof (ref_write_spec _ _ _ _ _ _ _ Ew) as (Ev & _). rewrite Ev. exists ((fs1, load_cache h c1), vu). split; auto. split; auto. split; auto.
      unfold ref_write in Ew. destruct (NetCDF.write m fs (load_cache h (cache_add t cs c))) as [[[o2|e2] fs2] c2]; injection Ew as <- <- <-; cbn [fst snd]; auto.
      intros t0 s0 n0 a0 c0 [].
    - injection H as <- <- <-. split. apply grown_refl. exists ((fs, load_cache h (cache_add t cs c)), vu). split; auto. split; auto. split; auto.
  Qed.
End File.
