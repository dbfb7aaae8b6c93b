(** Main theorems about MonitorComposite (C58). *)
From Coq Require Import String List Bool Arith ZArith Lia.
From Verif Require Import Prelude PreludeFacts ArithM NdArray DataArrayM NetCDF MonComp SpecMonComp.
Import ListNotations.
Open Scope string_scope.
Open Scope nat_scope.
Open Scope list_scope.

Section Calls.
  Context {W St : Type}.

  Definition oks (st : St) (a n : nat) : list (call St) := map (fun i => (i, st, Ok tt)) (seq a n).

  Lemma replays_app : forall (ms : list (storer W St)) c1 c2 w w1 w2, replays ms w c1 w1 -> replays ms w1 c2 w2 -> replays ms w (c1 ++ c2) w2.
  Proof.
    intros ms c1. induction c1 as [|((i & st) & o) r IH]; intros c2 w w1 w2 H1 H2; cbn in *. subst; auto.
    destruct H1 as (m & w' & Hm & Hw & Hr). exists m, w'. split; [auto|]. split; [auto|]. eapply IH; eauto.
  Qed.

  Lemma store_calls : forall (ms : list (storer W St)) all k w st w' o log, (forall i, nth_error ms i = nth_error all (k + i)) ->
    composite_store ms w st = (w', o) ->
    exists calls, composite_store (recordings k ms) (w, log) st = ((w', log ++ calls), o) /\ replays all w calls w' /\
      ((calls = oks st k (length ms) /\ o = Ok tt) \/ (exists j e, j < length ms /\ calls = oks st k j ++ [(k + j, st, Err e)] /\ o = Err e)).
  Proof.
    induction ms as [|m ms IH]; intros all k w st w' o log Hn H; cbn [composite_store recordings length] in *.
    - injection H as <- <-. exists []. rewrite app_nil_r. split; [reflexivity|]. split; [reflexivity|]. left. split; reflexivity.
    - unfold recording at 1. cbn [fst snd]. destruct (m w st) as (w1 & o1) eqn:Hm.
      pose proof (Hn 0) as H0. cbn [nth_error] in H0. rewrite Nat.add_0_r in H0.
      destruct o1 as [[]|e].
      + destruct (IH all (S k) w1 st w' o (log ++ [(k, st, Ok tt)])) as (calls & C1 & C2 & C3); auto.
        { intros i. specialize (Hn (S i)). cbn [nth_error] in Hn. rewrite Hn. f_equal. lia. }
        exists ((k, st, Ok tt) :: calls). split. { rewrite C1, <- app_assoc. reflexivity. } split. { exists m, w1. auto. }
        destruct C3 as [(-> & ->)|(j & e & Hj & -> & ->)].
        * left. split; reflexivity.
        * right. exists (S j), e. split. lia. split. unfold oks. cbn [seq map app]. f_equal. f_equal. f_equal. f_equal. f_equal. lia. reflexivity.
      + injection H as <- <-. exists [(k, st, Err e)]. split; [reflexivity|]. split. { exists m, w1. cbn. auto. }
        right. exists 0, e. split. lia. rewrite Nat.add_0_r. split; reflexivity.
  Qed.

  (** C58: every call of the composite calls each monitor once, in order, up to the first
      that raises, whose exception it raises; and nothing else happens.  [log] are the calls
      made before. *)
  Theorem main_composite_calls : forall (ms : list (storer W St)) sts w w' os log, composite_run ms w sts = (w', os) ->
    exists cs, composite_run (recordings 0 ms) (w, log) sts = ((w', log ++ concat cs), os)
               /\ length os = length sts /\ length cs = length sts
               /\ replays ms w (concat cs) w'
               /\ (forall n st calls o, nth_error sts n = Some st -> nth_error cs n = Some calls -> nth_error os n = Some o -> each_once (length ms) st calls o).
  Proof.
    intros ms sts. induction sts as [|st sts IH]; intros w w' os log H; cbn [composite_run] in H.
    - injection H as <- <-. exists []. cbn [composite_run concat length]. rewrite app_nil_r. repeat split; auto. intros n st calls o Hn. destruct n; discriminate Hn.
    - destruct (composite_store ms w st) as (w1 & o) eqn:Hs. destruct (composite_run ms w1 sts) as (w2 & os') eqn:Hr. injection H as <- <-.
      destruct (store_calls ms ms 0 w st w1 o log) as (calls & C1 & C2 & C3); auto.
      destruct (IH w1 w2 os' (log ++ calls)) as (cs & D1 & D2 & D3 & D4 & D5); auto.
      exists (calls :: cs). cbn [composite_run concat length]. rewrite C1, D1, <- app_assoc. split; [reflexivity|]. split; [auto|]. split; [auto|]. split.
      { eapply replays_app; eauto. }
      intros n st' calls' o' H1 H2 H3. destruct n as [|n]; cbn [nth_error] in *.
      + injection H1 as <-. injection H2 as <-. injection H3 as <-. destruct C3 as [C3|(j & e & C3)]; [left; exact C3|right; exists j, e; exact C3].
      + eauto.
  Qed.

  (** C58: the constructor. *)
  Theorem main_new_composite : forall args : list (bool * storer W St),
    (forall p, new_composite args = Ok p <-> (forall a, In a args -> fst a = true) /\ p = map snd args)
    /\ (new_composite args = Err EType <-> exists a, In a args /\ fst a = false).
  Proof.
    intros args. unfold new_composite. destruct (forallb fst args) eqn:E.
    - rewrite forallb_forall in E. split.
      + intros p. split. intros H. injection H as <-. auto. intros (_ & ->). reflexivity.
      + split. discriminate. intros (a & Ha & Hf). rewrite (E a Ha) in Hf. discriminate Hf.
    - assert (Hx : exists a, In a args /\ fst a = false).
      { clear - E. induction args as [|a r IH]. discriminate E. cbn [forallb] in E. destruct (fst a) eqn:Ea. destruct IH as (x & Hx & Hf); auto. exists x. cbn; auto. exists a. cbn; auto. }
      split.
      + intros p. split. discriminate. intros (H & _). destruct Hx as (a & Ha & Hf). rewrite (H a Ha) in Hf. discriminate Hf.
      + split; auto.
  Qed.
End Calls.

Section NetCDFMonitors.
  Context {T : Type} {A : Arith T} {L : NcLib T}.
  Implicit Types (m : monitor) (st : state T) (fs : files T) (c : cache_t T).

  Lemma write_local : forall m fs1 fs2 c o f1 c', dget (m_file m) fs1 = dget (m_file m) fs2 -> write m fs1 c = (o, f1, c') ->
    exists f2, write m fs2 c = (o, f2, c') /\ dget (m_file m) f1 = dget (m_file m) f2.
  Proof.
    intros m fs1 fs2 c o f1 c' E H. unfold write in *. rewrite E in H. destruct (write_act m c _) as ([u|e] & d'); injection H as <- <- <-; eexists; (split; [reflexivity|]); rewrite !dget_dset_eq; reflexivity.
  Qed.

  Lemma write_other : forall m fs c o f1 c' g, write m fs c = (o, f1, c') -> g <> m_file m -> dget g f1 = dget g fs.
  Proof. intros m fs c o f1 c' g H Hg. unfold write in H. destruct (write_act m c _) as ([u|e] & d'); injection H as <- <- <-; apply dget_dset_neq; auto. Qed.

  Lemma store_local : forall ord m st fs1 fs2 c o f1 c', dget (m_file m) fs1 = dget (m_file m) fs2 -> store ord m st fs1 c = (o, f1, c') ->
    exists f2, store ord m st fs2 c = (o, f2, c') /\ dget (m_file m) f1 = dget (m_file m) f2.
  Proof.
    intros ord m st fs1 fs2 c o f1 c' E H. unfold store in *. destruct (prepare ord m st) as [(t & cs)|e].
    - destruct (m_on_store m). eapply write_local; eauto. injection H as <- <- <-. eauto.
    - injection H as <- <- <-. eauto.
  Qed.

  Lemma store_other : forall ord m st fs c o f1 c' g, store ord m st fs c = (o, f1, c') -> g <> m_file m -> dget g f1 = dget g fs.
  Proof.
    intros ord m st fs c o f1 c' g H Hg. unfold store in H. destruct (prepare ord m st) as [(t & cs)|e].
    - destruct (m_on_store m). eapply write_other; eauto. injection H as <- <- <-. auto.
    - injection H as <- <- <-. auto.
  Qed.

  Lemma mon_run_local : forall ord m sts fs1 fs2 c os f1 c', dget (m_file m) fs1 = dget (m_file m) fs2 -> mon_run ord m (map Store sts) fs1 c = (os, f1, c') ->
    exists f2, mon_run ord m (map Store sts) fs2 c = (os, f2, c') /\ dget (m_file m) f1 = dget (m_file m) f2.
  Proof.
    intros ord m sts. induction sts as [|st sts IH]; intros fs1 fs2 c os f1 c' E H; cbn [map mon_run mon_step] in *.
    - injection H as <- <- <-. eauto.
    - destruct (store ord m st fs1 c) as ((o & g1) & c1) eqn:Hs. destruct (mon_run ord m (map Store sts) g1 c1) as ((os1 & h1) & c2) eqn:Hr. injection H as <- <- <-.
      destruct (store_local ord m st fs1 fs2 c o g1 c1 E Hs) as (g2 & Hs2 & E2). destruct (IH g1 g2 c1 os1 h1 c2 E2 Hr) as (h2 & Hr2 & E3).
      exists h2. rewrite Hs2, Hr2. auto.
  Qed.

  Lemma nth_set : forall (X : Type) (l : list X) i x d j, i < length l -> nth j (firstn i l ++ x :: skipn (S i) l) d = if Nat.eqb j i then x else nth j l d.
  Proof.
    intros X l. induction l as [|y l IH]; intros i x d j Hi; cbn [length] in Hi. lia.
    destruct i as [|i]; cbn [firstn skipn app].
    - destruct j; reflexivity.
    - destruct j as [|j]; cbn [nth Nat.eqb]. reflexivity. apply IH. lia.
  Qed.

  Lemma length_set : forall (X : Type) (l : list X) i x, i < length l -> length (firstn i l ++ x :: skipn (S i) l) = length l.
  Proof. intros X l i x H. rewrite app_length, firstn_length. cbn [length]. rewrite skipn_length. lia. Qed.

  (** What one call does to the k-th and later monitors. *)
  Lemma nc_store : forall ord ms k fs cs st fs' cs' o, NoDup (map m_file ms) -> k + length ms = length cs ->
    composite_store (nc_storers ord k ms) (fs, cs) st = ((fs', cs'), o) ->
    length cs' = length cs /\ (forall j, j < k -> nth j cs' [] = nth j cs []) /\ (forall g, ~ In g (map m_file ms) -> dget g fs' = dget g fs)
    /\ exists stop, (stop = None <-> o = Ok tt) /\ (forall j, stop = Some j -> k <= j) /\
       forall i m, nth_error ms i = Some m ->
         if reached (k + i) stop
         then exists fsi, store ord m st fs (nth (k + i) cs []) = ((match stop with Some j => if Nat.eqb (k + i) j then o else Ok tt | None => Ok tt end), fsi, nth (k + i) cs' [])
                          /\ dget (m_file m) fs' = dget (m_file m) fsi
         else nth (k + i) cs' [] = nth (k + i) cs [] /\ dget (m_file m) fs' = dget (m_file m) fs.
  Proof.
    intros ord ms. induction ms as [|m ms IH]; intros k fs cs st fs' cs' o Hnd Hl H; cbn [nc_storers composite_store] in H.
    - injection H as <- <- <-. split; [auto|]. split; [auto|]. split; [auto|]. exists None. split. split; auto. split. discriminate. intros i m Hm. destruct i; discriminate Hm.
    - cbn [length] in Hl. unfold nc_storer at 1 in H. cbn [fst snd] in H. destruct (store ord m st fs (nth k cs [])) as ((o1 & fs1) & c1) eqn:Hs.
      inversion Hnd as [|? ? Hni Hnd']; subst.
      destruct o1 as [[]|e].
      + destruct (IH (S k) fs1 (firstn k cs ++ c1 :: skipn (S k) cs) st fs' cs' o Hnd') as (L1 & L2 & L3 & stop & S1 & S2 & S3); auto.
        { rewrite length_set by lia. lia. }
        rewrite length_set in L1 by lia. split; [auto|]. split. { intros j Hj. rewrite L2 by lia. rewrite nth_set by lia. destruct (Nat.eqb j k) eqn:Ejk; auto. apply Nat.eqb_eq in Ejk. lia. }
        split. { intros g Hg. cbn [map In] in Hg. rewrite L3 by tauto. eapply store_other; eauto. }
        exists stop. split; [auto|]. split. { intros j Hj. apply S2 in Hj. lia. }
        intros i m' Hm. destruct i as [|i]; cbn [nth_error] in Hm.
        * injection Hm as <-. rewrite Nat.add_0_r. assert (R : reached k stop = true). { destruct stop as [j|]; auto. cbn. apply Nat.leb_le. specialize (S2 j eq_refl). lia. }
          rewrite R. exists fs1. assert (Ho : (match stop with Some j => if Nat.eqb k j then o else Ok tt | None => Ok tt end) = Ok tt). { destruct stop as [j|]; auto. specialize (S2 j eq_refl). destruct (Nat.eqb k j) eqn:E; auto. apply Nat.eqb_eq in E. lia. }
          rewrite Ho, L2 by lia. rewrite nth_set by lia. rewrite Nat.eqb_refl. split; [exact Hs|]. apply L3. exact Hni.
        * specialize (S3 i m' Hm). replace (k + S i) with (S k + i) by lia.
          assert (Hne : m_file m' <> m_file m). { intros E. apply Hni. rewrite <- E. apply in_map. eapply nth_error_In; eauto. }
          rewrite nth_set in S3 by lia. assert (Ek : Nat.eqb (S k + i) k = false) by (apply Nat.eqb_neq; lia). rewrite Ek in S3.
          assert (Ef : dget (m_file m') fs1 = dget (m_file m') fs) by (eapply store_other; eauto).
          destruct (reached (S k + i) stop).
          -- destruct S3 as (fsi & Hs' & Hd). destruct (store_local ord m' st fs1 fs _ _ _ _ Ef Hs') as (f2 & Hs2 & Hd2). exists f2. split; [exact Hs2|]. congruence.
          -- destruct S3 as (S3 & S4). split; [auto|congruence].
      + injection H as <- <- <-. rewrite length_set by lia. split; [auto|]. split. { intros j Hj. rewrite nth_set by lia. destruct (Nat.eqb j k) eqn:Ejk; auto. apply Nat.eqb_eq in Ejk. lia. }
        split. { intros g Hg. cbn [map In] in Hg. eapply store_other; eauto. }
        exists (Some k). split. split; discriminate. split. { intros j Hj. injection Hj as <-. lia. }
        intros i m' Hm. destruct i as [|i]; cbn [nth_error] in Hm.
        * injection Hm as <-. rewrite Nat.add_0_r. cbn [reached]. rewrite Nat.leb_refl. exists fs1. rewrite Nat.eqb_refl, nth_set by lia. rewrite Nat.eqb_refl. auto.
        * cbn [reached]. assert (R : (k + S i <=? k) = false) by (apply Nat.leb_gt; lia). rewrite R, nth_set by lia. assert (Ek : Nat.eqb (k + S i) k = false) by (apply Nat.eqb_neq; lia). rewrite Ek. split; [auto|].
          eapply store_other; eauto. intros E. apply Hni. rewrite <- E. apply in_map. eapply nth_error_In; eauto.
  Qed.

  (** C58 with C54: NetCDF monitors with different files, used through a composite, each
      write their file as if they were used alone with the states that reached them. *)
  Theorem main_nc_composite : forall ord ms sts fs cs fs' cs' os, NoDup (map m_file ms) -> length ms = length cs ->
    composite_run (nc_storers ord 0 ms) (fs, cs) sts = ((fs', cs'), os) ->
    (forall g, ~ In g (map m_file ms) -> dget g fs' = dget g fs) /\
    exists stops, length stops = length sts /\ Forall2 (fun stop o => stop = None <-> o = Ok tt) stops os /\
      forall i m, nth_error ms i = Some m ->
        exists fsi, mon_run ord m (map Store (given i stops sts)) fs (nth i cs []) = (gave i stops os, fsi, nth i cs' [])
                    /\ dget (m_file m) fs' = dget (m_file m) fsi.
  Proof.
    intros ord ms sts. induction sts as [|st sts IH]; intros fs cs fs' cs' os Hnd Hl H; cbn [composite_run] in H.
    - injection H as <- <- <-. split; [auto|]. exists []. split; [auto|]. split; [constructor|]. intros i m Hm. exists fs. cbn. auto.
    - destruct (composite_store (nc_storers ord 0 ms) (fs, cs) st) as ((fs1 & cs1) & o) eqn:Hs.
      destruct (composite_run (nc_storers ord 0 ms) (fs1, cs1) sts) as ((fs2 & cs2) & os') eqn:Hr. injection H as <- <- <-.
      destruct (nc_store ord ms 0 fs cs st fs1 cs1 o Hnd Hl Hs) as (L1 & _ & L3 & stop & S1 & _ & S3).
      destruct (IH fs1 cs1 fs2 cs2 os' Hnd) as (F & stops & G1 & G2 & G3); [congruence|exact Hr|].
      split. { intros g Hg. rewrite F, L3; auto. }
      exists (stop :: stops). split; [cbn; auto|]. split; [constructor; auto|].
      intros i m Hm. specialize (S3 i m Hm). specialize (G3 i m Hm). cbn [Nat.add] in S3. destruct G3 as (fsi & Hrun & Hd). cbn [given gave].
      destruct (reached i stop).
      + destruct S3 as (f1 & Hst & Hd1). destruct (mon_run_local ord m _ fs1 f1 _ _ _ _ Hd1 Hrun) as (f2 & Hrun2 & Hd2).
        exists f2. cbn [map mon_run mon_step]. rewrite Hst, Hrun2. split; [reflexivity|congruence].
      + destruct S3 as (E1 & E2). destruct (mon_run_local ord m _ fs1 fs _ _ _ _ E2 Hrun) as (f2 & Hrun2 & Hd2). exists f2. rewrite <- E1. split; [exact Hrun2|congruence].
  Qed.
End NetCDFMonitors.
