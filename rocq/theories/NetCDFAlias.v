(** Names of the quantities in a file (C57). *)
From Coq Require Import String List Bool Arith ZArith Permutation Lia.
From Verif Require Import Prelude PreludeFacts ArithM NdArray DataArrayM StrFun NetCDF SpecNetCDF NetCDFMain.
Import ListNotations.
Open Scope string_scope.
Open Scope nat_scope.
Open Scope list_scope.

Lemma filter_all : forall {X} (f : X -> bool) l, (forall x, f x = true) -> filter f l = l.
Proof. intros X f l H. induction l as [|x l IH]; cbn [filter]; auto. rewrite H, IH. auto. Qed.

Lemma filter_filter : forall {X} (f g : X -> bool) l, filter f (filter g l) = filter (fun x => g x && f x) l.
Proof. intros X f g l. induction l as [|x l IH]; cbn [filter]; auto. destruct (g x); cbn [filter andb]; rewrite IH; auto. Qed.

Section Alias.
  Context {T : Type}.
  Implicit Types d cs : dict (pval T).

  Definition alias_step (la : string * string) d (name : string) : res (dict (pval T)) :=
    if str_in (fst la) name then
      let a := str_replace (fst la) (snd la) name in
      if String.eqb a "" then Err EValue
      else match dget name d with Some v => Ok (dset a v (ddel name d)) | None => Err EKey end
    else Ok d.

  Lemma apply_alias_eq : forall cs la, apply_alias cs (fst la) (snd la) = foldM (alias_step la) (keys cs) cs.
  Proof. reflexivity. Qed.

  Lemma In_keys_ddel : forall k d x, In x (keys (ddel k d)) <-> In x (keys d) /\ x <> k.
  Proof.
    intros k d x. rewrite keys_ddel, filter_In. split; intros (H1 & H2); split; auto.
    - intros ->. rewrite String.eqb_refl in H2. discriminate.
    - apply negb_true_iff. apply String.eqb_neq. auto.
  Qed.

  (** One name. *)
  Lemma alias_one : forall la d k, NoDup (keys d) -> In k (keys d) -> (str_in (fst la) k = true -> renamed la k <> "") ->
    exists d', alias_step la d k = Ok d' /\ NoDup (keys d') /\
      (forall x, In x (keys d') <-> x = renamed la k \/ In x (keys d) /\ x <> k) /\
      (forall x, x <> k -> x <> renamed la k -> dget x d' = dget x d) /\ dget (renamed la k) d' = dget k d /\
      (~ (In (renamed la k) (keys d) /\ renamed la k <> k) -> keys d' = if str_in (fst la) k then filter (fun x => negb (String.eqb k x)) (keys d) ++ [renamed la k] else keys d) /\
      length d' <= length d /\ (length d' = length d <-> ~ (In (renamed la k) (keys d) /\ renamed la k <> k)).
  Proof.
    intros la d k Nd Hk Hne. unfold alias_step. unfold renamed in *. destruct (str_in (fst la) k) eqn:E.
    - set (a := str_replace (fst la) (snd la) k) in *. assert (Ea : String.eqb a "" = false) by (apply String.eqb_neq; auto). rewrite Ea.
      apply In_keys_dget in Hk as Hv. destruct Hv as (v & Hv). rewrite Hv. eexists. split; [reflexivity|].
      assert (Ll : forall dd : dict (pval T), length (keys dd) = length dd) by (intros dd; apply map_length).
      assert (Len : S (length (keys (ddel k d))) = length (keys d)).
      { rewrite keys_ddel. clear - Nd Hk. induction (keys d) as [|x l IH]; [destruct Hk|]. inversion Nd as [|? ? Hx Nd']; subst. cbn [filter length].
        destruct (String.eqb k x) eqn:Ex; cbn [negb].
        - apply String.eqb_eq in Ex. subst. f_equal. assert (F : filter (fun y => negb (String.eqb x y)) l = l); [|rewrite F; auto]. clear - Hx. induction l as [|y l IH]; cbn [filter]; auto.
          destruct (String.eqb x y) eqn:E. apply String.eqb_eq in E. subst. cbn [In] in Hx. tauto. cbn [negb]. rewrite IH; auto. cbn [In] in Hx. tauto.
        - cbn [length]. f_equal. apply IH; auto. destruct Hk as [->|]; auto. rewrite String.eqb_refl in Ex. discriminate. }
      assert (Fresh : dmem a (ddel k d) = true <-> In a (keys d) /\ a <> k) by (rewrite dmem_In; apply In_keys_ddel).
      split. { apply NoDup_dset, NoDup_ddel. auto. } split. { intros x. rewrite In_keys_dset, In_keys_ddel. tauto. }
      split. { intros x Hx1 Hx2. rewrite dget_dset_neq by auto. rewrite dget_ddel. destruct (String.eqb x k) eqn:Ex; auto. apply String.eqb_eq in Ex. contradiction. }
      split. { rewrite dget_dset_eq. auto. }
      rewrite keys_dset. rewrite <- (Ll (dset _ _ _)), <- (Ll d), keys_dset. destruct (dmem a (ddel k d)) eqn:Em.
      + split. { intros H. exfalso. apply H, Fresh. auto. } split. lia. split; intros Hl; exfalso. lia. apply Hl, Fresh. auto.
      + split. { intros _. rewrite keys_ddel. auto. } rewrite app_length. cbn [length]. split. lia. split; intros _. intros H. apply Fresh in H. discriminate H. lia.
    - exists d. split; auto. split; auto. split. { intros x. split. destruct (string_dec x k); auto. intros [->|(H & _)]; auto. } split; auto. split; auto. split; auto. split; auto. split; auto. intros _ (_ & H). contradiction.
  Qed.

  Lemma alias_loop : forall la l d, NoDup l -> incl l (keys d) -> NoDup (keys d) -> no_clash la l ->
    (forall k x, In k l -> In x (keys d) -> ~ In x l -> renamed la k <> x) ->
    exists d', foldM (alias_step la) l d = Ok d' /\ NoDup (keys d') /\ length d' = length d /\
      keys d' = filter (fun k => negb (mem k l && str_in (fst la) k)) (keys d) ++ map (renamed la) (filter (str_in (fst la)) l) /\
      forall n v, dget n d = Some v -> dget (if mem n l then renamed la n else n) d' = Some v.
  Proof.
    intros la. induction l as [|k r IH]; intros d Ndl Hin Nd Nc Hdone; cbn [foldM].
    - exists d. split; auto. split; auto. split; auto. split; [|intros n v Hv; auto]. cbn [mem existsb andb negb filter map]. rewrite app_nil_r.
      symmetry. apply filter_all. auto.
    - inversion Ndl as [|? ? Hk Ndr]; subst. destruct Nc as (Ne & Nc1 & Nc).
      destruct (alias_one la d k Nd (Hin k (or_introl eq_refl)) Ne) as (d1 & E & Nd1 & K1 & O1 & V1 & Ko & _ & Len). rewrite E. cbn [bind].
      assert (Fr : ~ (In (renamed la k) (keys d) /\ renamed la k <> k)).
      { intros (H1 & H2). apply (Hdone k (renamed la k)); auto. cbn; auto. intros [H|H]. auto. destruct (Nc1 _ H) as (_ & H3). contradiction. }
      specialize (Ko Fr). apply Len in Fr as Ln. assert (Ha : mem (renamed la k) r = false).
      { apply mem_false. intros H. destruct (Nc1 _ H) as (_ & H3). contradiction. }
      destruct (IH d1 Ndr) as (d' & E' & Nd' & Ln' & K' & V'); auto.
      { intros x Hx. apply K1. right. split. apply Hin. cbn; auto. intros ->. contradiction. }
      { intros k' x Hk' Hx Hxr. apply K1 in Hx as [->|(Hx & Hxk)]. apply Nc1. auto. apply Hdone; cbn [In]; auto. intros [H|H]; auto. }
      exists d'. split; auto. split; auto. split. congruence. split.
      + rewrite K', Ko. destruct (str_in (fst la) k) eqn:Ek.
        * rewrite filter_app. cbn [filter]. rewrite Ha, Ek. cbn [andb negb map]. rewrite <- app_assoc. cbn [app]. f_equal. rewrite filter_filter. apply filter_ext. intros x.
          cbn [mem existsb]. change (existsb (String.eqb x) r) with (mem x r). rewrite String.eqb_sym. destruct (String.eqb x k) eqn:Ex; cbn [negb orb andb]; auto. apply String.eqb_eq in Ex. subst. rewrite Ek. auto.
        * cbn [filter]. rewrite Ek. f_equal. apply filter_ext. intros x. cbn [mem existsb]. change (existsb (String.eqb x) r) with (mem x r). destruct (String.eqb x k) eqn:Ex; auto. apply String.eqb_eq in Ex. subst. rewrite Ek, !andb_false_r. auto.
      + intros n v Hv. cbn [mem existsb]. change (existsb (String.eqb n) r) with (mem n r). destruct (String.eqb n k) eqn:En; cbn [orb].
        * apply String.eqb_eq in En. subst. rewrite <- V1 in Hv. apply V' in Hv. rewrite Ha in Hv. auto.
        * apply V'. rewrite O1; auto. intros ->. rewrite String.eqb_refl in En. discriminate. intros ->. apply Fr. split. eapply dget_In_keys; eauto. intros H. rewrite H, String.eqb_refl in En. discriminate.
  Qed.

  Lemma alias_loop_conv : forall la l d d', NoDup l -> incl l (keys d) -> NoDup (keys d) -> foldM (alias_step la) l d = Ok d' ->
    length d' <= length d /\ (length d' = length d -> no_clash la l /\ forall k x, In k l -> In x (keys d) -> ~ In x l -> renamed la k <> x).
  Proof.
    intros la. induction l as [|k r IH]; intros d d' Ndl Hin Nd H; cbn [foldM] in H.
    - injection H as <-. split; auto. intros _. split. constructor. intros k x [].
    - inversion Ndl as [|? ? Hk Ndr]; subst. apply bind_ok in H as (d1 & E & H).
      assert (Ne : str_in (fst la) k = true -> renamed la k <> "").
      { intros Hs. unfold alias_step in E. unfold renamed. rewrite Hs in *. destruct (String.eqb _ "") eqn:Ee. discriminate E. apply String.eqb_neq in Ee. auto. }
      destruct (alias_one la d k Nd (Hin k (or_introl eq_refl)) Ne) as (d1' & E' & Nd1 & K1 & O1 & V1 & Ko & Le & Len). rewrite E in E'. injection E' as <-.
      destruct (IH d1 d' Ndr) as (Le' & Hn); auto. { intros x Hx. apply K1. right. split. apply Hin. cbn; auto. intros ->. contradiction. }
      split. lia. intros Hl. assert (L1 : length d' = length d1) by lia. assert (L2 : length d1 = length d) by lia. apply Len in L2. destruct (Hn L1) as (Nc & Hd).
      assert (C1 : forall k', In k' r -> renamed la k' <> renamed la k).
      { intros k' Hk'. apply Hd; auto. apply K1. auto. intros Hr. apply L2. split. apply Hin; cbn; auto. intros Eq. rewrite Eq in Hr. contradiction. }
      split.
      + split; auto. split; auto. intros k' Hk'. split; auto. intros Eq. apply L2. rewrite Eq. split. apply Hin; cbn; auto. intros ->. contradiction.
      + intros k0 x Hk0 Hx Hxl. cbn [In] in Hxl. destruct Hk0 as [<-|Hk0].
        * intros Eq. apply L2. rewrite Eq. split; auto.
        * apply Hd; auto. apply K1. right. split; auto.
  Qed.

  Lemma one_alias_ok : forall la cs, NoDup (keys cs) -> no_clash la (keys cs) ->
    exists cs', apply_alias cs (fst la) (snd la) = Ok cs' /\ NoDup (keys cs') /\ length cs' = length cs /\ keys cs' = names_after la (keys cs) /\
      forall n v, dget n cs = Some v -> dget (renamed la n) cs' = Some v.
  Proof.
    intros la cs Nd Nc. rewrite apply_alias_eq. destruct (alias_loop la (keys cs) cs Nd) as (d' & E & Nd' & Ln & K & V); auto using incl_refl.
    exists d'. split; auto. split; auto. split; auto. split.
    - rewrite K. unfold names_after. f_equal. apply filter_ext_in. intros x Hx. apply mem_In in Hx. rewrite Hx. auto.
    - intros n v Hv. specialize (V n v Hv). apply dget_In_keys in Hv. apply mem_In in Hv. rewrite Hv in V. auto.
  Qed.

  Lemma names_after_In : forall la ks x, In x (names_after la ks) <-> exists n, In n ks /\ x = renamed la n.
  Proof.
    intros la ks x. unfold names_after. rewrite in_app_iff, filter_In, in_map_iff. split.
    - intros [(H & Hs)|(n & <- & H)]. exists x. split; auto. unfold renamed. apply negb_true_iff in Hs. rewrite Hs. auto. apply filter_In in H as (H & _). eauto.
    - intros (n & H & ->). destruct (str_in (fst la) n) eqn:E. right. exists n. rewrite filter_In. auto. left. unfold renamed. rewrite E. rewrite E. auto.
  Qed.

  Lemma no_clash_inj : forall la ks, no_clash la ks -> forall n n', In n ks -> In n' ks -> renamed la n = renamed la n' -> n = n'.
  Proof.
    intros la. induction ks as [|k r IH]; intros Nc n n' H1 H2 E; [destruct H1|]. destruct Nc as (_ & Nc1 & Nc). destruct H1 as [<-|H1], H2 as [<-|H2]; auto.
    - exfalso. destruct (Nc1 n' H2) as (H & _). auto.
    - exfalso. destruct (Nc1 n H1) as (H & _). auto.
  Qed.

  (** C57: a table of aliases, applied in turn. *)
  Lemma aliases_ok : forall aliases cs, NoDup (keys cs) -> no_clashes aliases (keys cs) ->
    exists cs', foldM (fun cs la => apply_alias cs (fst la) (snd la)) aliases cs = Ok cs' /\ NoDup (keys cs') /\ length cs' = length cs /\
      (forall n v, dget n cs = Some v -> dget (final_name aliases n) cs' = Some v) /\
      (forall x, In x (keys cs') -> exists n, In n (keys cs) /\ x = final_name aliases n) /\
      (forall n n', In n (keys cs) -> In n' (keys cs) -> final_name aliases n = final_name aliases n' -> n = n').
  Proof.
    induction aliases as [|la aliases IH]; intros cs Nd Nc; cbn [foldM]. { exists cs. cbn [final_name fold_left]. split; auto. split; auto. split; auto. split; auto. split; eauto. }
    destruct Nc as (Nc & Ncs). destruct (one_alias_ok la cs Nd Nc) as (c1 & E & Nd1 & L1 & K1 & V1). rewrite E. cbn [bind]. rewrite <- K1 in Ncs.
    destruct (IH c1 Nd1 Ncs) as (c2 & E2 & Nd2 & L2 & V2 & I2 & J2). exists c2. split; auto. split; auto. split. congruence.
    assert (Hn : forall x, In x (keys c1) <-> exists n, In n (keys cs) /\ x = renamed la n).
    { intros x. rewrite K1. apply names_after_In. }
    split. { intros n v Hv. change (dget (final_name aliases (renamed la n)) c2 = Some v). apply V2, V1. auto. } split.
    - intros x Hx. apply I2 in Hx as (y & Hy & ->). apply Hn in Hy as (n & Hn' & ->). exists n. auto.
    - intros n n' H1 H2 Eq. apply (no_clash_inj la (keys cs) Nc n n' H1 H2). apply J2; [apply Hn; eauto|apply Hn; eauto|exact Eq].
  Qed.

  Lemma aliases_conv : forall aliases cs cs', NoDup (keys cs) -> foldM (fun cs la => apply_alias cs (fst la) (snd la)) aliases cs = Ok cs' ->
    length cs' <= length cs /\ (length cs' = length cs -> no_clashes aliases (keys cs)).
  Proof.
    induction aliases as [|la aliases IH]; intros cs cs' Nd H; cbn [foldM] in H. { injection H as <-. split; auto. intros _. constructor. }
    apply bind_ok in H as (c1 & E & H). pose proof E as E0. rewrite apply_alias_eq in E.
    destruct (alias_loop_conv la (keys cs) cs c1 Nd (incl_refl _) Nd E) as (Le & Hc).
    destruct (apply_alias_values _ _ _ _ E0 Nd) as (Nd1 & _). destruct (IH c1 cs' Nd1 H) as (Le' & Hc').
    split. lia. intros Hl. destruct Hc as (Nc & _). lia. split; auto. destruct (one_alias_ok la cs Nd Nc) as (c1' & E1 & _ & _ & K1 & _). rewrite E0 in E1. injection E1 as <-. rewrite <- K1. apply Hc'. lia.
  Qed.

  (** No quantity is lost exactly when no name clashes. *)
  Lemma main_alias_iff : forall aliases cs, NoDup (keys cs) ->
    (exists cs', foldM (fun cs la => apply_alias cs (fst la) (snd la)) aliases cs = Ok cs' /\ length cs' = length cs) <-> no_clashes aliases (keys cs).
  Proof.
    intros aliases cs Nd. split.
    - intros (cs' & H & Hl). apply aliases_conv in H; auto. tauto.
    - intros Nc. destruct (aliases_ok aliases cs Nd Nc) as (cs' & E & _ & L & _). eauto.
  Qed.

  Lemma chosen_ok : forall ord m (st : state T), (forall l, Permutation (ord l) l) -> NoDup (keys st) ->
    exists c0, match m_names m with
               | Some ns => mapM (fun n => let* v := dgetE n st in Ok (n, v)) (ord (filter (fun n => mem n ("time" :: ns)) (keys st)))
               | None => Ok st
               end = Ok c0 /\ keys c0 = chosen ord m st /\ NoDup (keys c0) /\ incl (keys c0) (keys st) /\ forall n, In n (keys c0) -> dget n c0 = dget n st.
  Proof.
    intros ord m st Po Nd. unfold chosen. destruct (m_names m) as [ns|].
    - assert (Hl : incl (ord (filter (fun n => mem n ("time" :: ns)) (keys st))) (keys st)).
      { intros x Hx. eapply Permutation_in in Hx; [|apply Po]. apply filter_In in Hx. tauto. }
      assert (Ndl : NoDup (ord (filter (fun n => mem n ("time" :: ns)) (keys st)))).
      { eapply Permutation_NoDup. apply Permutation_sym, Po. apply NoDup_filter. auto. }
      revert Hl Ndl. generalize (ord (filter (fun n => mem n ("time" :: ns)) (keys st))). induction l as [|n l IH]; intros Hl Ndl; cbn [mapM].
      + exists []. split; auto. split; auto. split; auto. split. intros x []. intros n [].
      + inversion Ndl as [|? ? Hn Ndl']; subst. destruct IH as (c0 & E & K & N0 & I0 & V0); auto. { intros x Hx. apply Hl. cbn; auto. }
        destruct (In_keys_dget n st (Hl n (or_introl eq_refl))) as (v & Hv). unfold dgetE at 1. rewrite Hv. cbn [bind]. rewrite E. cbn [bind].
        exists ((n, v) :: c0). split; auto. change (keys ((n, v) :: c0)) with (n :: keys c0). rewrite K in *. split; auto. split; auto. split; auto.
        intros x Hx. cbn [dget]. destruct (String.eqb x n) eqn:Ex. apply String.eqb_eq in Ex. subst; auto. destruct Hx as [->|Hx]; auto. rewrite String.eqb_refl in Ex. discriminate.
    - exists st. split; auto. split; auto. split; auto. split; auto. intros x Hx. auto.
  Qed.

  (** C57: what is stored of a state. *)
  Lemma main_prepare : forall ord m (st : state T) t, (forall l, Permutation (ord l) l) -> NoDup (keys st) -> dget "time" st = Some (VTime t) ->
    ~ In "" (chosen ord m st) -> no_clashes (m_aliases m) (chosen ord m st) -> (forall la, In la (m_aliases m) -> str_in (fst la) "time" = false) ->
    exists cs, prepare ord m st = Ok (t, cs) /\ NoDup (keys cs) /\
      (forall n v, In n (chosen ord m st) -> n <> "time" -> dget n st = Some v -> dget (final_name (m_aliases m) n) cs = Some v) /\
      (forall x, In x (keys cs) -> exists n, In n (chosen ord m st) /\ n <> "time" /\ x = final_name (m_aliases m) n) /\
      (forall n n', In n (chosen ord m st) -> In n' (chosen ord m st) -> final_name (m_aliases m) n = final_name (m_aliases m) n' -> n = n').
  Proof.
    intros ord m st t Po Nd Ht Hne Nc Htime. destruct (chosen_ok ord m st Po Nd) as (c0 & E & K & N0 & I0 & V0). unfold prepare. rewrite E. cbn [bind]. rewrite <- K in *.
    apply mem_false in Hne. rewrite Hne. destruct (aliases_ok (m_aliases m) c0 N0 Nc) as (cs & E1 & N1 & _ & V1 & I1 & J1). rewrite E1. cbn [bind].
    assert (Ft : final_name (m_aliases m) "time" = "time").
    { clear - Htime. unfold final_name. induction (m_aliases m) as [|la l IH]; cbn [fold_left]; auto. replace (renamed la "time") with "time". apply IH. intros la' H. apply Htime. cbn; auto.
      unfold renamed. rewrite Htime by (cbn; auto). auto. }
    assert (Hc : In "time" (keys c0)).
    { rewrite K. unfold chosen. assert (H : In "time" (keys st)) by (eapply dget_In_keys; eauto). destruct (m_names m); auto. eapply Permutation_in. apply Permutation_sym, Po. apply filter_In. split; auto. }
    assert (Hct : dget "time" cs = Some (VTime t)). { rewrite <- Ft. apply V1. rewrite V0; auto. }
    unfold dgetE. rewrite Hct. cbn [bind]. rewrite Ht. cbn [bind]. eexists. split; [reflexivity|]. split. apply NoDup_ddel; auto. split; [|split]; auto.
    - intros n v Hn Hnt Hv. rewrite dget_ddel. destruct (String.eqb (final_name (m_aliases m) n) "time") eqn:En.
      + apply String.eqb_eq in En. exfalso. apply Hnt. apply J1; auto. congruence.
      + apply V1. rewrite V0; auto.
    - intros x Hx. apply In_keys_ddel in Hx as (Hx & Hxt). apply I1 in Hx as (n & Hn & ->). exists n. split; auto. split; auto. intros ->. contradiction.
  Qed.

  Lemma filter_id : forall {X} (f : X -> bool) l, (forall x, In x l -> f x = true) -> filter f l = l.
  Proof. induction l as [|x l IH]; intros H; cbn; auto. rewrite H by (cbn; auto). f_equal. apply IH. intros y Hy. apply H. cbn; auto. Qed.

  Lemma length_ddel : forall k (d : dict (pval T)), NoDup (keys d) -> In k (keys d) -> S (length (ddel k d)) = length d.
  Proof.
    intros k d Nd Hk. rewrite <- (map_length fst (ddel k d)), <- (map_length fst d). change (S (length (keys (ddel k d))) = length (keys d)). rewrite keys_ddel. revert Nd Hk. induction (keys d) as [|x l IH]; intros Nd Hk; [destruct Hk|].
    inversion Nd as [|? ? Hx Nd']; subst. cbn [filter length]. destruct (String.eqb k x) eqn:E; cbn [negb].
    - apply String.eqb_eq in E. subst. f_equal. rewrite filter_id; auto. intros y Hy. apply negb_true_iff, String.eqb_neq. intros ->. contradiction.
    - cbn [length]. f_equal. apply IH; auto. destruct Hk as [->|Hk]; auto. rewrite String.eqb_refl in E. discriminate.
  Qed.

  (** C57: a state is stored with all its quantities exactly when no name clashes. *)
  Lemma main_lossless : forall ord m (st : state T) t, (forall l, Permutation (ord l) l) -> NoDup (keys st) -> dget "time" st = Some (VTime t) ->
    ~ In "" (chosen ord m st) -> (forall la, In la (m_aliases m) -> str_in (fst la) "time" = false) ->
    ((exists cs, prepare ord m st = Ok (t, cs) /\ S (length cs) = length (chosen ord m st)) <-> no_clashes (m_aliases m) (chosen ord m st)).
  Proof.
    intros ord m st t Po Nd Ht Hne Htime. split.
    - intros (cs & H & Hl). destruct (chosen_ok ord m st Po Nd) as (c0 & E & K & N0 & I0 & V0). unfold prepare in H. rewrite E in H. cbn [bind] in H. rewrite <- K in *.
      apply mem_false in Hne. rewrite Hne in H. apply bind_ok in H as (c1 & E1 & H). apply bind_ok in H as (v & Hv & H). apply dgetE_ok in Hv. apply bind_ok in H as (v' & _ & H). destruct v'; [discriminate H|]. injection H as _ <-.
      destruct (aliases_conv _ _ _ N0 E1) as (_ & Hc). apply Hc. rewrite length_ddel in Hl. { rewrite Hl. unfold keys. apply map_length. }
      { clear - E1 N0. revert c0 c1 N0 E1. induction (m_aliases m) as [|la l IH]; intros c0 c1 N0 E1; cbn [foldM] in E1. injection E1 as <-; auto.
        apply bind_ok in E1 as (c2 & E2 & E1). destruct (apply_alias_values _ _ _ _ E2 N0) as (N2 & _). eapply IH; eauto. }
      eapply dget_In_keys; eauto.
    - intros Nc. destruct (main_prepare ord m st t Po Nd Ht Hne Nc Htime) as (cs & H & N1 & V1 & I1 & J1). exists cs. split; auto.
      assert (P : Permutation (final_name (m_aliases m) "time" :: keys cs) (map (final_name (m_aliases m)) (chosen ord m st))).
      { assert (Ndc : NoDup (chosen ord m st)). { destruct (chosen_ok ord m st Po Nd) as (c0 & _ & K & N0 & _). rewrite <- K; auto. }
        assert (Hct : In "time" (chosen ord m st)).
        { unfold chosen. assert (Hk : In "time" (keys st)) by (eapply dget_In_keys; eauto). destruct (m_names m); auto. eapply Permutation_in. apply Permutation_sym, Po. apply filter_In. split; auto. }
        apply NoDup_Permutation.
        - constructor; auto. intros Hin. apply I1 in Hin as (n & Hn & Hnt & En). apply Hnt. symmetry. apply J1; auto.
        - clear - J1 Ndc. revert J1. induction (chosen ord m st) as [|n l IH]; intros J1; constructor; inversion Ndc as [|? ? Hn Nd']; subst.
          + intros Hin. apply in_map_iff in Hin as (n' & En & Hn'). apply Hn. replace n with n'; auto. apply J1; cbn; auto.
          + apply IH; auto. intros a b Ha Hb. apply J1; cbn; auto.
        - intros x. split.
          + intros [<-|Hx]. apply in_map; auto. apply I1 in Hx as (n & Hn & _ & ->). apply in_map; auto.
          + intros Hx. apply in_map_iff in Hx as (n & <- & Hn). destruct (string_dec n "time") as [->|Hnt]; [cbn; auto|]. right.
            assert (Hk : In n (keys st)). { unfold chosen in Hn. destruct (m_names m); auto. eapply Permutation_in in Hn; [|apply Po]. apply filter_In in Hn. tauto. }
            apply In_keys_dget in Hk as (v & Hv). eapply dget_In_keys. apply V1; eauto. }
      apply Permutation_length in P. rewrite map_length in P. rewrite <- P. cbn [length]. f_equal. unfold keys. rewrite map_length. auto.
  Qed.
End Alias.
