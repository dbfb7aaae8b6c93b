(** Listing the constants (C52, C66). *)
From Coq Require Import String Ascii List Bool Arith ZArith QArith Lia.
From Verif Require Import Prelude PreludeFacts ArithM NdArray Units UnitsFacts DataArrayM StrFun Constants SpecConstants Checks ConstantsFacts.
Import ListNotations.
Open Scope string_scope.
Open Scope nat_scope.
Open Scope list_scope.

(** ** Circular and other tables *)

Lemma resolves_avoid : forall al n H k, resolves al n H k -> forall m h, resolves al m h k -> h < H -> resolves (ddel n al) m h k.
Proof.
  intros al n H k HH m h Hm. induction Hm as [m Hn|m m' h k Hg Hm IH]; intros Hlt.
  - constructor. intros Hin. rewrite keys_ddel in Hin. apply filter_In in Hin as (Hin & _). auto.
  - apply resolves_hop with (m := m'). 2: apply IH; auto; lia. rewrite dget_ddel. destruct (String.eqb m n) eqn:E; auto.
    apply String.eqb_eq in E. subst. assert (R : resolves al n (S h) k) by (econstructor; eauto). destruct (resolves_fun _ _ _ _ _ _ HH R) as (-> & _). lia.
Qed.

Lemma ddel_shorter : forall {V} (d : dict V) n, In n (keys d) -> length (ddel n d) < length d.
Proof.
  intros V d n. assert (L : forall d : dict V, length (ddel n d) <= length d).
  { induction d0 as [|[k v] d0 IH]; cbn [ddel length]; auto. destruct (String.eqb n k); cbn [length]; lia. }
  induction d as [|[k v] d IH]; cbn [keys map fst ddel length In]; intros H; [contradiction|]. destruct (String.eqb n k) eqn:E.
  - specialize (L d). lia.
  - destruct H as [->|H]. rewrite String.eqb_refl in E. discriminate. cbn [length]. specialize (IH H). lia.
Qed.

Lemma resolves_length : forall h al n k, resolves al n h k -> h <= length al.
Proof.
  induction h as [|h IH]; intros al n k H. lia. inversion H as [|? m ? ? Hg Hm]; subst.
  pose proof (IH _ _ _ (resolves_avoid al n (S h) k H m h Hm (Nat.lt_succ_diag_r h))). pose proof (ddel_shorter al n (dget_In_keys _ _ _ Hg)). lia.
Qed.

(** C50: with at most a hundred aliases, the error means there is a circle. *)
Theorem main_circle : forall al name, length al <= 100 -> (get_alias al name = Err ERuntime <-> forall h k, ~ resolves al name h k).
Proof.
  intros al name L. split.
  - intros E h k H. pose proof (resolves_length _ _ _ _ H). rewrite (proj2 (main_get_alias al name k)) in E. discriminate E. exists h. split; auto. lia.
  - intros H. destruct (main_get_alias_err al name) as [(k & E)|E]; auto. apply main_get_alias in E as (h & _ & E). destruct (H _ _ E).
Qed.

(** ** The loop *)

Section Proxy.
  Context {V : Type}.

  Lemma reaches_fun : forall al (st : dict V) n v v', reaches al st n v -> reaches al st n v' -> v = v'.
  Proof.
    intros al st n v v' H. induction H as [n v Hs|n m v Hs Hm H IH]; intros H'; inversion H' as [? ? Hs'|? ? ? Hs' Hm' H2]; subst; try congruence.
    apply IH. rewrite Hm in Hm'. injection Hm' as <-. auto.
  Qed.

  Lemma proxy_step_get : forall al (d : dict V) n, NoDup (keys al) ->
    dget n (proxy_step al d) = if dmem n d then None else match dget n al with Some m => dget m d | None => None end.
  Proof.
    intros al d n No. unfold proxy_step.
    assert (G : forall al new, NoDup (keys al) -> dget n (fold_left (fun new ao => match dget (snd ao) d with
                           | Some v => if dmem (fst ao) d then new else dset (fst ao) v new | None => new end) al new)
      = match dget n al with
        | Some m => if dmem n d then dget n new else match dget m d with Some v => Some v | None => dget n new end
        | None => dget n new end).
    { clear. induction al as [|[a o] al IH]; intros new No; cbn [fold_left dget fst snd]; auto. cbn [keys map fst] in No. inversion No as [|? ? Na No']; subst.
      rewrite IH by auto. destruct (String.eqb n a) eqn:E.
      - apply String.eqb_eq in E. subst. rewrite (proj2 (dget_none a al) Na). destruct (dget o d) as [v|]; [|destruct (dmem a d); auto].
        destruct (dmem a d); auto. rewrite dget_dset_eq. auto.
      - assert (E' : n <> a) by (intros ->; rewrite String.eqb_refl in E; discriminate).
        assert (Eq : dget n (match dget o d with Some v => if dmem a d then new else dset a v new | None => new end) = dget n new).
        { destruct (dget o d); auto. destruct (dmem a d); auto. apply dget_dset_neq. auto. }
        rewrite Eq. auto. }
    rewrite G by auto. destruct (dget n al) as [m|]; cbn [dget]; destruct (dmem n d); auto. destruct (dget m d); auto.
  Qed.

  Lemma proxy_step_nodup : forall al (d : dict V), NoDup (keys (proxy_step al d)).
  Proof.
    intros al d. unfold proxy_step. assert (N : NoDup (keys (@nil (string * V)))) by constructor. revert N. generalize (@nil (string * V)).
    induction al as [|[a o] al IH]; intros new N; cbn [fold_left fst snd]; auto. apply IH. destruct (dget o d); auto. destruct (dmem a d); auto. apply NoDup_dset; auto.
  Qed.

  (** The aliases not listed yet. *)
  Definition missing (al : dict string) (d : dict V) : nat := length (filter (fun a => negb (dmem a d)) (keys al)).

  Lemma missing_le : forall al d d', (forall n, dmem n d = true -> dmem n d' = true) -> missing al d' <= missing al d.
  Proof.
    intros al d d' H. unfold missing. induction (keys al) as [|a r IH]; cbn [filter length]; auto.
    destruct (dmem a d) eqn:E. rewrite (H _ E). cbn [negb]. auto. destruct (dmem a d'); cbn [negb length]; lia.
  Qed.

  Lemma missing_lt : forall al d d' x, (forall n, dmem n d = true -> dmem n d' = true) -> In x (keys al) -> dmem x d = false -> dmem x d' = true ->
    missing al d' < missing al d.
  Proof.
    intros al d d' x H Hx E E'. unfold missing. assert (L := missing_le al d d' H). unfold missing in L. clear L.
    assert (L : forall r, length (filter (fun a => negb (dmem a d')) r) <= length (filter (fun a => negb (dmem a d)) r)).
    { induction r as [|a r IH]; cbn [filter length]; auto. destruct (dmem a d) eqn:F. rewrite (H _ F). cbn [negb]. auto. destruct (dmem a d'); cbn [negb length]; lia. }
    revert Hx. induction (keys al) as [|a r IH]; intros Hx; [destruct Hx|]. cbn [filter]. destruct Hx as [->|Hx].
    - rewrite E, E'. cbn [negb length]. specialize (L r). lia.
    - specialize (IH Hx). destruct (dmem a d) eqn:F. rewrite (H _ F). cbn [negb]. auto. destruct (dmem a d'); cbn [negb length]; lia.
  Qed.

  Lemma dmem_update : forall (d e : dict V) n, dmem n (dupdate d e) = (dmem n e || dmem n d)%bool.
  Proof.
    intros d e n. destruct (dmem n (dupdate d e)) eqn:E.
    - apply dmem_In, In_keys_dupdate in E. symmetry. apply orb_true_iff. rewrite !dmem_In. tauto.
    - apply dmem_false in E. symmetry. apply orb_false_iff. rewrite !dmem_false. rewrite In_keys_dupdate in E. tauto.
  Qed.

  Lemma step_progress : forall al (d : dict V) p r, NoDup (keys al) -> proxy_step al d = p :: r -> missing al (dupdate d (p :: r)) < missing al d.
  Proof.
    intros al d [x v] r No E. assert (Hx : dget x (proxy_step al d) <> None) by (rewrite E; cbn [dget]; rewrite String.eqb_refl; discriminate).
    rewrite proxy_step_get in Hx by auto. destruct (dmem x d) eqn:Ex; [contradiction Hx; auto|]. destruct (dget x al) as [m|] eqn:Em; [|contradiction Hx; auto].
    apply missing_lt with (x := x); auto.
    - intros n Hn. rewrite dmem_update, Hn. apply orb_true_r.
    - eapply dget_In_keys; eauto.
    - rewrite dmem_update. apply orb_true_iff. left. apply dmem_In. left. auto.
  Qed.

  Lemma loop_spec : forall al (st : dict V) fuel d, NoDup (keys al) -> missing al d < fuel ->
    NoDup (keys d) -> (forall n v, dget n st = Some v -> dget n d = Some v) -> (forall n v, dget n d = Some v -> reaches al st n v) ->
    exists d', proxy_loop fuel al d = Some d' /\ NoDup (keys d') /\ forall n v, dget n d' = Some v <-> reaches al st n v.
  Proof.
    intros al st fuel. induction fuel as [|fuel IH]; intros d No Hf Nd Hst Hr; [lia|]. cbn [proxy_loop]. destruct (proxy_step al d) as [|p r] eqn:E.
    - exists d. split; auto. split; auto. intros n v. split; auto. intros H. induction H as [n v Hs|n m v Hs Hm H IHr]; auto.
      pose proof (proxy_step_get al d n No) as G. rewrite E, Hm, IHr in G. cbn [dget] in G. destruct (dmem n d) eqn:En; [|discriminate G].
      apply dmem_In, In_keys_dget in En as (v' & En). rewrite En. f_equal. apply (reaches_fun al st n). auto. eapply reaches_alias; eauto.
    - apply IH; auto.
      + pose proof (step_progress al d p r No E). lia.
      + apply NoDup_dupdate; auto.
      + intros n v H. rewrite dget_dupdate by (rewrite <- E; apply proxy_step_nodup). rewrite <- E, proxy_step_get by auto.
        apply Hst in H. assert (M : dmem n d = true) by (apply dmem_In; eapply dget_In_keys; eauto). rewrite M. auto.
      + intros n v H. rewrite dget_dupdate in H by (rewrite <- E; apply proxy_step_nodup). rewrite <- E, proxy_step_get in H by auto.
        destruct (dmem n d) eqn:M; auto. destruct (dget n al) as [m|] eqn:Em; auto. destruct (dget m d) as [w|] eqn:Ew; auto. injection H as ->.
        apply reaches_alias with (m := m); auto. destruct (dget n st) as [w|] eqn:Es; auto. apply Hst in Es. apply dmem_false in M. exfalso. apply M. eapply dget_In_keys; eauto.
  Qed.

  Lemma missing_bound : forall al d, missing al d <= length al.
  Proof.
    intros al d. unfold missing. transitivity (length (keys al)). 2: unfold keys; rewrite map_length; auto.
    induction (keys al) as [|a r IH]; cbn [filter length]; auto. destruct (negb _); cbn [length]; lia.
  Qed.

  (** C52: the loop ends, whatever the table, and lists what can be reached. *)
  Theorem main_listing : forall al (st : dict V), NoDup (keys al) -> NoDup (keys st) ->
    exists d, (forall passes, length al < passes -> proxy_loop passes al st = Some d) /\ NoDup (keys d) /\ forall n v, dget n d = Some v <-> reaches al st n v.
  Proof.
    intros al st No Ns.
    assert (M : forall fuel fuel' (d r : dict V), fuel <= fuel' -> proxy_loop fuel al d = Some r -> proxy_loop fuel' al d = Some r).
    { clear. induction fuel as [|fuel IH]; intros fuel' d r L H; [discriminate H|]. destruct fuel' as [|fuel']; [lia|]. cbn [proxy_loop] in *.
      destruct (proxy_step al d); auto. apply IH; auto. lia. }
    destruct (loop_spec al st (S (length al)) st No) as (d & Hd & Nd & Hr); auto.
    - pose proof (missing_bound al st). lia.
    - intros n v H. constructor. auto.
    - exists d. split; auto. intros passes L. eapply M; eauto.
  Qed.
End Proxy.

(** ** Listing after a history *)

Section History.
  Context {T : Type} {A : Arith T} {R : Registry}.

  Lemma nodup_alias_names : NoDup alias_names.
  Proof. apply nodupb_ok. vm_compute. reflexivity. Qed.

  Lemma reaches_resolves : forall {V} al (st : dict V) n v, (forall k, In k (keys st) -> ~ In k (keys al)) ->
    (reaches al st n v <-> exists h k, resolves al n h k /\ dget k st = Some v).
  Proof.
    intros V al st n v Hd. split.
    - intros H. induction H as [n v Hs|n m v Hs Hm H IH].
      + exists 0, n. split; auto. constructor. apply Hd. eapply dget_In_keys; eauto.
      + destruct IH as (h & k & Hr & Hk). exists (S h), k. split; auto. econstructor; eauto.
    - intros (h & k & Hr & Hk). induction Hr as [n Hn|n m h k Hm Hr IH]. constructor; auto.
      apply reaches_alias with (m := m); auto. apply dget_none. intros Hin. apply Hd in Hin. apply Hin. eapply dget_In_keys; eauto.
  Qed.

  Lemma getitem_meaning : forall (l : clib T) s n, same_library l s -> const_getitem l n =
    match meaning (condensible s) n with None => Err ERuntime | Some k => match known s k with Some vu => Ok (scalar_da (fst vu) (snd vu)) | None => Err EKey end end.
  Proof.
    intros l s n (Ha & Hd & _). unfold const_getitem. rewrite Ha. destruct (dmem n (aliases_for (condensible s))) eqn:E.
    - rewrite main_meaning. destruct (meaning (condensible s) n) as [k|]; auto. cbn [bind]. unfold dgetE. rewrite Hd. destruct (known s k); auto.
    - apply dmem_false in E. rewrite alias_names_for in E. rewrite (meaning_plain _ n E). cbn [bind]. unfold dgetE. rewrite Hd. destruct (known s n); auto.
  Qed.

  (** C52: after any history the listing has exactly the names that can be looked up. *)
  Theorem main_items_after : forall ops : list (const_op T), exists d, const_items (lib_after ops) = Some d /\ NoDup (keys d) /\
    forall n a, dget n d = Some a <-> const_getitem (lib_after ops) n = Ok a.
  Proof.
    intros ops. pose proof (same_after ops) as S. set (l := lib_after ops) in *. set (s := library_after ops) in *. clearbody l s. pose proof S as (Ha & Hd & Hk & Hn).
    destruct (main_listing (c_alias l) (c_store l)) as (d & Hl & Nd & Hr). { rewrite Ha, alias_names_for. apply nodup_alias_names. } { auto. }
    exists d. split. { unfold const_items. apply Hl. lia. } split; auto. intros n a. rewrite Hr, reaches_resolves. 2: { intros k Hin. rewrite Ha, alias_names_for. auto. }
    assert (L : length (aliases_for (condensible s)) <= 100). { change (length (aliases_for (condensible s))) with (length (aliases_for "")). vm_compute. lia. }
    rewrite (getitem_meaning l s n S). pose proof (main_meaning (condensible s) n) as E. rewrite Ha. split.
    - intros (h & k & Hres & Hg). pose proof (resolves_length _ _ _ _ Hres) as Hh.
      rewrite (proj2 (main_get_alias _ n k)) in E by (exists h; split; auto; lia). destruct (meaning (condensible s) n) as [k'|]; [|discriminate E]. injection E as <-.
      rewrite Hd in Hg. destruct (known s k) as [vu|]; [|discriminate Hg]. injection Hg as <-. auto.
    - intros H. destruct (meaning (condensible s) n) as [k|]; [|discriminate H]. apply main_get_alias in E as (h & _ & Hres). exists h, k. split; auto.
      rewrite Hd. destruct (known s k) as [vu|]; [|discriminate H]. injection H as <-. auto.
  Qed.

  Lemma mapM_lines : forall {X Y} (f : X -> res Y) l r, mapM f l = Ok r <-> Forall2 (fun x y => f x = Ok y) l r.
  Proof.
    intros X Y f. induction l as [|x l IH]; intros r; cbn [mapM].
    - split. intros H. injection H as <-. constructor. intros H. inversion H. auto.
    - split.
      + intros H. apply bind_ok in H as (y & Hy & H). apply bind_ok in H as (ys & Hys & H). injection H as <-. constructor; auto. apply IH. auto.
      + intros H. inversion H as [|? y ? ys Hy Hys]; subst. rewrite Hy. cbn [bind]. apply IH in Hys. rewrite Hys. auto.
  Qed.

  Lemma repr_line_eq : forall (l : clib T) s strip n, same_library l s -> repr_line l strip n =
    match meaning (condensible s) n with None => Err ERuntime | Some k =>
      match known s k with Some vu => Ok (n, fst vu, if strip then str_replace "dimensionless" "" (snd vu) else snd vu) | None => Err EKey end end.
  Proof.
    intros l s strip n S. unfold repr_line. rewrite (getitem_meaning l s n S). destruct (meaning (condensible s) n) as [k|]; auto. destruct (known s k) as [[v u]|]; auto.
  Qed.

  Lemma repr_line_iff : forall (l : clib T) s strip n y, same_library l s -> (repr_line l strip n = Ok y <->
    exists v u, stands_for s n = Some (v, u) /\ y = (n, v, if strip then str_replace "dimensionless" "" u else u)).
  Proof.
    intros l s strip n y S. rewrite (repr_line_eq l s strip n S). unfold stands_for. destruct (meaning (condensible s) n) as [k|].
    - destruct (known s k) as [[v u]|]; cbn [fst snd]; split.
      + intros H. injection H as <-. eauto.
      + intros (v' & u' & H & ->). injection H as <- <-. auto.
      + discriminate.
      + intros (v' & u' & H & _). discriminate H.
    - split. discriminate. intros (v' & u' & H & _). discriminate H.
  Qed.

  Lemma lines_names : forall (l : clib T) strip ns ys, Forall2 (fun n y => repr_line l strip n = Ok y) ns ys -> map (fun y => fst (fst y)) ys = ns.
  Proof.
    intros l strip ns ys H. induction H as [|n y ns ys Hy H IH]; cbn [map]; auto. rewrite IH. f_equal. unfold repr_line in Hy.
    apply bind_ok in Hy as (a & _ & Hy). apply bind_ok in Hy as (u & _ & Hy). apply bind_ok in Hy as (x & _ & Hy). injection Hy as <-. auto.
  Qed.

  Lemma In_lines : forall (l : clib T) s strip ns ys n v w, same_library l s -> Forall2 (fun n y => repr_line l strip n = Ok y) ns ys ->
    (In (n, v, w) ys <-> In n ns /\ exists u, stands_for s n = Some (v, u) /\ w = (if strip then str_replace "dimensionless" "" u else u)).
  Proof.
    intros l s strip ns ys n v w S H. induction H as [|n0 y ns ys Hy H IH]; cbn [In]. tauto.
    apply (repr_line_iff l s strip n0 y S) in Hy as (v0 & u0 & Hs & ->). rewrite IH. clear IH. split.
    - intros [E|(Hin & Hx)]; auto. injection E as <- <- <-. split; eauto.
    - intros ([->|Hin] & u & Hu & Hw); eauto. rewrite Hs in Hu. injection Hu as <- <-. subst. auto.
  Qed.

  Lemma NoDup_app_str : forall l1 l2 : list string, NoDup l1 -> NoDup l2 -> (forall x, In x l1 -> ~ In x l2) -> NoDup (l1 ++ l2).
  Proof.
    induction l1 as [|a l1 IH]; intros l2 N1 N2 H; cbn [app]; auto. inversion N1 as [|? ? Ha N1']; subst. constructor.
    - rewrite in_app_iff. intros [Hin|Hin]; auto. apply (H a); cbn; auto.
    - apply IH; auto. intros x Hx. apply H. cbn. auto.
  Qed.

  Lemma concat_filter_nonempty : forall {L} (r : list (string * list L)), concat (map snd (filter (fun c => negb (Nat.eqb (length (snd c)) 0)) r)) = concat (map snd r).
  Proof.
    intros L r. induction r as [|[c ls] r IH]; cbn [filter map concat snd]; auto. destruct ls; cbn [length Nat.eqb negb map concat snd app]; auto. rewrite IH. auto.
  Qed.

  Lemma repr_parts : forall (l : clib T) d r, const_items l = Some d -> (const_repr l = Ok r <->
    exists cats user, mapM (fun cn => let* lines := mapM (repr_line l true) (snd cn) in Ok (fst cn, lines)) categories = Ok cats /\
      mapM (repr_line l false) (filter (fun n => negb (mem n categorised)) (keys d)) = Ok user /\
      r = filter (fun c => negb (Nat.eqb (length (snd c)) 0)) cats ++ match user with [] => [] | _ => [("user defined", user)] end).
  Proof.
    intros l d r Hd. unfold const_repr. rewrite Hd. fold categorised. split.
    - intros H. apply bind_ok in H as (cats & Hc & H). apply bind_ok in H as (user & Hu & H). injection H as <-. eauto.
    - intros (cats & user & Hc & Hu & ->). rewrite Hc. cbn [bind]. rewrite Hu. cbn [bind]. auto.
  Qed.

  Lemma cats_lines : forall (l : clib T) (cs : dict (list string)) (cats : list (string * list (string * T * string))), mapM (fun cn => let* lines := mapM (repr_line l true) (snd cn) in Ok (fst cn, lines)) cs = Ok cats ->
    map fst cats = map fst cs /\ Forall2 (fun n y => repr_line l true n = Ok y) (concat (map snd cs)) (concat (map snd cats)).
  Proof.
    intros l cs cats H. apply mapM_lines in H. induction H as [|[c ns] [c' ys] cs cats Hy H (IH1 & IH2)]; cbn [map concat fst snd]. split; auto.
    apply bind_ok in Hy as (lines & Hl & Hy). cbn [fst snd] in *. injection Hy as <- <-. apply mapM_lines in Hl. split. rewrite IH1. auto. apply Forall2_app; auto.
  Qed.

  (** C66: the text lists every constant once, with its number and units. *)
  Theorem main_repr : forall (ops : list (const_op T)) r, const_repr (lib_after ops) = Ok r ->
    NoDup (map (fun line => fst (fst line)) (listing_lines r)) /\
    forall n v w, In (n, v, w) (listing_lines r) <-> exists u, stands_for (library_after ops) n = Some (v, u) /\ w = shown_units n u.
  Proof.
    intros ops r H. pose proof (same_after ops) as S. destruct (main_items_after ops) as (d & Hd & Nd & Hg). set (l := lib_after ops) in *. set (s := library_after ops) in *.
    clearbody l s. apply (repr_parts l d r Hd) in H as (cats & user & Hc & Hu & ->).
    apply cats_lines in Hc as (_ & Hc). fold categorised in Hc. apply mapM_lines in Hu.
    assert (E : listing_lines (filter (fun c : string * list (string * T * string) => negb (Nat.eqb (length (snd c)) 0)) cats ++ match user with [] => [] | _ => [("user defined", user)] end)
                = concat (map snd cats) ++ user).
    { unfold listing_lines. rewrite map_app, concat_app, concat_filter_nonempty. f_equal. destruct user; cbn [map concat snd]; auto. rewrite app_nil_r. auto. }
    rewrite E. clear E. split.
    - rewrite map_app, (lines_names _ _ _ _ Hc), (lines_names _ _ _ _ Hu). apply NoDup_app_str.
      + apply nodupb_ok. vm_compute. reflexivity.
      + apply NoDup_filter. auto.
      + intros x Hx Hin. apply filter_In in Hin as (_ & Hin). apply negb_true_iff, mem_false in Hin. auto.
    - intros n v w. rewrite in_app_iff, (In_lines l s _ _ _ n v w S Hc), (In_lines l s _ _ _ n v w S Hu). unfold shown_units. split.
      + intros [(Hin & u & Hs & ->)|(Hin & u & Hs & ->)]; exists u; split; auto.
        * apply mem_In in Hin. rewrite Hin. auto.
        * apply filter_In in Hin as (_ & Hin). apply negb_true_iff in Hin. rewrite Hin. auto.
      + intros (u & Hs & ->). destruct (mem n categorised) eqn:M.
        * left. split; eauto. apply mem_In. auto.
        * right. split; eauto. apply filter_In. rewrite M. split; auto.
          assert (G : const_getitem l n = Ok (scalar_da v u)).
          { rewrite (getitem_meaning l s n S). unfold stands_for in Hs. destruct (meaning (condensible s) n); [|discriminate Hs]. rewrite Hs. auto. }
          apply Hg in G. eapply dget_In_keys; eauto.
  Qed.

  (** C66: when the text can be made. *)
  Theorem main_repr_iff : forall ops : list (const_op T), (exists r, const_repr (lib_after ops) = Ok r) <-> forall n, In n categorised -> exists vu, stands_for (library_after ops) n = Some vu.
  Proof.
    intros ops. pose proof (same_after ops) as S. destruct (main_items_after ops) as (d & Hd & Nd & Hg). set (l := lib_after ops) in *. set (s := library_after ops) in *. clearbody l s.
    assert (G : forall strip n, (exists y, repr_line l strip n = Ok y) <-> exists vu, stands_for s n = Some vu).
    { intros strip n. split.
      - intros (y & Hy). apply (repr_line_iff l s strip n y S) in Hy as (v & u & Hs & _). eauto.
      - intros ([v u] & Hs). eexists. apply (repr_line_iff l s strip n _ S). eauto. }
    assert (M : forall strip ns, (exists ys, mapM (repr_line l strip) ns = Ok ys) <-> forall n, In n ns -> exists vu, stands_for s n = Some vu).
    { intros strip ns. induction ns as [|n ns IH]; cbn [mapM]. split; eauto. intros _ n []. split.
      - intros (ys & H). apply bind_ok in H as (y & Hy & H). apply bind_ok in H as (ys' & Hys & _). intros n0 [<-|Hin]. apply (G strip). eauto. apply IH; eauto.
      - intros H. destruct (proj2 (G strip n)) as (y & Hy). { apply H. cbn. auto. } destruct (proj2 IH) as (ys & Hys). { intros n0 Hn0. apply H. cbn. auto. }
        rewrite Hy. cbn [bind]. rewrite Hys. cbn [bind]. eauto. }
    assert (C : forall cs, (exists cats, mapM (fun cn : string * list string => let* lines := mapM (repr_line l true) (snd cn) in Ok (fst cn, lines)) cs = Ok cats)
                  <-> forall n, In n (concat (map snd cs)) -> exists vu, stands_for s n = Some vu).
    { induction cs as [|[c ns] cs IH]; cbn [mapM map concat snd fst]. split; eauto. intros _ n []. split.
      - intros (ys & H). apply bind_ok in H as (y & Hy & H). apply bind_ok in H as (ys' & Hys & _). apply bind_ok in Hy as (lines & Hl & _).
        intros n Hin. apply in_app_iff in Hin as [Hin|Hin]. apply (M true ns); eauto. apply IH; eauto.
      - intros H. destruct (proj2 (M true ns)) as (lines & Hl). { intros n0 Hn0. apply H. apply in_app_iff. auto. }
        destruct (proj2 IH) as (ys & Hys). { intros n0 Hn0. apply H. apply in_app_iff. auto. } rewrite Hl. cbn [bind]. rewrite Hys. cbn [bind]. eauto. }
    split.
    - intros (r & H). apply (repr_parts l d r Hd) in H as (cats & user & Hc & _). intros n Hin. apply (C categories); eauto.
    - intros H. destruct (proj2 (C categories) H) as (cats & Hc). destruct (proj2 (M false (filter (fun n => negb (mem n categorised)) (keys d)))) as (user & Hu).
      { intros n Hin. apply filter_In in Hin as (Hin & _). apply In_keys_dget in Hin as (a & Ha). apply Hg in Ha. rewrite (getitem_meaning l s n S) in Ha. unfold stands_for.
        destruct (meaning (condensible s) n); [|discriminate Ha]. destruct (known s s0); eauto. discriminate Ha. }
      eexists. apply (repr_parts l d _ Hd). eauto.
  Qed.

  Lemma known_stays : forall (ops : list (const_op T)) k, In k (keys default_values) -> exists vu, known (library_after ops) k = Some vu.
  Proof.
    intros ops k Hk. assert (I : exists vu, known (at_import (T := T)) k = Some vu).
    { unfold at_import, known. apply In_keys_dget in Hk as ([q u] & E). rewrite E. cbn [option_map]. eauto. }
    unfold library_after. revert I. generalize (at_import (T := T)). induction ops as [|op ops IH]; intros s I; cbn [fold_left]; auto. apply IH.
    destruct op as [n v u|c|]; cbn [library_step].
    - destruct (meaning (condensible s) n) as [k'|]; auto. destruct (is_valid_unit u); auto. cbn [known]. destruct (String.eqb k k'); eauto.
    - auto.
    - unfold at_import, known. apply In_keys_dget in Hk as ([q u] & E). rewrite E. cbn [option_map]. eauto.
  Qed.

  (** C66: while the condensible is water it always can. *)
  Theorem main_repr_water : forall ops : list (const_op T), condensible (library_after ops) = "water" -> exists r, const_repr (lib_after ops) = Ok r.
  Proof.
    intros ops Hw. apply main_repr_iff. intros n Hn. unfold stands_for. rewrite Hw.
    assert (E : forallb (fun n => match meaning "water" n with Some k => mem k (keys default_values) | None => false end) categorised = true) by (vm_compute; reflexivity).
    rewrite forallb_forall in E. specialize (E _ Hn). destruct (meaning "water" n) as [k|]; [|discriminate E]. apply known_stays. apply mem_In. auto.
  Qed.
End History.
