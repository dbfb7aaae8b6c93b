(** Constants and their aliases (C49-C52, C66). *)
From Coq Require Import String Ascii List Bool Arith ZArith QArith Lia.
From Verif Require Import Prelude PreludeFacts ArithM NdArray Units UnitsFacts DataArrayM StrFun Constants SpecConstants Checks.
Import ListNotations.
Open Scope string_scope.
Open Scope nat_scope.
Open Scope list_scope.

(** ** Resolution *)

Lemma resolves_end : forall al n h k, resolves al n h k -> ~ In k (keys al).
Proof. intros al n h k H. induction H; auto. Qed.

Lemma resolves_fun : forall al n h k h' k', resolves al n h k -> resolves al n h' k' -> h = h' /\ k = k'.
Proof.
  intros al n h k h' k' H. revert h' k'. induction H as [n Hn|n m h k Hm H IH]; intros h' k' H'.
  - inversion H'; subst; auto. exfalso. apply Hn. eapply dget_In_keys; eauto.
  - inversion H' as [? Hn|? m' h2 k2 Hm' H2]; subst. { exfalso. apply Hn. eapply dget_In_keys; eauto. }
    rewrite Hm in Hm'. injection Hm' as <-. destruct (IH _ _ H2) as (-> & ->). auto.
Qed.

Lemma chase_spec : forall n al name, (exists h, h <= n /\ resolves al name h (chase n al name)) \/ In (chase n al name) (keys al).
Proof.
  induction n as [|n IH]; intros al name; cbn [chase].
  - destruct (In_dec_str name (keys al)); auto. left. exists 0. split; auto. constructor; auto.
  - destruct (dget name al) as [m|] eqn:E.
    + destruct (IH al m) as [(h & Hh & Hr)|H]; auto. left. exists (S h). split. lia. econstructor; eauto.
    + left. exists 0. split. lia. constructor. apply dget_none; auto.
Qed.

Theorem main_get_alias : forall al name k, get_alias al name = Ok k <-> exists h, h <= 100 /\ resolves al name h k.
Proof.
  intros al name k. unfold get_alias. split.
  - destruct (dmem _ al) eqn:E; [discriminate|]. intros H. injection H as <-. apply dmem_false in E.
    destruct (chase_spec 100 al name) as [H|H]; [auto|contradiction].
  - intros (h & Hh & Hr).
    assert (G : forall n h al name k, h <= n -> resolves al name h k -> chase n al name = k).
    { clear. induction n as [|n IH]; intros h al name k Hh Hr.
      - inversion Hr; subst; [reflexivity|lia].
      - cbn [chase]. inversion Hr as [? Hn|? m h' k' Hm Hr']; subst.
        + apply dget_none in Hn. rewrite Hn. auto.
        + rewrite Hm. apply (IH h'); auto. lia. }
    rewrite (G 100 h al name k) by auto. apply resolves_end in Hr. apply dmem_false in Hr. rewrite Hr. auto.
Qed.

Theorem main_get_alias_err : forall al name, (exists k, get_alias al name = Ok k) \/ get_alias al name = Err ERuntime.
Proof. intros al name. unfold get_alias. destruct (dmem _ al); eauto. Qed.

(** ** Reading and writing *)

Section Values.
  Context {T : Type} {A : Arith T} {R : Registry}.

  Lemma getitem_resolved : forall (l : clib T) name h k, resolves (c_alias l) name h k -> h <= 100 -> const_getitem l name = dgetE k (c_store l).
  Proof.
    intros l name h k Hr Hh. unfold const_getitem. destruct (dmem name (c_alias l)) eqn:E.
    - rewrite (proj2 (main_get_alias (c_alias l) name k)); eauto.
    - inversion Hr as [? Hn|? m h' k' Hm Hr']; subst; auto. exfalso. apply dmem_false in E. apply E. eapply dget_In_keys; eauto.
  Qed.

  Lemma get_constant_resolved : forall (l : clib T) name h k u, resolves (c_alias l) name h k -> h <= 100 ->
    get_constant l name u = let* a := dgetE k (c_store l) in let* a := to_units a u in item a.
  Proof.
    intros l name h k u Hr Hh. unfold get_constant. rewrite (proj2 (main_get_alias (c_alias l) name k)) by eauto. cbn [bind].
    rewrite (getitem_resolved l k 0 k); auto. constructor. eapply resolves_end; eauto. lia.
  Qed.

  Lemma to_units_scalar_own : forall (v : T) u, is_valid_unit u = true -> to_units (scalar_da v u) u = Ok (scalar_da v u).
  Proof.
    intros v u H. unfold to_units, is_valid_unit in *. change (dget "units" (attrs (scalar_da v u))) with (Some u). cbv beta iota. unfold parseE.
    destruct (parse u) as [x|]; [|discriminate H]. cbn [bind]. rewrite one_eqb_refl. reflexivity.
  Qed.

  (** C49: what setting a constant does. *)
  Theorem main_set_constant : forall (l : clib T) name v u h k, resolves (c_alias l) name h k -> h <= 100 -> is_valid_unit u = true ->
    exists l', set_constant l name v u = Ok l' /\ c_alias l' = c_alias l /\
      (forall m hm, resolves (c_alias l) m hm k -> hm <= 100 ->
         get_constant l' m u = Ok v /\ forall u', get_constant l' m u' = (let* a := to_units (scalar_da v u) u' in item a)) /\
      (forall m hm k', resolves (c_alias l) m hm k' -> hm <= 100 -> k' <> k -> forall u', get_constant l' m u' = get_constant l m u').
  Proof.
    intros l name v u h k Hr Hh Hu. pose proof (resolves_end _ _ _ _ Hr) as Hk.
    exists (mkclib (dset k (scalar_da v u) (c_store l)) (c_alias l)). split; [|split; [auto|split]].
    - unfold set_constant. rewrite Hu, (proj2 (main_get_alias (c_alias l) name k)) by eauto. cbn [bind]. unfold const_setitem.
      apply dmem_false in Hk. rewrite Hk. reflexivity.
    - intros m hm Hm Hhm. assert (G : forall u', get_constant (mkclib (dset k (scalar_da v u) (c_store l)) (c_alias l)) m u' = (let* a := to_units (scalar_da v u) u' in item a)).
      { intros u'. rewrite (get_constant_resolved _ m hm k) by auto. cbn [c_store]. unfold dgetE. rewrite dget_dset_eq. reflexivity. }
      split; auto. rewrite G, to_units_scalar_own by auto. reflexivity.
    - intros m hm k' Hm Hhm Hne u'. rewrite (get_constant_resolved _ m hm k') by auto. rewrite (get_constant_resolved l m hm k') by auto.
      cbn [c_store]. unfold dgetE. rewrite dget_dset_neq by auto. reflexivity.
  Qed.

  (** C49: a refused call. *)
  Theorem main_set_refused : forall (l : clib T) name v u, (is_valid_unit u = false -> set_constant l name v u = Err EValue) /\
    forall e, set_constant l name v u = Err e -> const_step l (SetConstant name v u) = l /\ (e = EValue \/ e = ERuntime).
  Proof.
    intros l name v u. unfold const_step, set_constant. split. { intros ->. auto. }
    destruct (is_valid_unit u). 2: { intros e H. injection H as <-. auto. }
    intros e H. rewrite H. split; auto. unfold const_setitem in H. destruct (main_get_alias_err (c_alias l) name) as [(k & E)|E]; rewrite E in H; cbn [bind] in H.
    - destruct (dmem k (c_alias l)); cbn [bind] in H; [|discriminate H]. destruct (main_get_alias_err (c_alias l) k) as [(k' & E')|E']; rewrite E' in H; cbn [bind] in H.
      discriminate H. injection H as <-. auto.
    - injection H as <-. auto.
  Qed.
End Values.

(** ** Histories of aliases *)

(** The string between [pre] and [suf]. *)
Fixpoint str_take (n : nat) (s : string) : string :=
  match n, s with
  | S n', String c r => String c (str_take n' r)
  | _, _ => EmptyString
  end.

Definition unaffix (pre suf k : string) : option string :=
  match strip_prefix pre k with
  | None => None
  | Some r => let c := str_take (String.length r - String.length suf) r in
              if String.eqb (c ++ suf) r then Some c else None
  end.

Lemma strip_prefix_app : forall p s, strip_prefix p (p ++ s) = Some s.
Proof. induction p as [|a p IH]; intros s; cbn [strip_prefix String.append]; auto. rewrite Ascii.eqb_refl. auto. Qed.

Lemma strlen_app : forall a b, String.length (a ++ b) = String.length a + String.length b.
Proof. induction a as [|x a IH]; intros b; cbn [String.append String.length]; auto. rewrite IH. auto. Qed.

Lemma str_take_app : forall c s, str_take (String.length c) (c ++ s) = c.
Proof. induction c as [|a c IH]; intros s; cbn [String.length String.append str_take]; auto. rewrite IH. auto. Qed.

Lemma unaffix_ok : forall pre c suf, unaffix pre suf (pre ++ c ++ suf) = Some c.
Proof.
  intros pre c suf. unfold unaffix. rewrite strip_prefix_app, strlen_app. replace (String.length c + String.length suf - String.length suf) with (String.length c) by lia.
  rewrite str_take_app, String.eqb_refl. auto.
Qed.

(** The aliases after any history: those for the last condensible. *)
Definition aliases_for (c : string) : dict string := dupdate (dupdate [] default_aliases) (condensible_map c).

Lemma aliases_again : forall c c', dupdate (aliases_for c) (condensible_map c') = aliases_for c'.
Proof. intros c c'. reflexivity. Qed.

Definition alias_names : list string := keys (aliases_for "").

Lemma alias_names_for : forall c, keys (aliases_for c) = alias_names.
Proof. intros c. reflexivity. Qed.

Lemma affix_outside : forall c k0 pre suf, c <> "phase" -> In (k0, (pre, suf)) condensible_affixes -> ~ In (pre ++ c ++ suf)%string alias_names.
Proof.
  intros c k0 pre suf Hc Ha Hin.
  assert (E : forallb (fun ka : string * (string * string) => forallb (fun n => match unaffix (fst (snd ka)) (snd (snd ka)) n with None => true | Some x => String.eqb x "phase" end) alias_names)
                condensible_affixes = true) by (vm_compute; reflexivity).
  rewrite forallb_forall in E. specialize (E _ Ha). rewrite forallb_forall in E. specialize (E _ Hin). cbn [fst snd] in E.
  rewrite unaffix_ok in E. apply String.eqb_eq in E. contradiction.
Qed.

Lemma affix_names_alias : forall k, In k (keys condensible_affixes) -> In k alias_names.
Proof.
  intros k H. assert (E : forallb (fun k => mem k alias_names) (keys condensible_affixes) = true) by (vm_compute; reflexivity).
  rewrite forallb_forall in E. apply mem_In. auto.
Qed.

Lemma keys_condensible : forall c, keys (condensible_map c) = keys condensible_affixes.
Proof. intros c. unfold condensible_map, keys. rewrite map_map. reflexivity. Qed.

Lemma nodup_affixes : NoDup (keys condensible_affixes).
Proof. apply nodupb_ok. vm_compute. reflexivity. Qed.

Lemma dget_condensible : forall c n, dget n (condensible_map c) = match dget n condensible_affixes with Some (p, s) => Some (p ++ c ++ s)%string | None => None end.
Proof.
  intros c n. unfold condensible_map. generalize condensible_affixes. intros l. induction l as [|[k [p s]] l IH]; cbn [map dget fst snd]; auto.
  destruct (String.eqb n k); auto.
Qed.

Lemma dget_aliases_for : forall c n, dget n (aliases_for c) =
  match dget n condensible_affixes with Some (p, s) => Some (p ++ c ++ s)%string | None => dget n default_aliases end.
Proof.
  intros c n. unfold aliases_for. rewrite dget_dupdate, dget_condensible by (rewrite keys_condensible; exact nodup_affixes).
  destruct (dget n condensible_affixes) as [[p s]|]; auto.
Qed.

Lemma phase_resolves : forall c n, c <> "phase" -> dget n default_aliases = None ->
  exists h k, h <= 1 /\ phase_name c n = Some k /\ resolves (aliases_for c) n h k.
Proof.
  intros c n Hc Hd. unfold phase_name. destruct (dget n condensible_affixes) as [[p s]|] eqn:E.
  - pose proof (affix_outside c n p s Hc (dget_In _ _ _ E)) as H. exists 1, (p ++ c ++ s)%string. split; auto. split.
    + destruct (mem _ _) eqn:Em; auto. apply mem_In in Em. exfalso. apply H. apply affix_names_alias. auto.
    + apply resolves_hop with (m := (p ++ c ++ s)%string). rewrite dget_aliases_for, E. auto. constructor. rewrite alias_names_for. auto.
  - exists 0, n. split; auto. split; auto. constructor. apply dget_none. rewrite dget_aliases_for, E. auto.
Qed.

(** C50: every name resolves in at most two steps. *)
Theorem main_resolves : forall c name, c <> "phase" -> exists h k, h <= 2 /\ meaning c name = Some k /\ resolves (aliases_for c) name h k.
Proof.
  intros c n Hc. unfold meaning. destruct (dget n default_aliases) as [m|] eqn:E.
  - assert (G : forallb (fun nm => negb (dmem (fst nm) condensible_affixes) && negb (dmem (snd nm) default_aliases)) default_aliases = true) by (vm_compute; reflexivity).
    rewrite forallb_forall in G. specialize (G _ (dget_In _ _ _ E)). cbn [fst snd] in G. apply andb_true_iff in G as (G1 & G2).
    apply negb_true_iff in G1, G2. apply dmem_false, dget_none in G1. apply dmem_false, dget_none in G2.
    destruct (phase_resolves c m Hc G2) as (h & k & Hh & Hk & Hr). exists (S h), k. split. lia. split; auto.
    econstructor; eauto. rewrite dget_aliases_for, G1. auto.
  - destruct (phase_resolves c n Hc E) as (h & k & Hh & Hk & Hr). exists h, k. split. lia. auto.
Qed.

Lemma meaning_plain : forall c n, ~ In n alias_names -> meaning c n = Some n.
Proof.
  intros c n H. rewrite <- (alias_names_for c) in H. apply dget_none in H. rewrite dget_aliases_for in H. unfold meaning, phase_name.
  destruct (dget n condensible_affixes) as [[p s]|] eqn:E. discriminate H. rewrite H. auto.
Qed.

Theorem main_meaning : forall c name, get_alias (aliases_for c) name = match meaning c name with Some k => Ok k | None => Err ERuntime end.
Proof.
  intros c n. destruct (string_dec c "phase") as [->|Hc].
  - destruct (In_dec_str n alias_names) as [Hn|Hn].
    + assert (E : forallb (fun n => match get_alias (aliases_for "phase") n, meaning "phase" n with
                                    | Ok k, Some k' => String.eqb k k' | Err ERuntime, None => true | _, _ => false end) alias_names = true) by (vm_compute; reflexivity).
      rewrite forallb_forall in E. specialize (E _ Hn). destruct (get_alias _ n) as [k|[]]; destruct (meaning "phase" n) as [k'|]; try discriminate E; auto.
      apply String.eqb_eq in E. subst. auto.
    + rewrite meaning_plain by auto. apply main_get_alias. exists 0. split. lia. constructor. rewrite alias_names_for. auto.
  - destruct (main_resolves c n Hc) as (h & k & Hh & -> & Hr). apply main_get_alias. exists h. split; auto. lia.
Qed.

(** ** Histories *)

Lemma meaning_end : forall c n k, meaning c n = Some k -> ~ In k alias_names.
Proof.
  intros c n k H. pose proof (main_meaning c n) as E. rewrite H in E. apply main_get_alias in E as (h & _ & Hr). rewrite <- (alias_names_for c).
  eapply resolves_end; eauto.
Qed.

Section History.
  Context {T : Type} {A : Arith T} {R : Registry}.

  (** The stored DataArrays and the library a user thinks of. *)
  Definition same_library (l : clib T) (s : library T) : Prop :=
    c_alias l = aliases_for (condensible s) /\
    (forall k, dget k (c_store l) = option_map (fun vu => scalar_da (fst vu) (snd vu)) (known s k)) /\
    (forall k, In k (keys (c_store l)) -> ~ In k alias_names) /\ NoDup (keys (c_store l)).

  Lemma dget_map_val : forall {V W} (f : V -> W) (d : dict V) k, dget k (map (fun p => (fst p, f (snd p))) d) = option_map f (dget k d).
  Proof. intros V W f d k. induction d as [|[k' v] d IH]; cbn [map dget fst snd]; auto. destruct (String.eqb k k'); auto. Qed.

  Lemma same_import : same_library reset_constants at_import.
  Proof.
    split; [reflexivity|]. split; [|split].
    - intros k. change (c_store (reset_constants (T := T))) with (dupdate [] (default_constants (T := T))). 
      rewrite dget_dupdate. 2: { apply nodupb_ok. vm_compute. reflexivity. }
      unfold default_constants, at_import, known. rewrite (dget_map_val (fun qu : Q * string => scalar_da (aofQ (fst qu)) (snd qu))).
      destruct (dget k default_values) as [[q u]|]; reflexivity.
    - intros k Hk. assert (E : forallb (fun k => negb (mem k alias_names)) (keys (c_store (reset_constants (T := T)))) = true) by (vm_compute; reflexivity).
      rewrite forallb_forall in E. specialize (E _ Hk). apply negb_true_iff, mem_false in E. auto.
    - apply nodupb_ok. vm_compute. reflexivity.
  Qed.

  Lemma set_meaning : forall (l : clib T) s name v u, same_library l s -> set_constant l name v u =
    (if is_valid_unit u then match meaning (condensible s) name with
                             | Some k => Ok (mkclib (dset k (scalar_da v u) (c_store l)) (c_alias l))
                             | None => Err ERuntime end
     else Err EValue).
  Proof.
    intros l s name v u (Ha & _). unfold set_constant. destruct (is_valid_unit u); auto. rewrite Ha, main_meaning.
    destruct (meaning (condensible s) name) as [k|] eqn:E; auto. cbn [bind]. unfold const_setitem. rewrite Ha.
    apply meaning_end in E. rewrite <- (alias_names_for (condensible s)) in E. apply dmem_false in E. rewrite E. auto.
  Qed.

  Lemma same_step : forall l s op, same_library l s -> same_library (const_step l op) (library_step s op).
  Proof.
    intros l s op H. destruct op as [n v u|c|]; cbn [const_step library_step].
    - rewrite (set_meaning l s n v u H). destruct (is_valid_unit u), (meaning (condensible s) n) as [k|] eqn:E; auto.
      destruct H as (Ha & Hd & Hk & Hn). split; [exact Ha|]. split; [|split].
      + intros k'. cbn [c_store known]. rewrite dget_dset. destruct (String.eqb k' k); auto.
      + cbn [c_store]. intros k' H. apply In_keys_dset in H as [->|H]; eauto. eapply meaning_end; eauto.
      + apply NoDup_dset; auto.
    - destruct H as (Ha & Hd & Hk & Hn). split; [|auto]. unfold set_condensible_name. cbn [c_alias condensible]. rewrite Ha. apply aliases_again.
    - apply same_import.
  Qed.

  Lemma same_after : forall ops, same_library (lib_after (T := T) ops) (library_after ops).
  Proof.
    intros ops. unfold lib_after, library_after. generalize same_import. generalize (reset_constants (T := T)) at_import.
    induction ops as [|op ops IH]; intros l s H; auto. cbn [fold_left]. apply IH. apply same_step. auto.
  Qed.

  Lemma convert_scalar : forall (v : T) u u', (let* a := to_units (scalar_da v u) u' in item a) = in_units v u u'.
  Proof.
    intros v u u'. unfold to_units, in_units. change (dget "units" (attrs (scalar_da v u))) with (Some u). cbv beta iota.
    destruct (parseE u) as [x|e]; auto. cbn [bind]. destruct (parseE u') as [x'|e]; auto. cbn [bind].
    destruct (one_eqb x x'); auto. cbn [negb]. destruct (udim_eqb x x'); auto.
  Qed.

  Lemma lookup_same : forall l s name u, same_library l s -> get_constant l name u = lookup s name u.
  Proof.
    intros l s name u (Ha & Hd & _). unfold get_constant, lookup. rewrite Ha, main_meaning. destruct (meaning (condensible s) name) as [k|] eqn:E; auto.
    cbn [bind]. unfold const_getitem. rewrite Ha. apply meaning_end in E. rewrite <- (alias_names_for (condensible s)) in E. apply dmem_false in E. rewrite E.
    cbn [bind]. unfold dgetE. rewrite Hd. destruct (known s k) as [[v u0]|]; auto. apply convert_scalar.
  Qed.

  (** C49: constants after any history. *)
  Theorem main_constants_history : forall (ops : list (const_op T)) name u, get_constant (lib_after ops) name u = lookup (library_after ops) name u.
  Proof. intros ops name u. apply lookup_same. apply same_after. Qed.

  (** C49: a write is seen through every name of the constant, until the next one, and changes no other constant. *)
  Theorem main_set_get : forall (ops : list (const_op T)) name v u,
    (forall l', set_constant (lib_after ops) name v u = Ok l' ->
       l' = lib_after (ops ++ [SetConstant name v u]) /\ get_constant l' name u = Ok v /\
       (forall m, get_alias (c_alias l') m = get_alias (c_alias l') name -> forall u', get_constant l' m u' = in_units v u u') /\
       (forall m, get_alias (c_alias l') m <> get_alias (c_alias l') name -> forall u', get_constant l' m u' = get_constant (lib_after ops) m u')) /\
    (forall e, set_constant (lib_after ops) name v u = Err e -> lib_after (ops ++ [SetConstant name v u]) = lib_after ops /\
       (is_valid_unit u = false /\ e = EValue \/ is_valid_unit u = true /\ get_alias (c_alias (lib_after ops)) name = Err ERuntime /\ e = ERuntime)).
  Proof.
    intros ops name v u. pose proof (same_after ops) as S. set (l := lib_after ops) in *. set (s := library_after ops) in *.
    assert (Hl : lib_after (ops ++ [SetConstant name v u]) = const_step l (SetConstant name v u)) by (unfold lib_after; rewrite fold_left_app; reflexivity).
    pose proof (set_meaning l s name v u S) as E. pose proof (same_step l s (SetConstant name v u) S) as S'. pose proof (proj1 S) as Ha. 
    rewrite Hl. clearbody l s. clear Hl. cbn [const_step library_step] in *. split.
    - intros l' H. rewrite H in S'. rewrite H in E. rewrite H. split; auto. pose proof (proj1 S') as Ha'.
      destruct (is_valid_unit u) eqn:Hu; [|discriminate E]. destruct (meaning (condensible s) name) as [k|] eqn:Ek; [|discriminate E]. cbn [condensible] in Ha'.
      assert (G : forall m, get_alias (c_alias l') m = get_alias (c_alias l') name -> forall u', get_constant l' m u' = in_units v u u').
      { intros m Hm u'. rewrite Ha', !main_meaning, Ek in Hm. rewrite (lookup_same l' _ m u' S'). unfold lookup. cbn [condensible known].
        destruct (meaning (condensible s) m) as [k'|]; [|discriminate Hm]. injection Hm as ->. rewrite String.eqb_refl. auto. }
      split; [|split; auto].
      + rewrite (G name eq_refl u). unfold in_units, parseE. unfold is_valid_unit in Hu. destruct (parse u) as [x|]; [|discriminate Hu]. cbn [bind]. rewrite one_eqb_refl. auto.
      + intros m Hm u'. rewrite Ha', !main_meaning, Ek in Hm. rewrite (lookup_same l' _ m u' S'), (lookup_same l s m u' S). unfold lookup. cbn [condensible known].
        destruct (meaning (condensible s) m) as [k'|]; auto. destruct (String.eqb k' k) eqn:Ekk; auto. apply String.eqb_eq in Ekk. subst. contradiction Hm; auto.
    - intros e H. rewrite H. split; auto. rewrite H in E. rewrite Ha, main_meaning. destruct (is_valid_unit u).
      + right. destruct (meaning (condensible s) name); [discriminate E|]. injection E as ->. auto.
      + left. injection E as ->. auto.
  Qed.

  (** C50: the last condensible chosen decides what every name stands for. *)
  Theorem main_aliases_after : forall (ops : list (const_op T)) name, condensible (library_after ops) <> "phase" ->
    exists h k, h <= 2 /\ resolves (c_alias (lib_after ops)) name h k /\ get_alias (c_alias (lib_after ops)) name = Ok k /\ meaning (condensible (library_after ops)) name = Some k.
  Proof.
    intros ops name Hc. rewrite (proj1 (same_after ops)). destruct (main_resolves _ name Hc) as (h & k & Hh & Hk & Hr). exists h, k.
    split; auto. split; auto. split; auto. rewrite main_meaning, Hk. auto.
  Qed.

  Theorem main_condensible : forall (ops : list (const_op T)) c name before after, c <> "phase" -> In (name, (before, after)) condensible_affixes ->
    forall u, get_constant (lib_after (ops ++ [SetCondensible c])) name u = get_constant (lib_after (ops ++ [SetCondensible c])) (before ++ c ++ after)%string u.
  Proof.
    intros ops c name p q Hc Hin u. rewrite !main_constants_history.
    assert (E : library_after (ops ++ [SetCondensible c]) = mklibrary c (known (library_after ops))) by (unfold library_after; rewrite fold_left_app; reflexivity).
    rewrite E. unfold lookup. cbn [condensible known]. pose proof (affix_outside c name p q Hc Hin) as Ho. rewrite (meaning_plain c _ Ho).
    pose proof (dget_NoDup_In _ _ _ nodup_affixes Hin) as Hg. 
    assert (Em : meaning c name = Some (p ++ c ++ q)%string).
    { destruct (main_resolves c name Hc) as (h & k & _ & -> & Hr). f_equal.
      assert (Hr' : resolves (aliases_for c) name 1 (p ++ c ++ q)%string).
      { eapply resolves_hop. rewrite dget_aliases_for, Hg. reflexivity. constructor. rewrite alias_names_for. auto. }
      destruct (resolves_fun _ _ _ _ _ _ Hr Hr') as (_ & ->). auto. }
    rewrite Em. auto.
  Qed.

  (** C50: the condensible 'phase'. *)
  Theorem main_phase : forall (ops : list (const_op T)) u,
    get_constant (lib_after (ops ++ [SetCondensible "phase"])) "density_of_liquid_phase" u = Err ERuntime.
  Proof.
    intros ops u. rewrite main_constants_history.
    assert (E : library_after (ops ++ [SetCondensible "phase"]) = mklibrary "phase" (known (library_after ops))) by (unfold library_after; rewrite fold_left_app; reflexivity).
    rewrite E. reflexivity.
  Qed.

  (** C51 *)
  Theorem main_reset : forall ops ops' : list (const_op T), lib_after (ops ++ ResetConstants :: ops') = lib_after ops'.
  Proof. intros ops ops'. unfold lib_after. rewrite fold_left_app. reflexivity. Qed.

  Theorem main_import : forall name u, get_constant (lib_after (T := T) []) name u =
    match meaning "water" name with
    | None => Err ERuntime
    | Some k => match dget k default_values with Some (q, u0) => in_units (aofQ q) u0 u | None => Err EKey end
    end.
  Proof.
    intros name u. rewrite main_constants_history. unfold lookup, library_after, at_import. cbn [fold_left condensible known].
    destruct (meaning "water" name) as [k|]; auto. destruct (dget k default_values) as [[q u0]|]; auto.
  Qed.
End History.
