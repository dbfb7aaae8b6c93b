(** Runs that start from a state a move of the grid leaves as it is (C100). *)
From Coq Require Import String List Bool Arith ZArith Lia.
From Verif Require Import Prelude PreludeFacts ArithM NdArray Units DataArrayM SpecDa DaFacts SpecArrays Tracers SpecComponents Components SpecCalls SpecColumns Composite Steppers
  ColumnsMain MainLoop LeapLoop SpecRegion RegionFacts RegionMain.
Import ListNotations.
Open Scope string_scope.
Open Scope nat_scope.
Open Scope list_scope.

Lemma record_unmoved : forall {T} {A : Arith T} g (st : state T), (forall d, fixed g d = None) -> part_record g st st -> unmoved g st.
Proof.
  intros T A g st Hf H name a Hin. unfold part_record in H.
  assert (K : forall l l' : state T, Forall2 (fun x y => fst x = fst y /\ match snd x, snd y with VDA a, VDA b => part_of g a b | VTime s, VTime t => s = t | _, _ => False end) l l' -> l = l' -> In (name, VDA a) l -> part_of g a a).
  { induction 1 as [|x y l l' (H1 & H2) _ IH]; intros E Hi; [destruct Hi|]. injection E as -> ->. destruct Hi as [->|Hi]; [exact H2|]. apply IH; auto. }
  destruct (K st st H eq_refl Hin) as (_ & _ & _ & _ & _ & _ & _ & Hr & Hv). split.
  - intros d n i E. destruct (Hr d n n E E) as (X & _). apply X.
  - intros p Hp. rewrite <- (Hv p Hp). apply da_at_agree. intros d _. unfold spot. rewrite Hf. reflexivity.
Qed.

Lemma state_record : forall {T} {A : Arith T} g (st st' : state T), part_state g st st' -> part_record g st st'.
Proof.
  intros T A g st st' H. induction H as [|x y l l' (H1 & H2) _ IH]; constructor; [|exact IH]. split; [exact H1|].
  destruct (snd x), (snd y); cbn in H2; try exact H2; try contradiction. apply H2.
Qed.

Lemma sym_start : forall {T} {A : Arith T} g (st : state T), (forall d, fixed g d = None) -> proper_state g st -> unmoved g st -> part_state g st st.
Proof.
  intros T A g st Hf Hp Hu. unfold part_state. assert (K : forall l : state T, incl l st -> Forall2 (fun x y => fst x = fst y /\ part_value g (fst x) (snd x) (snd y)) l l).
  { induction l as [|[k v] l IH]; intro Hi; constructor; [|apply IH; intros x Hx; apply Hi; right; exact Hx]. split; [reflexivity|]. cbn [fst snd].
    assert (Hin : In (k, v) st) by (apply Hi; left; reflexivity). specialize (Hp k v Hin). destruct v as [a|t]; cbn [part_value]; [|reflexivity].
    destruct Hp as (Hn & W & Hs & Hm). split; [exact Hn|]. split; [|exact Hm]. destruct (Hu k a Hin) as (Hr & Hv).
    split; [exact W|]. split; [exact W|]. split; [exact Hs|]. split; [reflexivity|]. split; [intro d; split; [intro X; split; [exact X|apply Hf]|intros (X & _); exact X]|].
    split; [reflexivity|]. split; [intros d n i _ X; rewrite Hf in X; discriminate X|]. split.
    - intros d n m E1 E2. rewrite E1 in E2. injection E2 as <-. split; [intros i; apply Hr; exact E1|reflexivity].
    - intros p X. rewrite <- (Hv p X). apply da_at_agree. intros d _. unfold spot. rewrite Hf. reflexivity. }
  apply K. apply incl_refl.
Qed.

Lemma sym_end : forall {T} {A : Arith T} g (log : list (state T)) e, (forall d, fixed g d = None) -> Forall2 (part_record g) log log /\ part_state g e e ->
  forall S, In S (log ++ [e]) -> unmoved g S.
Proof.
  intros T A g log e Hf (Hl & He) S Hin. apply (record_unmoved g S Hf). apply in_app_or in Hin as [Hin|[<-|[]]]; [|apply state_record; exact He].
  assert (K : forall l l' : list (state T), Forall2 (part_record g) l l' -> l = l' -> In S l -> part_record g S S).
  { induction 1 as [|x y l l' H1 _ IH]; intros E Hi; [destruct Hi|]. injection E as -> ->. destruct Hi as [->|Hi]; [exact H1|]. apply IH; auto. }
  exact (K log log Hl eq_refl Hin).
Qed.

Section Main.
  Context {T : Type} {A : Arith T} {R : Registry} (g : cut) (Hf : forall d, fixed g d = None).

  Lemma sym_loop : forall {W} ps (store : W -> state T -> W * res unit), Forall (fun p => local_step g eq p p) ps ->
    (forall w w' st st', part_record g st st' -> store w st = (w', Ok tt) -> store w st' = (w', Ok tt)) ->
    forall n stop dt w st w1 log e, proper_state g st -> unmoved g st -> main_loop n ps store stop dt w st = ((w1, log), Some (Ok e)) ->
    forall S, In S (log ++ [e]) -> unmoved g S.
  Proof.
    intros W ps store Hps Hst n stop dt w st w1 log e Hp Hu E. apply (sym_end g log e Hf).
    refine (region_loop g eq ps ps store store _ _ n stop dt w w st st w1 w1 log log e e eq_refl (sym_start g st Hf Hp Hu) E E).
    - clear -Hps. induction Hps; constructor; auto.
    - intros u v s s' u' v' <- Hr E1 E2. rewrite (Hst _ _ _ _ Hr E1) in E2. congruence.
  Qed.

  Context {U : Type} (p : icaller (T:=T) U) (Hl : local g eq p p).

  Lemma sym_ab_loop : forall {M} (mon : M -> state T -> M * res unit) cfg o a0 u, new_ab (T:=T) o = Ok a0 ->
    forall n stop dt m st w log e, proper_state g st -> unmoved g st ->
    main_loop n [beside (adams_bashforth cfg p)] (fun w st => let (m1, r) := mon (fst w) st in ((m1, snd w), r)) stop dt (m, (a0, u)) st = ((w, log), Some (Ok e)) ->
    forall S, In S (log ++ [e]) -> unmoved g S.
  Proof.
    intros M mon cfg o a0 u Ha n stop dt m st w log e Hp Hu E. apply (sym_end g log e Hf).
    exact (region_ab_loop g eq p p Hl mon mon cfg o a0 u u Ha eq_refl n stop dt m m st st w w log log e e (sym_start g st Hf Hp Hu) E E).
  Qed.

  Lemma sym_rk_loop : forall {M} (mon : M -> state T -> M * res unit) cfg z k0 u, new_rk (T:=T) z = Ok k0 ->
    forall n stop dt m st w log e, proper_state g st -> unmoved g st ->
    main_loop n [beside (ssp_rk cfg p)] (fun w st => let (m1, r) := mon (fst w) st in ((m1, snd w), r)) stop dt (m, (k0, u)) st = ((w, log), Some (Ok e)) ->
    forall S, In S (log ++ [e]) -> unmoved g S.
  Proof.
    intros M mon cfg z k0 u Ha n stop dt m st w log e Hp Hu E. apply (sym_end g log e Hf).
    exact (region_rk_loop g eq p p Hl mon mon cfg z k0 u u Ha eq_refl n stop dt m m st st w w log log e e (sym_start g st Hf Hp Hu) E E).
  Qed.

  Lemma sym_leap_loop : forall {W} qs (store : W -> state T -> W * res unit) cfg nu alpha, Forall (fun q => local_step g eq q q) qs ->
    (forall w w' st st', part_record g st st' -> store w st = (w', Ok tt) -> store w st' = (w', Ok tt)) ->
    forall n stop dt u w st s1 w1 log e, proper_state g st -> unmoved g st ->
    leap_main_loop n cfg p qs store stop dt (new_leap nu alpha, u) w st = ((s1, w1, log), Some (Ok e)) ->
    forall S, In S (log ++ [e]) -> unmoved g S.
  Proof.
    intros W qs store cfg nu alpha Hq Hst n stop dt u w st s1 w1 log e Hp Hu E. apply (sym_end g log e Hf).
    refine (region_leap_loop g eq eq p p qs qs store store cfg nu alpha Hl _ _ n stop dt u u w w st st s1 s1 w1 w1 log log e e eq_refl eq_refl (sym_start g st Hf Hp Hu) E E).
    - clear -Hq. induction Hq; constructor; auto.
    - intros u0 v s s' u' v' <- Hr E1 E2. rewrite (Hst _ _ _ _ Hr E1) in E2. congruence.
  Qed.
End Main.

(** ** Levels *)
Lemma level_unmoved : forall {T} {A : Arith T} whole may (st : state T), unmoved (to_first whole may) st <-> level (fun d => whole d = true) st.
Proof.
  intros T A whole may st. split.
  - intros H name a Hin p p' Hp Hp' Heq. destruct (H name a Hin) as (_ & Hv). rewrite <- (Hv p Hp), <- (Hv p' Hp'). apply da_at_agree. intros d _. cbn. destruct (whole d) eqn:E; [exact (Heq d E)|reflexivity].
  - intros H name a Hin. split.
    + intros d n i _ Hi. cbn. destruct (whole d); lia.
    + intros p Hp. apply (H name a Hin); [|exact Hp|].
      * intros d n E. specialize (Hp d n E). cbn. destruct (whole d); lia.
      * intros d E. cbn. rewrite E. reflexivity.
Qed.
