(** Two concrete unit registries used to show that hypotheses about registries
    are met: single table units including offset temperatures, and products of
    table units separated by blanks. *)
From Coq Require Import String Ascii List Bool Arith ZArith QArith Qcanon Lia.
From Verif Require Import Prelude ArithM Units SpecUnits.
Import ListNotations.
Open Scope string_scope.
Open Scope list_scope.

(** Dimension exponents: length, mass, time, temperature. *)
Definition table : list (string * uunit) :=
  let q := fun n d => Q2Qc (n # d) in
  [ ("dimensionless", mkunit [0; 0; 0; 0]%Z 1 0);
    ("percent", mkunit [0; 0; 0; 0]%Z (q 1%Z 100%positive) 0);
    ("m", mkunit [1; 0; 0; 0]%Z 1 0);
    ("km", mkunit [1; 0; 0; 0]%Z (q 1000%Z 1%positive) 0);
    ("cm", mkunit [1; 0; 0; 0]%Z (q 1%Z 100%positive) 0);
    ("kg", mkunit [0; 1; 0; 0]%Z 1 0);
    ("g", mkunit [0; 1; 0; 0]%Z (q 1%Z 1000%positive) 0);
    ("s", mkunit [0; 0; 1; 0]%Z 1 0);
    ("day", mkunit [0; 0; 1; 0]%Z (q 86400%Z 1%positive) 0);
    ("s^-1", mkunit [0; 0; -1; 0]%Z 1 0);
    ("day^-1", mkunit [0; 0; -1; 0]%Z (q 1%Z 86400%positive) 0);
    ("K", mkunit [0; 0; 0; 1]%Z 1 0) ]%Qc.

Definition offset_table : list (string * uunit) :=
  [ ("degC", mkunit [0; 0; 0; 1]%Z 1%Qc (Q2Qc (27315 # 100)));
    ("degF", mkunit [0; 0; 0; 1]%Z (Q2Qc (5 # 9)) (Q2Qc (45967 # 180))) ].

Definition flush (cur : string) : list string :=
  if String.eqb cur "" then [] else [cur].

Fixpoint words (cur s : string) : list string :=
  match s with
  | EmptyString => flush cur
  | String c r =>
      if Ascii.eqb c " "%char then flush cur ++ words "" r
      else words (cur ++ String c "")%string r
  end.

Definition umul (u v : uunit) : uunit :=
  mkunit (map (fun p => (fst p + snd p)%Z) (combine (u_dim u) (u_dim v)))
         (u_fac u * u_fac v)%Qc 0%Qc.

Fixpoint uproduct (acc : uunit) (ws : list string) : option uunit :=
  match ws with
  | [] => Some acc
  | w :: r => match dget w table with
              | Some u => uproduct (umul acc u) r
              | None => None
              end
  end.

Definition one_unit : uunit := mkunit [0; 0; 0; 0]%Z 1%Qc 0%Qc.

(** Products. *)
Definition ex_registry : Registry := {| parse := fun s => uproduct one_unit (words "" s) |}.

(** Single units. *)
Definition table_registry : Registry := {| parse := fun s => dget s (table ++ offset_table) |}.

Lemma table_registry_sane : sane_registry table_registry.
Proof.
  split.
  - intros s u H. simpl in H.
    repeat (destruct (String.eqb s _) in H; [injection H as <-; intros Hz; apply (f_equal this) in Hz; vm_compute in Hz; discriminate Hz|]).
    discriminate.
  - intros s1 s2 u1 u2 H1 H2 Hd Hb. simpl in H1, H2.
    repeat (destruct (String.eqb s1 _) in H1; [injection H1 as <-|]); try discriminate H1;
    repeat (destruct (String.eqb s2 _) in H2; [injection H2 as <-|]); try discriminate H2;
    try reflexivity; try discriminate Hd;
    exfalso; apply (f_equal this) in Hb; vm_compute in Hb; discriminate Hb.
Qed.

Lemma table_plain : forall w u, dget w table = Some u -> u_fac u <> 0%Qc /\ u_off u = 0%Qc.
Proof.
  intros w u H. simpl in H.
  repeat (destruct (String.eqb w _) in H; [injection H as <-; split; [intros Hz; apply (f_equal this) in Hz; vm_compute in Hz; discriminate Hz|reflexivity]|]).
  discriminate.
Qed.

Lemma uproduct_plain : forall ws acc u, u_fac acc <> 0%Qc -> u_off acc = 0%Qc ->
  uproduct acc ws = Some u -> u_fac u <> 0%Qc /\ u_off u = 0%Qc.
Proof.
  induction ws as [|w ws IH]; cbn [uproduct]; intros acc u Hf Ho H.
  - injection H as <-; auto.
  - destruct (dget w table) as [v|] eqn:E; [|discriminate].
    apply table_plain in E as [Ev _]. apply IH in H; auto. simpl.
    intros Hz. apply Qcmult_integral in Hz as [Hz|Hz]; auto.
Qed.

Lemma ex_registry_plain : forall s u, @parse ex_registry s = Some u -> u_fac u <> 0%Qc /\ u_off u = 0%Qc.
Proof.
  intros s u H. cbn [parse ex_registry] in H. eapply uproduct_plain; [| |exact H]; [|reflexivity].
  intros Hz; apply (f_equal this) in Hz; vm_compute in Hz; discriminate Hz.
Qed.

Lemma ex_registry_sane : sane_registry ex_registry.
Proof.
  split.
  - intros s u H. apply ex_registry_plain in H; tauto.
  - intros s1 s2 u1 u2 H1 H2 Hd Hb. apply ex_registry_plain in H1 as [_ H1].
    apply ex_registry_plain in H2 as [_ H2]. unfold base_value in Hb.
    rewrite H1, H2, !Qcplus_0_r, !Qcmult_1_l in Hb. destruct u1, u2; simpl in *. congruence.
Qed.
