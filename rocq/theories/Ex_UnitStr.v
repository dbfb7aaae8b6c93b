(** Concrete cases for C85: a small pint that reads 'percent' but not '%'. *)
From Coq Require Import String Ascii List Bool Arith ZArith QArith Qcanon Lia.
From Verif Require Import Prelude PreludeFacts ArithM NdArray Units DataArrayM Checks
  SpecUnits UnitsFacts UnitStr SpecUnitStr UnitStrFacts.
Import ListNotations.
Open Scope string_scope.
Open Scope nat_scope.
Open Scope list_scope.

Definition pint_table : dict uunit :=
  [ ("percent", mkunit [0%Z; 0%Z] (Q2Qc (1 # 100)) 0%Qc);
    ("count", mkunit [0%Z; 0%Z] 1%Qc 0%Qc);
    ("m", mkunit [1%Z; 0%Z] 1%Qc 0%Qc);
    ("km", mkunit [1%Z; 0%Z] (Q2Qc (1000 # 1)) 0%Qc);
    ("degreeC", mkunit [0%Z; 1%Z] 1%Qc (Q2Qc (27315 # 100)));
    ("kelvin", mkunit [0%Z; 1%Z] 1%Qc 0%Qc) ].

(** '%', '°C' and 'm**' are not well-formed expressions; '1000 m' is a quantity and
    not a unit; any other string is an undefined unit. *)
Definition malformed : list string := ["%"; "°C"; "m**"].

Definition ex_pint : Pint := {|
  pint_expr := fun s =>
    match dget s pint_table with
    | Some u => Ok (1%Qc, u)
    | None => if String.eqb s "1000 m" then Ok (Q2Qc (1000 # 1), mkunit [1%Z; 0%Z] 1%Qc 0%Qc)
              else if mem s malformed then Err EValue else Err EUndefinedUnit
    end;
  pint_units := fun s =>
    match dget s pint_table with
    | Some u => Ok u
    | None => if mem s ("1000 m" :: malformed) then Err EValue else Err EUndefinedUnit
    end;
  base_name := fun u => if zs_eqb (u_dim u) [1%Z; 0%Z] then "m"
                        else if zs_eqb (u_dim u) [0%Z; 1%Z] then "kelvin" else "count"
|}.

#[local] Existing Instance ex_pint | 5.

Lemma ex_coherent : coherent ex_pint.
Proof.
  intros s u H. unfold ex_pint, pint_units, pint_expr in *. destruct (dget s pint_table).
  - injection H as <-; reflexivity.
  - destruct (mem s ("1000 m" :: malformed)); discriminate.
Qed.

Lemma reads_ok : forall s u, pint_units s = Ok u -> ureg_call s = Ok (1%Qc, u) -> reads s u.
Proof.
  intros s u H1 H2. split; [exact H1|]. intros t Ht. apply spelled_fun in Ht as ->. exact H2.
Qed.

Definition amounts (s : string) : da Qc :=
  mkda ["x"] (mknd [2] [1%Qc; Q2Qc (50 # 1)]) [("units", s); ("note", "a")].

Lemma ex_spelled : spelled "%" "percent" /\ spelled "°C" "degreeC" /\ spelled "5 %/°m" "5 percent/degreem" /\
  unmarked "km" /\ ~ unmarked "°".
Proof.
  split; [exact (spelling_spelled "%")|]. split; [exact (spelling_spelled "°C")|].
  split; [exact (spelling_spelled "5 %/°m")|]. split; [exact (spelling_spelled "km")|].
  intros H. apply spelled_fun in H. discriminate.
Qed.

Lemma ex_same : p_valid "%" = Ok true /\ p_valid "parsec" = Ok false /\ p_same "%" "percent" = Ok true /\
  p_same "km" "1000 m" = Ok true /\ p_same "°C" "kelvin" = Ok false /\ p_clean "km" = Ok "m".
Proof. repeat split; vm_compute; reflexivity. Qed.

Lemma ex_reads : exists u1 u2, reads "km" u1 /\ reads "m" u2 /\ u_fac u2 <> 0%Qc /\
  wf_nd (arr (amounts "km")) /\ p_compatible "km" "m" = Ok true /\ p_same "km" "m" = Ok false.
Proof.
  exists (mkunit [1%Z; 0%Z] (Q2Qc (1000 # 1)) 0%Qc), (mkunit [1%Z; 0%Z] 1%Qc 0%Qc).
  split; [apply reads_ok; reflexivity|]. split; [apply reads_ok; reflexivity|].
  split; [discriminate|]. split; [reflexivity|]. split; vm_compute; reflexivity.
Qed.

Lemma ex_converted : p_to_units (amounts "km") "m"
  = Ok (mkda ["x"] (mknd [2] [Q2Qc (1000 # 1); Q2Qc (50000 # 1)]) [("units", "m"); ("note", "a")]) /\
  p_to_units (amounts "1000 m") "km" = Ok (amounts "1000 m").
Proof. split; vm_compute; reflexivity. Qed.

(** units_are_compatible depends on the order of its arguments. *)
Lemma compatible_not_symmetric : exists P s1 s2 e, coherent P /\
  @p_valid P s1 = Ok true /\ @p_valid P s2 = Ok true /\
  @p_compatible P s1 s2 = Ok true /\ @p_compatible P s2 s1 = Err e.
Proof.
  exists ex_pint, "%", "count", EValue. split; [exact ex_coherent|].
  repeat split; vm_compute; reflexivity.
Qed.

(** Units that are valid and compatible cannot be converted, in either direction. *)
Lemma compatible_not_convertible : exists P s1 s2 (a b : da Qc) e1 e2, coherent P /\
  @p_valid P s1 = Ok true /\ @p_valid P s2 = Ok true /\ @p_compatible P s1 s2 = Ok true /\
  dget "units" (attrs a) = Some s1 /\ @p_to_units Qc _ P a s2 = Err e1 /\
  dget "units" (attrs b) = Some s2 /\ @p_to_units Qc _ P b s1 = Err e2.
Proof.
  exists ex_pint, "°C", "kelvin", (amounts "°C"), (amounts "kelvin"), EValue, EValue.
  split; [exact ex_coherent|]. repeat split; vm_compute; reflexivity.
Qed.

(** is_valid_unit raises instead of answering. *)
Lemma valid_raises : exists P s e, coherent P /\ @p_valid P s = Err e.
Proof. exists ex_pint, "m**", EValue. split; [exact ex_coherent|]. vm_compute; reflexivity. Qed.

Lemma ex_clean_hyps : exists u b, (forall t, spelled "%" t -> pint_expr t = Ok (1%Qc, u)) /\
  pint_units (base_name u) = Ok b /\ u_dim b = u_dim u /\ p_clean "%" = Ok "count".
Proof.
  exists (mkunit [0%Z; 0%Z] (Q2Qc (1 # 100)) 0%Qc), (mkunit [0%Z; 0%Z] 1%Qc 0%Qc).
  split; [|repeat split; vm_compute; reflexivity].
  intros t Ht. apply spelled_fun in Ht as ->. vm_compute. reflexivity.
Qed.
