(** Composites inside composites (C77). *)
From Coq Require Import String List Bool Arith ZArith QArith Qcanon Permutation.
From Verif Require Import Prelude ArithM NdArray Units DataArrayM SpecUnits ExampleRegistry SpecDa GetNp Tracers Components Composite SpecComposite
  SpecNested NestedFacts Ex_Components Ex_Composite Ex_Nested.
Import ListNotations.
Open Scope string_scope.
Open Scope nat_scope.
Open Scope list_scope.

#[local] Existing Instance ex_registry | 5.

(** C77: a TendencyComponentComposite of components and other composites, nested in any way, returns
    exactly when the composite of the components themselves, in the same order, does; with the same
    tendencies in the same units, the same diagnostics, and the same calls made. *)
Theorem c77_call : forall {R : Registry}, sane_registry R -> forall {U : Type} (st : state Qc), forall (t : ctree U) u, (forall c, In c (leaves t) -> returns_fine st c) ->
  let nested := tree_call t u st in let flat := tendency_composite_call (leaves t) u st in
  forall u', ((exists td, nested = (u', Ok td)) <-> (exists td, flat = (u', Ok td))) /\
  forall tn dn tf df, nested = (u', Ok (tn, dn)) -> flat = (u', Ok (tf, df)) ->
  agree (fun r r' => attrs r = attrs r' /\ same_amounts r r') tn tf /\ forall X, dget X dn = dget X df.
Proof. exact @nested_call. Qed.
Print Assumptions c77_call.

(** Four components, three levels, one composite of nothing. *)
Example c77_call_hypotheses_met : (forall c, In c (leaves tree_ex) -> returns_fine st_c c) /\ length (leaves tree_ex) = 4 /\
  exists td, tree_call tree_ex tt st_c = (tt, Ok td) /\ keys (fst td) = ["w"; "T"; "q"].
Proof. exact @ex_tree. Qed.

(** C77: the same for an ImplicitTendencyComponentComposite; every implicit component gets the timestep. *)
Theorem c77_implicit : forall {R : Registry}, sane_registry R -> forall {U : Type} (st : state Qc), forall (t : itree U) dt u, (forall c, In c (ileaves t) -> returns_fine st (with_timestep dt c)) ->
  let nested := with_timestep dt (itree_call t) u st in let flat := implicit_composite_call (ileaves t) dt u st in
  forall u', ((exists td, nested = (u', Ok td)) <-> (exists td, flat = (u', Ok td))) /\
  forall tn dn tf df, nested = (u', Ok (tn, dn)) -> flat = (u', Ok (tf, df)) ->
  agree (fun r r' => attrs r = attrs r' /\ same_amounts r r') tn tf /\ forall X, dget X dn = dget X df.
Proof. exact @nested_implicit. Qed.
Print Assumptions c77_implicit.

(** Two implicit components and one that is not. *)
Example c77_implicit_hypotheses_met : (forall c, In c (ileaves itree_ex) -> returns_fine st_c (with_timestep 10%Z c)) /\
  exists td, with_timestep 10%Z (itree_call itree_ex) tt st_c = (tt, Ok td) /\ keys (fst td) = ["w"; "T"; "q"].
Proof. exact @ex_itree. Qed.

(** C77: the same for a DiagnosticComponentComposite, where the results are equal, names in order. *)
Theorem c77_diagnostics : forall {T : Type} {U : Type} (st : state T), forall (t : dtree U) u u' d, (forall c, In c (dleaves t) -> returns_dict st c) ->
  (dtree_call t u st = (u', Ok d) <-> diagnostic_composite_call (dleaves t) u st = (u', Ok d)).
Proof. exact @nested_diagnostics. Qed.
Print Assumptions c77_diagnostics.

(** Three components, and two with the same diagnostic at different levels. *)
Example c77_diagnostics_hypotheses_met : (forall c, In c (dleaves dtree_ex ++ dleaves dtree_bad) -> returns_dict st_c c) /\
  (exists d, dtree_call dtree_ex tt st_c = (tt, Ok d) /\ keys d = ["a"; "b"; "c"]) /\
  dtree_call dtree_bad tt st_c = (tt, Err ESharedKey).
Proof. exact @ex_dtree. Qed.

(** C77: if all of them can be made, the composite of composites has the properties of the composite of
    the components: the same inputs, tendencies and diagnostics with the same units, aliases and dims.
    The tendencies have to have dims. *)
Theorem c77_declared : forall {R : Registry} (ord : list string -> list string), (forall l, NoDup l -> Permutation (ord l) l) -> forall implicit implicit' g css ics n f,
  Forall2 (fun cs c => exists i, make_tendency_composite ord i g cs = Ok c) css ics ->
  make_tendency_composite ord implicit g (map seen_as ics) = Ok n ->
  make_tendency_composite ord implicit' g (concat css) = Ok f ->
  (forall pds, input_dicts g (map snd (concat css)) = Ok pds -> known (concat pds)) ->
  known (concat (map cp_tend (map snd (concat css)))) ->
  (forall c np, In c (concat css) -> In np (cp_tend (snd c)) -> p_dims (snd np) <> None) ->
  (forall c, In c (concat css) -> NoDup (keys (cp_diag (snd c)))) ->
  agree same_entry (t_inp n) (t_inp f) /\ agree same_entry (t_tend n) (t_tend f) /\ forall X, dget X (t_diag n) = dget X (t_diag f).
Proof. exact @nested_composite. Qed.
Print Assumptions c77_declared.

(** Three groups of components, one of them empty. *)
Example c77_declared_hypotheses_met : exists ics n f,
  Forall2 (fun cs c => exists i, make_tendency_composite (fun l => l) i empty_treg cs = Ok c) css_ex ics /\
  make_tendency_composite (fun l => l) false empty_treg (map seen_as ics) = Ok n /\
  make_tendency_composite (fun l => l) true empty_treg (concat css_ex) = Ok f /\
  keys (t_inp n) = keys (t_inp f) /\ length (keys (t_inp n)) >= 3 /\ length (keys (t_diag n)) = 2 /\
  (forall pds, input_dicts empty_treg (map snd (concat css_ex)) = Ok pds -> known (concat pds)) /\
  known (concat (map cp_tend (map snd (concat css_ex)))) /\
  (forall c np, In c (concat css_ex) -> In np (cp_tend (snd c)) -> p_dims (snd np) <> None) /\
  (forall c, In c (concat css_ex) -> NoDup (keys (cp_diag (snd c)))).
Proof. exact @ex_nested_composite. Qed.

(** C77: where for each quantity either all have the wildcard or none has, the inputs can be combined
    in groups exactly when they can be combined at once. *)
Theorem c77_accepted : forall {R : Registry} (ord : list string -> list string), (forall l, NoDup l -> Permutation (ord l) l) -> forall g css pds, input_dicts g (concat css) = Ok pds ->
  known (concat pds) -> (forall X, unmixed (entries X (concat pds))) ->
  ((exists n, (let* inps := mapM (composite_inputs ord g) css in composite_inputs ord g (map inputs_only inps)) = Ok n) <->
  exists f, composite_inputs ord g (concat css) = Ok f).
Proof. exact @nested_inputs_accepted. Qed.
Print Assumptions c77_accepted.

(** Two groups; T always with the wildcard, q always without. *)
Example c77_accepted_hypotheses_met : exists pds, input_dicts empty_treg (concat css_un) = Ok pds /\ known (concat pds) /\
  (forall X, unmixed (entries X (concat pds))) /\ exists f, composite_inputs (fun l => l) empty_treg (concat css_un) = Ok f /\ keys f = ["T"; "q"].
Proof. exact @ex_inputs. Qed.

(** C77 is false where only some have it: three components refused as a composite are accepted when the last
    two are put into a composite first, *)
Theorem c77_accepts_more_refuted : exists a b c, forall ord, (forall l, NoDup l -> Permutation (ord l) l) ->
  make_tendency_composite ord false empty_treg [a; b; c] = Err EInvalidProps /\
  exists i n, make_tendency_composite ord false empty_treg [b; c] = Ok i /\ make_tendency_composite ord false empty_treg [a; seen_as i] = Ok n.
Proof. exact @nested_accepts_more. Qed.
Print Assumptions c77_accepts_more_refuted.

(** and three others are accepted only without. *)
Theorem c77_accepts_less_refuted : exists a b c, forall ord, (forall l, NoDup l -> Permutation (ord l) l) ->
  make_tendency_composite ord false empty_treg [b; c] = Err EInvalidProps /\
  exists n, make_tendency_composite ord false empty_treg [a; b; c] = Ok n.
Proof. exact @nested_accepts_less. Qed.
Print Assumptions c77_accepts_less_refuted.
