(** Property theorems about composites (C18-C22). *)
From Coq Require Import String List Bool Arith ZArith QArith Qcanon Permutation.
From Verif Require Import Prelude ArithM NdArray Units DataArrayM GetNp SpecUnits ExampleRegistry
  SpecDa Tracers Components Composite SpecComposite CompositeFacts CombineFacts CompositeMain Ex_Components Ex_Composite.
Import ListNotations.
Open Scope string_scope.
Open Scope nat_scope.
Open Scope list_scope.

(** C18: every component is called once, in order, and the tendency of [X] is the
    sum of the components' tendencies of [X], converted to the units of the first. *)
Theorem c18_composite_sum : forall {T : Type} {A : Arith T} {R : Registry} {U}
    (cs : list (caller U)) u u' (st : state T) tout dout,
  tendency_composite_call cs u st = (u', Ok (tout, dout)) ->
  exists outs, runs st cs u u' outs /\
    (Forall proper (map fst outs) -> forall X,
     match contributions X (map fst outs) with
     | [] => dget X tout = None
     | a :: rest => exists r, dget X tout = Some r /\ sum_of a rest r
     end).
Proof. exact @composite_sum. Qed.
Print Assumptions c18_composite_sum.

(** C18: the composite returns exactly when the tendencies can be added. *)
Theorem c18_composite_returns : forall {T : Type} {A : Arith T} {R : Registry} {U}
    (cs : list (caller U)) u u' (st : state T) outs,
  runs st cs u u' outs -> Forall proper (map fst outs) ->
  ((exists td, tendency_composite_call cs u st = (u', Ok td)) <->
   forall X, addable (contributions X (map fst outs))).
Proof. exact @composite_returns. Qed.
Print Assumptions c18_composite_returns.

(** C18, exact arithmetic: the physical amounts add up. *)
Theorem c18_physical_sum : forall {R : Registry}, sane_registry R -> forall {U}
    (cs : list (caller U)) u u' (st : state Qc) tout dout,
  tendency_composite_call cs u st = (u', Ok (tout, dout)) ->
  exists outs, runs st cs u u' outs /\
    (Forall proper (map fst outs) -> forall X r c, dget X tout = Some r ->
     Forall plain_units (contributions X (map fst outs)) -> in_grid r c ->
     amount r c = sum_amounts (contributions X (map fst outs)) c).
Proof. exact @composite_physical. Qed.
Print Assumptions c18_physical_sum.

(** C18 for the implicit composite: implicit components get the timestep. *)
Theorem c18_implicit_composite_sum : forall {T : Type} {A : Arith T} {R : Registry} {U}
    (cs : list (icaller U + caller U)) dt u u' (st : state T) tout dout,
  implicit_composite_call cs dt u st = (u', Ok (tout, dout)) ->
  exists outs, runs st (map (fun c => match c with inl f => fun u st => f u st dt | inr f => f end) cs) u u' outs /\
    (Forall proper (map fst outs) -> forall X,
     match contributions X (map fst outs) with
     | [] => dget X tout = None
     | a :: rest => exists r, dget X tout = Some r /\ sum_of a rest r
     end).
Proof. exact (fun T A R U cs dt => @composite_sum T A R U _). Qed.
Print Assumptions c18_implicit_composite_sum.

Example c18_hypotheses_met :
  (exists tout dout, @tendency_composite_call Qc ArithQc ex_registry unit (map stateless [f_a; f_b]) tt st_c
     = (tt, Ok (tout, dout))) /\
  (exists outs, runs st_c (map stateless [f_a; f_b]) tt tt outs /\ Forall proper (map fst outs) /\
     length (contributions "T" (map fst outs)) = 2 /\ Forall (@plain_units ex_registry) (contributions "T" (map fst outs))) /\
  (forall f t d, In f [f_a; f_b] -> f st_c = Ok (t, d) ->
     proper t /\ forall X a, dget X t = Some a -> @plain_units ex_registry a).
Proof. exact ex_sum. Qed.

Example c18_refusal : snd (@tendency_composite_call Qc ArithQc ex_registry unit (map stateless
    [f_a; fun st => Ok ([("q", mkda ["x"] (cramp [4]) [("units", "kg s^-1")])], [])]) tt st_c) = Err EValue.
Proof. exact ex_not_addable. Qed.

(** C19: the order of components whose results depend only on the state does not
    matter: the other order returns too, with the same quantities on the same
    grids with the same physical amounts. *)
Theorem c19_order_independent : forall {R : Registry} (fs fs' : list (state Qc -> res outcome)) (st : state Qc) tout dout,
  sane_registry R -> Permutation fs fs' ->
  (forall f t d, In f fs -> f st = Ok (t, d) -> proper t /\ forall X a, dget X t = Some a -> plain_units a) ->
  tendency_composite_call (map stateless fs) tt st = (tt, Ok (tout, dout)) ->
  exists tout' dout', tendency_composite_call (map stateless fs') tt st = (tt, Ok (tout', dout')) /\
    agree same_amounts tout tout'.
Proof. exact @composite_order. Qed.
Print Assumptions c19_order_independent.

Example c19_hypotheses_met : Permutation [f_a; f_b] [f_b; f_a] /\ sane_registry ex_registry.
Proof. exact (conj (perm_swap f_b f_a []) ex_registry_sane). Qed.

(** C20: construction of the composites raises SharedKeyError iff two components
    declare the same diagnostic. *)
Theorem c20_tendency_construction : forall {R : Registry} ord implicit g cs inp,
  (forall c, In c cs -> NoDup (keys (cp_diag (snd c)))) -> (forall c, In c cs -> fst c = true) ->
  composite_inputs ord g (map snd cs) = Ok inp ->
  (make_tendency_composite ord implicit g cs = Err ESharedKey <-> exists k, shared_key (map cp_diag (map snd cs)) k).
Proof. exact @tendency_construction_shared. Qed.
Print Assumptions c20_tendency_construction.

Theorem c20_diagnostic_construction : forall {R : Registry} ord g cs inp,
  (forall c, In c cs -> NoDup (keys (cp_diag (snd c)))) -> (forall c, In c cs -> fst c = true) ->
  composite_inputs ord g (map snd cs) = Ok inp ->
  (make_diagnostic_composite ord g cs = Err ESharedKey <-> exists k, shared_key (map cp_diag (map snd cs)) k).
Proof. exact @diagnostic_construction_shared. Qed.
Print Assumptions c20_diagnostic_construction.

(** A constructed composite declares exactly the diagnostics of its components. *)
Theorem c20_tendency_declares : forall {R : Registry} ord implicit g cs c,
  (forall c, In c cs -> NoDup (keys (cp_diag (snd c)))) -> make_tendency_composite ord implicit g cs = Ok c ->
  (forall k, ~ shared_key (map cp_diag (map snd cs)) k) /\ union_of (map cp_diag (map snd cs)) (t_diag c).
Proof. exact @tendency_construction_union. Qed.
Print Assumptions c20_tendency_declares.

Theorem c20_diagnostic_declares : forall {R : Registry} ord g cs c,
  (forall c, In c cs -> NoDup (keys (cp_diag (snd c)))) -> make_diagnostic_composite ord g cs = Ok c ->
  (forall k, ~ shared_key (map cp_diag (map snd cs)) k) /\ union_of (map cp_diag (map snd cs)) (d_diag c).
Proof. exact @diagnostic_construction_union. Qed.
Print Assumptions c20_diagnostic_declares.

(** The diagnostics a tendency composite returns are exactly those its components
    returned, unchanged, if these keep to what they declared (C11). *)
Theorem c20_tendency_diagnostics_kept : forall {T : Type} {A : Arith T} {R : Registry} {U}
    (cs : list (caller U)) (decl : list pdict) u u' (st : state T) tout dout,
  tendency_composite_call cs u st = (u', Ok (tout, dout)) -> (forall k, ~ shared_key decl k) ->
  exists outs, runs st cs u u' outs /\
    (Forall2 (fun d o => NoDup (keys (snd o)) /\ forall k, In k (keys (snd o)) -> In k (keys d)) decl outs ->
     union_of (map snd outs) dout).
Proof. exact @tendency_diagnostics_kept. Qed.
Print Assumptions c20_tendency_diagnostics_kept.

(** A diagnostic composite returns exactly what its components returned, or raises
    SharedKeyError, the latter iff two returned the same name. *)
Theorem c20_diagnostic_call : forall {T : Type} {U}
    (cs : list (dcaller U)) (st : state T) u u' outs,
  runs st cs u u' outs -> (forall d, In d outs -> NoDup (keys d)) ->
  ((forall k, ~ shared_key outs k) /\
     (exists d, diagnostic_composite_call cs u st = (u', Ok d) /\ union_of outs d)) \/
  ((exists k, shared_key outs k) /\ snd (diagnostic_composite_call cs u st) = Err ESharedKey).
Proof. exact @diagnostic_call_spec. Qed.
Print Assumptions c20_diagnostic_call.

Example c20_hypotheses_met :
  (forall c, In c [(true, cp_a); (true, cp_b)] -> NoDup (keys (cp_diag (snd c)))) /\
  (forall c, In c [(true, cp_a); (true, cp_b)] -> fst c = true) /\
  (exists inp, @composite_inputs ex_registry (fun l => l) empty_treg [cp_a; cp_b] = Ok inp) /\
  (exists c, @make_tendency_composite ex_registry (fun l => l) false empty_treg [(true, cp_a); (true, cp_b)] = Ok c) /\
  @make_tendency_composite ex_registry (fun l => l) true empty_treg [(true, cp_a); (true, cp_b); (true, cp_a)] = Err ESharedKey /\
  (exists c, @make_diagnostic_composite ex_registry (fun l => l) empty_treg [(true, cp_a); (true, cp_b)] = Ok c) /\
  Forall2 (fun d (o : dict (da Qc) * dict (da Qc)) => NoDup (keys (snd o)) /\ forall k, In k (keys (snd o)) -> In k (keys d))
    (map cp_diag [cp_a; cp_b]) (map (fun f => match f st_c with Ok o => o | Err _ => ([], []) end) [f_a; f_b]).
Proof. exact ex_construction. Qed.

Example c20_calls :
  (exists outs, runs st_c (map stateless [fun st => Ok (snd (match f_a st with Ok o => o | Err _ => ([], []) end));
                                          fun st => Ok (snd (match f_b st with Ok o => o | Err _ => ([], []) end))]) tt tt outs /\
     (forall d, In d outs -> NoDup (keys d)) /\ forall k, ~ shared_key outs k) /\
  exists outs, runs st_c (map stateless [fun st => Ok (snd (match f_a st with Ok o => o | Err _ => ([], []) end));
                                         fun st => Ok (snd (match f_a st with Ok o => o | Err _ => ([], []) end))]) tt tt outs /\
     (forall d, In d outs -> NoDup (keys d)) /\ shared_key outs "da".
Proof. exact ex_diagnostic_calls. Qed.

(** C21.  [combinable] spells out combine_dims's own criterion ([dims_joinable]),
    whose defects are the subject of C22. *)
Theorem c21_combine_properties : forall {R : Registry} ord, (forall l, NoDup l -> Permutation (ord l) l) ->
  forall (inp : pdict) (pds : list pdict),
  (forall X, 2 <= length (entries X (concat pds)) -> forall p, In p (entries X (concat pds)) -> units_known R p) ->
  match combine_properties ord pds inp with
  | Ok res =>
      (forall X, combinable inp X (entries X (concat pds))) /\
      keys res = dedup (keys (concat pds)) /\
      forall X, match entries X (concat pds) with
                | [] => dget X res = None
                | p0 :: rest => exists r, dget X res = Some r /\ combined_entry inp X p0 rest r
                end
  | Err e => e = EInvalidProps /\ exists X, ~ combinable inp X (entries X (concat pds))
  end.
Proof. exact @combine_properties_spec. Qed.
Print Assumptions c21_combine_properties.

Example c21_hypotheses_met :
  (forall X, 2 <= length (entries X (concat pds_ok)) -> forall p, In p (entries X (concat pds_ok)) -> units_known ex_registry p) /\
  (forall X, 2 <= length (entries X (concat pds_bad)) -> forall p, In p (entries X (concat pds_bad)) -> units_known ex_registry p) /\
  (exists res, @combine_properties ex_registry (fun l => l) pds_ok [] = Ok res /\ keys res = ["T"; "q"; "w"]) /\
  @combine_properties ex_registry (fun l => l) pds_bad [] = Err EInvalidProps.
Proof. exact ex_combine. Qed.

(** C22 for two declarations that both have '*' or both lack it. *)
Theorem c22_sound_partial : forall ord, (forall l, NoDup l -> Permutation (ord l) l) ->
  forall d1 d2 r, combine_dims ord d1 d2 = Ok r -> (In "*" (fst d1) <-> In "*" (fst d2)) ->
  forall q, fits q (fst r) <-> fits q (fst d1) /\ fits q (fst d2).
Proof. exact combine_dims_sound. Qed.
Print Assumptions c22_sound_partial.

Theorem c22_complete_partial : forall ord, (forall l, NoDup l -> Permutation (ord l) l) ->
  forall d1 d2 e, combine_dims ord d1 d2 = Err e -> (In "*" (fst d1) <-> In "*" (fst d2)) ->
  e = EInvalidProps /\ ~ exists q, fits q (fst d1) /\ fits q (fst d2).
Proof. exact combine_dims_refuses. Qed.
Print Assumptions c22_complete_partial.

Theorem c22_symmetric_partial : forall ord, (forall l, NoDup l -> Permutation (ord l) l) ->
  forall d1 d2 r, combine_dims ord d1 d2 = Ok r -> (In "*" (fst d1) <-> In "*" (fst d2)) ->
  exists r', combine_dims ord d2 d1 = Ok r' /\ same_set (fst r) (fst r').
Proof. exact combine_dims_symmetric. Qed.
Print Assumptions c22_symmetric_partial.

(** For all declarations: which dims the result names. *)
Theorem c22_named_dims : forall ord, (forall l, NoDup l -> Permutation (ord l) l) ->
  forall d1 d2 r, combine_dims ord d1 d2 = Ok r ->
  (In "*" (fst r) <-> In "*" (fst d1) /\ In "*" (fst d2)) /\
  forall d, d <> "*" -> (In d (fst r) <-> In d (fst d1) \/ In d (fst d2)).
Proof. exact combine_dims_named. Qed.
Print Assumptions c22_named_dims.

Example c22_hypotheses_met : (forall l : list string, NoDup l -> Permutation (rev l) l) /\
  (In "*" ["*"; "z"] <-> In "*" ["x"; "*"]) /\ (In "*" ["y"; "z"] <-> In "*" ["z"; "y"]) /\
  combine_dims (@rev string) (["*"; "z"], false) (["x"; "*"], false) = Ok (["*"; "x"; "z"], false) /\
  combine_dims (@rev string) (["y"; "z"], false) (["z"; "y"], true) = Ok (["z"; "y"], false) /\
  combine_dims (@rev string) (["y"; "z"], false) (["z"], false) = Err EInvalidProps.
Proof. exact ex_dims. Qed.

(** C22 is false when only one has '*': declarations no quantity can satisfy are combined, *)
Theorem c22_unsound_refuted : exists d1 d2, forall ord, (forall l, NoDup l -> Permutation (ord l) l) ->
  exists r q, combine_dims ord d1 d2 = Ok r /\ fits q (fst r) /\ ~ exists q', fits q' (fst d1) /\ fits q' (fst d2).
Proof. exact combine_dims_unsound. Qed.
Print Assumptions c22_unsound_refuted.

(** ... declarations a quantity satisfies are refused, *)
Theorem c22_incomplete_refuted : exists d1 d2 q, fits q (fst d1) /\ fits q (fst d2) /\
  forall ord, (forall l, NoDup l -> Permutation (ord l) l) -> combine_dims ord d1 d2 = Err EInvalidProps.
Proof. exact combine_dims_incomplete. Qed.
Print Assumptions c22_incomplete_refuted.

(** ... and swapping the arguments turns a refusal into a result. *)
Theorem c22_asymmetric_refuted : exists d1 d2, forall ord, (forall l, NoDup l -> Permutation (ord l) l) ->
  is_ok (combine_dims ord d1 d2) = false /\ is_ok (combine_dims ord d2 d1) = true.
Proof. exact combine_dims_asymmetric. Qed.
Print Assumptions c22_asymmetric_refuted.
