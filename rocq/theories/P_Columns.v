(** Property theorems about columns and stored order (C74). *)
From Coq Require Import String List Bool Arith ZArith QArith Qcanon.
From Verif Require Import Prelude ArithM NdArray Units DataArrayM SpecArrays ExampleRegistry Tracers Components SpecComponents
  SpecCalls SpecColumns ColumnsMain LayoutFacts Ex_Components Ex_Columns.
Import ListNotations.
Open Scope string_scope.
Open Scope nat_scope.
Open Scope list_scope.

#[local] Existing Instance ex_registry | 5.


(** C74: if array_call works column by column, then a column of what a call returns depends on
    nothing but the time and that column of the inputs: two calls, on any two states, agree in any
    two columns in which the inputs agree. *)
Theorem c74_columns : forall {T : Type} {A : Arith T} {R : Registry}, (forall {U} g c (ac : U -> dict (rval T) -> U * res (dict (nd T) * dict (nd T))) u v1 v2
  (st1 st2 : state T) t1 d1 t2 d2,
  proper_inputs (t_inp c) -> t_packer c = None ->
  NoDup (keys (t_tend c)) -> stars_ok (t_tend c) (t_inp c) ->
  NoDup (keys (t_diag c)) -> stars_ok (t_diag c) (t_inp c) ->
  tendency_call g c ac u st1 = (v1, Ok (t1, d1)) -> tendency_call g c ac u st2 = (v2, Ok (t2, d2)) ->
  same_lengths (t_inp c) st1 st2 ->
  (column_setup (t_inp c) (t_tend c) st1 -> column_setup (t_inp c) (t_tend c) st2 ->
  columnwise (t_inp c) (t_tend c)
  (fun raw out => exists v d, ac u raw = (v, Ok (out, d))) ->
  determined (t_inp c) (t_tend c) st1 t1 st2 t2) /\
  (t_tid c = false -> column_setup (t_inp c) (t_diag c) st1 -> column_setup (t_inp c) (t_diag c) st2 ->
  columnwise (t_inp c) (t_diag c)
  (fun raw out => exists v t, ac u raw = (v, Ok (t, out))) ->
  determined (t_inp c) (t_diag c) st1 d1 st2 d2)) /\
  (forall {U} c (ac : U -> dict (rval T) -> U * res (dict (nd T))) u v1 v2 (st1 st2 : state T) d1 d2,
  proper_inputs (d_inp c) -> NoDup (keys (d_diag c)) -> stars_ok (d_diag c) (d_inp c) ->
  diagnostic_call c ac u st1 = (v1, Ok d1) -> diagnostic_call c ac u st2 = (v2, Ok d2) ->
  same_lengths (d_inp c) st1 st2 ->
  (column_setup (d_inp c) (d_diag c) st1 -> column_setup (d_inp c) (d_diag c) st2 ->
  columnwise (d_inp c) (d_diag c)
  (fun raw out => exists v, ac u raw = (v, Ok out)) ->
  determined (d_inp c) (d_diag c) st1 d1 st2 d2)) /\
  (forall {U} g c (ac : U -> dict (rval T) -> Z -> U * res (dict (nd T) * dict (nd T))) u v1 v2
  (st1 st2 : state T) dt n1 d1 n2 d2,
  proper_inputs (s_inp c) -> s_packer c = None ->
  NoDup (keys (s_out c)) -> stars_ok (s_out c) (s_inp c) ->
  NoDup (keys (s_diag c)) -> stars_ok (s_diag c) (s_inp c) ->
  stepper_call g c ac u st1 dt = (v1, Ok (d1, n1)) -> stepper_call g c ac u st2 dt = (v2, Ok (d2, n2)) ->
  same_lengths (s_inp c) st1 st2 ->
  (column_setup (s_inp c) (s_out c) st1 -> column_setup (s_inp c) (s_out c) st2 ->
  columnwise (s_inp c) (s_out c)
  (fun raw out => exists v d, ac u raw dt = (v, Ok (d, out))) ->
  determined (s_inp c) (s_out c) st1 n1 st2 n2) /\
  (s_tid c = false -> column_setup (s_inp c) (s_diag c) st1 -> column_setup (s_inp c) (s_diag c) st2 ->
  columnwise (s_inp c) (s_diag c)
  (fun raw out => exists v n, ac u raw dt = (v, Ok (out, n))) ->
  determined (s_inp c) (s_diag c) st1 d1 st2 d2)).
Proof. exact @main_columns. Qed.
Print Assumptions c74_columns.

(** A column sum and a profile, on a 2 x 3 grid of columns and on one column alone. *)
Example c74_columns_hypotheses_met : column_setup inp_l out_l st_l1 /\ column_setup inp_l out_l st_l3 /\ same_lengths inp_l st_l1 st_l3 /\
  column_of st_l1 inp_l col_l /\ column_of st_l3 inp_l col_l /\ same_inputs inp_l st_l1 col_l st_l3 col_l /\
  columnwise inp_l out_l (fun raw out => exists v, ac_l 0 raw = (v, Ok out)) /\
  columnwise inp_l out_l (fun raw out => exists v t, ac_l_t 0 raw = (v, Ok (t, out))) /\
  columnwise inp_l out_l (fun raw out => exists v d, ac_l_s 0 raw 1%Z = (v, Ok (d, out))) /\
  (exists v1 d1 v3 d3, diagnostic_call c_l ac_l 0 st_l1 = (v1, Ok d1) /\ diagnostic_call c_l ac_l 0 st_l3 = (v3, Ok d3)) /\
  (exists v1 t1 d1 v3 t3 d3, tendency_call empty_treg c_l_t ac_l_t 0 st_l1 = (v1, Ok (t1, d1)) /\
  tendency_call empty_treg c_l_t ac_l_t 0 st_l3 = (v3, Ok (t3, d3))) /\
  (exists v1 d1 n1 v3 d3 n3, stepper_call empty_treg c_l_s ac_l_s 0 st_l1 1%Z = (v1, Ok (d1, n1)) /\
  stepper_call empty_treg c_l_s ac_l_s 0 st_l3 1%Z = (v3, Ok (d3, n3))).
Proof. exact @ex_columns. Qed.

(** C74: for such a component, the order in which the state stores the dims of its arrays is
    invisible, although '*' may then stand for other dims in another order. *)
Theorem c74_stored_order : forall {T : Type} {A : Arith T} {R : Registry}, (forall {U} g c (ac : U -> dict (rval T) -> U * res (dict (nd T) * dict (nd T))) u v1 v2
  (st1 st2 : state T) t1 d1 t2 d2,
  proper_inputs (t_inp c) -> t_packer c = None ->
  NoDup (keys (t_tend c)) -> stars_ok (t_tend c) (t_inp c) ->
  NoDup (keys (t_diag c)) -> stars_ok (t_diag c) (t_inp c) ->
  tendency_call g c ac u st1 = (v1, Ok (t1, d1)) -> tendency_call g c ac u st2 = (v2, Ok (t2, d2)) ->
  wf_state st2 -> same_fields (t_inp c) st1 st2 ->
  (column_setup (t_inp c) (t_tend c) st1 ->
  columnwise (t_inp c) (t_tend c)
  (fun raw out => exists v d, ac u raw = (v, Ok (out, d))) ->
  same_output_fields (t_inp c) st1 t1 t2) /\
  (t_tid c = false -> column_setup (t_inp c) (t_diag c) st1 ->
  columnwise (t_inp c) (t_diag c)
  (fun raw out => exists v t, ac u raw = (v, Ok (t, out))) ->
  same_output_fields (t_inp c) st1 d1 d2)) /\
  (forall {U} c (ac : U -> dict (rval T) -> U * res (dict (nd T))) u v1 v2 (st1 st2 : state T) d1 d2,
  proper_inputs (d_inp c) -> NoDup (keys (d_diag c)) -> stars_ok (d_diag c) (d_inp c) ->
  diagnostic_call c ac u st1 = (v1, Ok d1) -> diagnostic_call c ac u st2 = (v2, Ok d2) ->
  wf_state st2 -> same_fields (d_inp c) st1 st2 ->
  (column_setup (d_inp c) (d_diag c) st1 ->
  columnwise (d_inp c) (d_diag c)
  (fun raw out => exists v, ac u raw = (v, Ok out)) ->
  same_output_fields (d_inp c) st1 d1 d2)) /\
  (forall {U} g c (ac : U -> dict (rval T) -> Z -> U * res (dict (nd T) * dict (nd T))) u v1 v2
  (st1 st2 : state T) dt n1 d1 n2 d2,
  proper_inputs (s_inp c) -> s_packer c = None ->
  NoDup (keys (s_out c)) -> stars_ok (s_out c) (s_inp c) ->
  NoDup (keys (s_diag c)) -> stars_ok (s_diag c) (s_inp c) ->
  stepper_call g c ac u st1 dt = (v1, Ok (d1, n1)) -> stepper_call g c ac u st2 dt = (v2, Ok (d2, n2)) ->
  wf_state st2 -> same_fields (s_inp c) st1 st2 ->
  (column_setup (s_inp c) (s_out c) st1 ->
  columnwise (s_inp c) (s_out c)
  (fun raw out => exists v d, ac u raw dt = (v, Ok (d, out))) ->
  same_output_fields (s_inp c) st1 n1 n2) /\
  (s_tid c = false -> column_setup (s_inp c) (s_diag c) st1 ->
  columnwise (s_inp c) (s_diag c)
  (fun raw out => exists v n, ac u raw dt = (v, Ok (out, n))) ->
  same_output_fields (s_inp c) st1 d1 d2)).
Proof. exact @main_layout. Qed.
Print Assumptions c74_stored_order.

(** The same fields stored in two orders. *)
Example c74_stored_order_hypotheses_met : column_setup inp_l out_l st_l1 /\ wf_state st_l2 /\ same_fields inp_l st_l1 st_l2 /\
  wildcard_dims st_l1 inp_l = ["x"; "y"] /\ wildcard_dims st_l2 inp_l = ["y"; "x"] /\
  (exists v1 d1 v2 d2, diagnostic_call c_l ac_l 0 st_l1 = (v1, Ok d1) /\ diagnostic_call c_l ac_l 0 st_l2 = (v2, Ok d2)).
Proof. exact @ex_layout. Qed.

(** A component that looks at the number of a column does see the order. *)
Example c74_stored_order_matters : exists v1 d1 v2 d2 q1 q2,
  same_fields inp_l st_l1 st_l2 /\ diagnostic_call c_l ac_number 0 st_l1 = (v1, Ok d1) /\
  diagnostic_call c_l ac_number 0 st_l2 = (v2, Ok d2) /\
  dget "column" d1 = Some q1 /\ dget "column" d2 = Some q2 /\ column_of st_l1 inp_l col_l /\
  exists c, column_of st_l1 inp_l c /\ inside q1 c /\ da_at q1 c <> da_at q2 c.
Proof. exact @ex_layout_matters. Qed.

(** C74: for such a component, a call on one column alone returns that column of what a call on
    the whole state returns. *)
Theorem c74_single_column : forall {T : Type} {A : Arith T} {R : Registry}, (forall {U} g c (ac : U -> dict (rval T) -> U * res (dict (nd T) * dict (nd T))) u v1 v2
  (st1 st2 : state T) (p : string -> nat) t1 d1 t2 d2,
  proper_inputs (t_inp c) -> t_packer c = None ->
  NoDup (keys (t_tend c)) -> stars_ok (t_tend c) (t_inp c) ->
  NoDup (keys (t_diag c)) -> stars_ok (t_diag c) (t_inp c) ->
  tendency_call g c ac u st1 = (v1, Ok (t1, d1)) -> tendency_call g c ac u st2 = (v2, Ok (t2, d2)) ->
  wf_state st2 -> column_of st1 (t_inp c) p -> single_column (t_inp c) st1 p st2 ->
  (column_setup (t_inp c) (t_tend c) st1 ->
  columnwise (t_inp c) (t_tend c)
  (fun raw out => exists v d, ac u raw = (v, Ok (out, d))) ->
  output_column (t_inp c) st1 p t1 t2) /\
  (t_tid c = false -> column_setup (t_inp c) (t_diag c) st1 ->
  columnwise (t_inp c) (t_diag c)
  (fun raw out => exists v t, ac u raw = (v, Ok (t, out))) ->
  output_column (t_inp c) st1 p d1 d2)) /\
  (forall {U} c (ac : U -> dict (rval T) -> U * res (dict (nd T))) u v1 v2 (st1 st2 : state T) (p : string -> nat) d1 d2,
  proper_inputs (d_inp c) -> NoDup (keys (d_diag c)) -> stars_ok (d_diag c) (d_inp c) ->
  diagnostic_call c ac u st1 = (v1, Ok d1) -> diagnostic_call c ac u st2 = (v2, Ok d2) ->
  wf_state st2 -> column_of st1 (d_inp c) p -> single_column (d_inp c) st1 p st2 ->
  (column_setup (d_inp c) (d_diag c) st1 ->
  columnwise (d_inp c) (d_diag c)
  (fun raw out => exists v, ac u raw = (v, Ok out)) ->
  output_column (d_inp c) st1 p d1 d2)) /\
  (forall {U} g c (ac : U -> dict (rval T) -> Z -> U * res (dict (nd T) * dict (nd T))) u v1 v2
  (st1 st2 : state T) (p : string -> nat) dt n1 d1 n2 d2,
  proper_inputs (s_inp c) -> s_packer c = None ->
  NoDup (keys (s_out c)) -> stars_ok (s_out c) (s_inp c) ->
  NoDup (keys (s_diag c)) -> stars_ok (s_diag c) (s_inp c) ->
  stepper_call g c ac u st1 dt = (v1, Ok (d1, n1)) -> stepper_call g c ac u st2 dt = (v2, Ok (d2, n2)) ->
  wf_state st2 -> column_of st1 (s_inp c) p -> single_column (s_inp c) st1 p st2 ->
  (column_setup (s_inp c) (s_out c) st1 ->
  columnwise (s_inp c) (s_out c)
  (fun raw out => exists v d, ac u raw dt = (v, Ok (d, out))) ->
  output_column (s_inp c) st1 p n1 n2) /\
  (s_tid c = false -> column_setup (s_inp c) (s_diag c) st1 ->
  columnwise (s_inp c) (s_diag c)
  (fun raw out => exists v n, ac u raw dt = (v, Ok (out, n))) ->
  output_column (s_inp c) st1 p d1 d2)).
Proof. exact @main_single_column. Qed.
Print Assumptions c74_single_column.

(** The column at x = 1, y = 2 of a 2 x 3 grid. *)
Example c74_single_column_hypotheses_met : column_setup inp_l out_l st_l1 /\ wf_state st_l3 /\ column_of st_l1 inp_l col_l /\ single_column inp_l st_l1 col_l st_l3 /\
  wildcard_dims st_l3 inp_l = [] /\
  (exists v1 d1 v3 d3 q1 q3, diagnostic_call c_l ac_l 0 st_l1 = (v1, Ok d1) /\ diagnostic_call c_l ac_l 0 st_l3 = (v3, Ok d3) /\
  dget "T" d1 = Some q1 /\ dims q1 = ["z"; "x"; "y"] /\ dget "T" d3 = Some q3 /\ dims q3 = ["z"]).
Proof. exact @ex_single_column. Qed.

(** C74: for any component, if '*' stands for the same dims in the same order, the stored order is
    invisible: array_call gets the same arrays and the call ends the same. *)
Theorem c74_same_wildcard : forall {T : Type} {A : Arith T} {R : Registry}, (forall {U} g c (ac : U -> dict (rval T) -> U * res (dict (nd T) * dict (nd T))) u (st1 st2 : state T),
  t_packer c = None -> readable (t_inp c) st1 -> wf_state st2 ->
  same_fields (t_inp c) st1 st2 -> wildcard_dims st1 (t_inp c) = wildcard_dims st2 (t_inp c) ->
  tendency_call g c ac u st1 = tendency_call g c ac u st2) /\
  (forall {U} c (ac : U -> dict (rval T) -> U * res (dict (nd T))) u (st1 st2 : state T),
  readable (d_inp c) st1 -> wf_state st2 ->
  same_fields (d_inp c) st1 st2 -> wildcard_dims st1 (d_inp c) = wildcard_dims st2 (d_inp c) ->
  diagnostic_call c ac u st1 = diagnostic_call c ac u st2) /\
  (forall {U} g c (ac : U -> dict (rval T) -> Z -> U * res (dict (nd T) * dict (nd T))) u (st1 st2 : state T) dt,
  s_packer c = None -> readable (s_inp c) st1 -> wf_state st2 ->
  same_fields (s_inp c) st1 st2 -> wildcard_dims st1 (s_inp c) = wildcard_dims st2 (s_inp c) ->
  stepper_call g c ac u st1 dt = stepper_call g c ac u st2 dt).
Proof. exact @main_stored_order. Qed.
Print Assumptions c74_same_wildcard.

(** Stored in another order with the same wildcard dims. *)
Example c74_same_wildcard_hypotheses_met : readable inp_l st_l1 /\ wf_state st_l4 /\ same_fields inp_l st_l1 st_l4 /\
  wildcard_dims st_l1 inp_l = ["x"; "y"] /\ wildcard_dims st_l4 inp_l = ["x"; "y"] /\ st_l1 <> st_l4 /\
  exists v d, diagnostic_call c_l ac_number 0 st_l1 = (v, Ok d).
Proof. exact @ex_stored_order. Qed.

(** C74: with at most one dim for '*' to match, it stands for the same dims in every stored order. *)
Theorem c74_one_wildcard : forall {T : Type} {A : Arith T} {R : Registry}, forall inp (st1 st2 : state T), wf_state st1 -> wf_state st2 ->
  same_fields inp st1 st2 -> length (wildcard_dims st1 inp) <= 1 ->
  wildcard_dims st1 inp = wildcard_dims st2 inp.
Proof. exact @main_one_wildcard. Qed.
Print Assumptions c74_one_wildcard.

(** States with no and with one wildcard dim. *)
Example c74_one_wildcard_hypotheses_met : wf_state st_l3 /\ same_fields inp_l st_l3 st_l3 /\ wildcard_dims st_l3 inp_l = [] /\
  wildcard_dims st_c inp_c = ["x"] /\ same_fields inp_c st_c st_c.
Proof. exact @ex_one_wildcard. Qed.
