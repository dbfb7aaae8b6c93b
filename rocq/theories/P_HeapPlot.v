(** Property theorems about PlotFunctionMonitor (C72). *)
From Coq Require Import String List Bool Arith ZArith QArith Qcanon.
From Verif Require Import Prelude ArithM NdArray Units DataArrayM Composite Heap SpecHeap HeapPlot SpecHeapPlot HeapPlotMain Ex_Components Ex_Heap Ex_HeapPlot.
Import ListNotations.
Open Scope string_scope.
Open Scope nat_scope.
Open Scope list_scope.


(** C72: the plot function is called once, with a clear figure and a copy of the state in new
    memory; what it raises is raised; the figure is drawn if it returns. *)
Theorem c72_call : forall {T : Type} {A : Arith T}, forall {U F} (blank : F) (plot : hplot U F) m u (h : heap T) st m' u' h' r,
  state_in h st -> (forall i, pl_fig m = Some i -> i < length (pl_figs m)) ->
  h_plot_store blank plot m u h st = ((m', u', h'), r) ->
  exists h1 copy f' i, plot u h1 blank copy = ((u', h', f'), r) /\
  load_state h1 copy = load_state h st /\ grown h h1 /\ (forall c, state_cells copy c -> length h <= c < length h1) /\
  pl_fig m' = pl_fig m /\ (forall j, pl_fig m' = Some j -> j < length (pl_figs m')) /\
  nth_error (pl_figs m') i = Some f' /\
  pl_events m' = pl_events m ++
  [match pl_fig m with Some _ => PClear i | None => PNew i end; PPlot i] ++
  match r with Err _ => [] | Ok _ => PDraw i :: match pl_fig m with Some _ => [] | None => [PShow] end end /\
  match pl_fig m with Some j => i = j | None => i = length (pl_figs m) end.
Proof. exact @main_plot_call. Qed.
Print Assumptions c72_call.

(** C72: a store changes no memory but what the plot function had before. *)
Theorem c72_isolated : forall {T : Type} {A : Arith T}, forall {U F} (Own : U -> cells) (blank : F) (plot : hplot U F) m u (h : heap T) st m' u' h' r,
  private_plot Own plot -> state_in h st -> (forall i, pl_fig m = Some i -> i < length (pl_figs m)) ->
  h_plot_store blank plot m u h st = ((m', u', h'), r) ->
  changed_in (Own u) h h' /\ forall c, Own u' c -> Own u c \/ length h <= c < length h'.
Proof. exact @main_plot_isolated. Qed.
Print Assumptions c72_isolated.

(** C72: over all sequences of stores and of changes the caller makes between them, no store
    changes memory that the plot function did not have at first and that was not allocated during a store. *)
Theorem c72_history : forall {T : Type} {A : Arith T}, forall {U F} (Own : U -> cells) (blank : F) (plot : hplot U F) turns m u (h : heap T) log fin,
  private_plot Own plot -> (forall i, pl_fig m = Some i -> i < length (pl_figs m)) -> (forall c, Own u c -> c < length h) ->
  (forall t h, In t turns -> length h <= length (fst (t h))) ->
  plot_run blank plot m u h turns = (log, fin) -> (forall e, In e log -> state_in (p_before e) (p_state e)) ->
  forall c, ~ reachable Own u log c -> forall e, In e log -> c < length (p_before e) -> cell (p_after e) c = cell (p_before e) c.
Proof. exact @main_plot_history. Qed.
Print Assumptions c72_history.

(** C72: from its creation on, an interactive monitor has one figure, which each store clears
    and draws; any other makes, draws and shows a new figure at each store.  Figures that were
    there before are not touched. *)
Theorem c72_figures : forall {T : Type} {A : Arith T}, forall {U F} (blank : F) (plot : hplot (T:=T) U F) figs (inter : bool) turns u (h : heap T) log m u' h',
  plot_run blank plot (new_plotter blank figs inter) u h turns = (log, (m, u', h')) ->
  length log = length turns /\ length (pl_figs m) = length figs + (if inter then 1 else length turns) /\
  pl_events m = (if inter then [PNew (length figs)] else []) ++ plot_events inter (length figs) (map p_result log) /\
  (forall i, i < length figs -> nth_error (pl_figs m) i = nth_error figs i).
Proof. exact @main_plot_figures. Qed.
Print Assumptions c72_figures.

(** A plot function that writes to everything it gets, and keeps it. *)
Example c72_hypotheses_met : private_plot own_ex plot_ex /\ (forall inter i, pl_fig (plotter0 inter) = Some i -> i < length (pl_figs (plotter0 inter))) /\
  (forall c, own_ex ([], 0) c -> c < length mem0) /\ (forall t h, In t [bump; bump; bump] -> length h <= length (fst (t h))) /\
  (forall inter e, In e (fst (log_of inter)) -> state_in (p_before e) (p_state e)) /\
  forall inter c, c < 10 -> ~ reachable own_ex ([], 0) (fst (log_of inter)) c.
Proof. exact @ex_plot_hyps. Qed.

(** Three stores, the last of which fails. *)
Example c72_case : (let '(log, (m, u, h)) := log_of true in
  forallb (fun f => qcs_eqb f [8; 10; 12; 80; 80]%Z) (pl_figs m) && qcs_eqb (firstn 10 h) [4; 5; 6; 100; 200; 300; 5; 6; 7; 40]%Z &&
  (length (pl_figs m) =? 1) && forallb (fun e => is_ok (p_result e)) (firstn 2 log) && negb (forallb (fun e => is_ok (p_result e)) log)) = true /\
  pl_events (fst (fst (snd (log_of true)))) = [PNew 0; PClear 0; PPlot 0; PDraw 0; PClear 0; PPlot 0; PDraw 0; PClear 0; PPlot 0] /\
  pl_events (fst (fst (snd (log_of false)))) = [PNew 0; PPlot 0; PDraw 0; PShow; PNew 1; PPlot 1; PDraw 1; PShow; PNew 2; PPlot 2].
Proof. exact @ex_plot_run. Qed.
