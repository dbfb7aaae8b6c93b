(** What the memory properties of PlotFunctionMonitor talk about (C72). *)
From Coq Require Import String List Bool Arith ZArith QArith Qcanon.
From Verif Require Import Prelude ArithM NdArray Units DataArrayM Composite Heap SpecHeap HeapPlot.
Import ListNotations.
Open Scope string_scope.
Open Scope nat_scope.
Open Scope list_scope.

Section Spec.
  Context {T : Type} {A : Arith T}.

  (** The plot function only writes to memory it has ([Own] of its own data, and the state it
      is given), and keeps only such memory or new memory. *)
  Definition private_plot {U F} (Own : U -> cells) (plot : hplot (T:=T) U F) : Prop :=
    forall u h f st u' h' f' r, plot u h f st = ((u', h', f'), r) ->
      changed_in (fun c => Own u c \/ state_cells st c) h h' /\
      forall c, Own u' c -> Own u c \/ state_cells st c \/ length h <= c < length h'.

  (** The caller changes memory in any way, then stores a state; again and again.  Every
      store is recorded: memory before, the state, memory after, and the outcome. *)
  Definition turn : Type := heap T -> heap T * hstate.
  Record stored : Type := mkstored { p_before : heap T; p_state : hstate; p_after : heap T; p_result : res unit }.

  Fixpoint plot_run {U F} (blank : F) (plot : hplot (T:=T) U F) (m : plotter F) (u : U) (h : heap T) (turns : list turn)
      : list stored * (plotter F * U * heap T) :=
    match turns with
    | [] => ([], (m, u, h))
    | t :: turns' =>
        let (h1, st) := t h in
        let '((m', u', h2), r) := h_plot_store blank plot m u h1 st in
        let (log, fin) := plot_run blank plot m' u' h2 turns' in
        (mkstored h1 st h2 r :: log, fin)
    end.

  (** Memory the plot function can have got hold of: what it had, and what was allocated during a store. *)
  Definition reachable {U} (Own : U -> cells) (u : U) (log : list stored) : cells := fun c =>
    Own u c \/ exists e, In e log /\ length (p_before e) <= c < length (p_after e).

  (** What is to be seen of stores with these outcomes: an interactive monitor clears and draws
      figure [i] each time, any other makes, draws and shows a new one. *)
  Fixpoint plot_events (interactive : bool) (i : nat) (rs : list (res unit)) : list plot_event :=
    match rs with
    | [] => []
    | r :: rs' =>
        [if interactive then PClear i else PNew i; PPlot i] ++
        match r with Ok _ => PDraw i :: (if interactive then [] else [PShow]) | Err _ => [] end ++
        plot_events interactive (if interactive then i else S i) rs'
    end.
End Spec.
