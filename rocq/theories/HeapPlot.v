(** sympl/_components/plot.py: PlotFunctionMonitor, in memory.

    matplotlib is left out: a figure is a value of an arbitrary type, drawn on by the plot
    function; what the user sees is a list of events.  The import of matplotlib is assumed
    to succeed. *)
From Coq Require Import String List Bool Arith ZArith QArith Qcanon.
From Verif Require Import Prelude ArithM NdArray Units DataArrayM Composite Heap.
Import ListNotations.
Open Scope string_scope.
Open Scope nat_scope.
Open Scope list_scope.

Inductive plot_event : Type :=
| PNew (i : nat)            (* plt.figure() *)
| PClear (i : nat)          (* fig.clear() *)
| PPlot (i : nat)           (* the plot function is called *)
| PDraw (i : nat)           (* fig.canvas.draw() *)
| PShow.                    (* plt.show() *)

Section Plot.
  Context {T : Type} {A : Arith T}.

  (** plot.py 6-13: copy_state; copy(deep=True) allocates, everything else is passed on. *)
  Fixpoint h_copy_state (h : heap T) (st : hstate) : heap T * hstate :=
    match st with
    | [] => (h, [])
    | (k, HTime t) :: st' => let (h', out) := h_copy_state h st' in (h', (k, HTime t) :: out)
    | (k, HDA a) :: st' =>
        let (h1, b) := alloc h (load h a) in
        let (h', out) := h_copy_state h1 st' in (h', (k, HDA b) :: out)
    end.

  (** The plot function: any program, with data of type [U] of its own. *)
  Definition hplot (U F : Type) : Type := U -> heap T -> F -> hstate -> (U * heap T * F) * res unit.

  (** All figures, what happened to them, and the figure of the monitor if it is interactive. *)
  Record plotter (F : Type) : Type := mkplotter {
    pl_figs : list F;
    pl_events : list plot_event;
    pl_fig : option nat
  }.
  Arguments mkplotter {F} _ _ _.
  Arguments pl_figs {F} _.
  Arguments pl_events {F} _.
  Arguments pl_fig {F} _.

  (** plot.py 22-46: __init__ *)
  Definition new_plotter {F} (blank : F) (figs : list F) (interactive : bool) : plotter F :=
    if interactive then mkplotter (figs ++ [blank]) [PNew (length figs)] (Some (length figs))
    else mkplotter figs [] None.

  Fixpoint set_fig {F} (figs : list F) (i : nat) (f : F) : list F :=
    match figs, i with
    | [], _ => []
    | _ :: fs, 0 => f :: fs
    | g :: fs, S i' => g :: set_fig fs i' f
    end.

  (** plot.py 52-72: store *)
  Definition h_plot_store {U F} (blank : F) (plot : hplot U F) (m : plotter F) (u : U) (h : heap T) (st : hstate)
      : (plotter F * U * heap T) * res unit :=
    let '(i, figs, ev) := match pl_fig m with
                          | Some i => (i, set_fig (pl_figs m) i blank, pl_events m ++ [PClear i])
                          | None => (length (pl_figs m), pl_figs m ++ [blank], pl_events m ++ [PNew (length (pl_figs m))])
                          end in
    let (h1, copy) := h_copy_state h st in
    let '((u', h', f'), r) := plot u h1 (nth i figs blank) copy in
    ((mkplotter (set_fig figs i f')
                (ev ++ [PPlot i] ++
                 match r with
                 | Err _ => []
                 | Ok _ => PDraw i :: match pl_fig m with Some _ => [] | None => [PShow] end
                 end)
                (pl_fig m), u', h'), r).
End Plot.

Arguments mkplotter {F} _ _ _.
Arguments pl_figs {F} _.
Arguments pl_events {F} _.
Arguments pl_fig {F} _.
