(** Concrete cases for PlotFunctionMonitor (C72). *)
From Coq Require Import String List Bool Arith ZArith QArith Qcanon Lia.
From Verif Require Import Prelude PreludeFacts ArithM NdArray Units DataArrayM ExampleRegistry Checks Composite Heap SpecHeap HeapFacts HeapPlot SpecHeapPlot HeapPlotMain
  Ex_Components Ex_Heap.
Import ListNotations.
Open Scope string_scope.
Open Scope nat_scope.
Open Scope list_scope.

(** It clears the arrays it kept from earlier calls, doubles the ones it is given in place and keeps
    them; a figure is the list of values that was drawn on it.  It fails on its third call. *)
Definition given (st : hstate) : list nat := flat_map (fun kv => match snd kv with HDA a => h_cells a | HTime _ => [] end) st.
Definition plot_ex : hplot (T:=Qc) (list nat * nat) (list Qc) := fun u h f st =>
  let h1 := store h (fst u) (map (fun _ => 0%Qc) (fst u)) in
  let cs := given st in
  let vs := map (fun c => cell h1 c + cell h1 c)%Qc cs in
  ((fst u ++ cs, S (snd u), store h1 cs vs, f ++ vs), if Nat.eqb (snd u) 2 then Err EValue else Ok tt).
Definition own_ex (u : list nat * nat) : cells := fun c => In c (fst u).

Lemma given_cells : forall st c, In c (given st) <-> state_cells st c.
Proof.
  intros st c. unfold given. rewrite in_flat_map. split.
  - intros ([k [a|t]] & Hi & Hc); [exists k, a; auto|destruct Hc].
  - intros (k & a & Hi & Hc). exists (k, HDA a). auto.
Qed.

Lemma plot_ex_private : private_plot own_ex plot_ex.
Proof.
  intros u h f st u' h' f' r H. unfold plot_ex in H. injection H as <- <- _ _. split.
  - split; [rewrite !length_store; auto|]. intros c _ Hn. rewrite cell_store_other, cell_store_other; auto; intros K; apply Hn; first [left; exact K|right; apply given_cells; exact K].
  - intros c Hc. unfold own_ex in *. cbn [fst] in Hc. apply in_app_or in Hc as [Hc|Hc]; [left; exact Hc|right; left; apply given_cells; exact Hc].
Qed.

(** The caller adds to x in place, then stores its state. *)
Definition bump : turn (T:=Qc) := fun h => (store h [0; 1; 2] (map (fun c => cell h c + cz 1)%Qc [0; 1; 2]), st0).

Definition plotter0 (inter : bool) : plotter (list Qc) := new_plotter [] [] inter.
Definition log_of (inter : bool) := plot_run [] plot_ex (plotter0 inter) ([], 0) mem0 [bump; bump; bump].

Lemma ex_plot_hyps : private_plot own_ex plot_ex /\ (forall inter i, pl_fig (plotter0 inter) = Some i -> i < length (pl_figs (plotter0 inter))) /\
  (forall c, own_ex ([], 0) c -> c < length mem0) /\ (forall t h, In t [bump; bump; bump] -> length h <= length (fst (t h))) /\
  (forall inter e, In e (fst (log_of inter)) -> state_in (p_before e) (p_state e)) /\
  forall inter c, c < 10 -> ~ reachable own_ex ([], 0) (fst (log_of inter)) c.
Proof.
  split; [exact plot_ex_private|]. split. { intros [|] i H; [injection H as <-; auto|discriminate]. }
  split; [intros c []|]. split. { intros t h [<-|[<-|[<-|[]]]]; unfold bump; cbn [fst]; rewrite length_store; auto. }
  split.
  - intros inter e He.
    assert (K : forallb (fun e => forallb (fun c => c <? length (p_before e)) (given (p_state e))) (fst (log_of inter)) = true) by (destruct inter; vm_compute; reflexivity).
    rewrite forallb_forall in K. specialize (K e He). rewrite forallb_forall in K. intros c Hc. apply Nat.ltb_lt, K, given_cells, Hc.
  - intros inter c Hc [[]|(e & He & K)].
    assert (L : forallb (fun e => 10 <=? length (p_before e)) (fst (log_of inter)) = true) by (destruct inter; vm_compute; reflexivity).
    rewrite forallb_forall in L. apply L in He. apply Nat.leb_le in He. lia.
Qed.

(** What is drawn: twice the values of each moment.  The caller's arrays have only what the caller put there. *)
Lemma ex_plot_run :
  (let '(log, (m, u, h)) := log_of true in
   forallb (fun f => qcs_eqb f [8; 10; 12; 80; 80]%Z) (pl_figs m) && qcs_eqb (firstn 10 h) [4; 5; 6; 100; 200; 300; 5; 6; 7; 40]%Z &&
   (length (pl_figs m) =? 1) && forallb (fun e => is_ok (p_result e)) (firstn 2 log) && negb (forallb (fun e => is_ok (p_result e)) log)) = true /\
  pl_events (fst (fst (snd (log_of true)))) = [PNew 0; PClear 0; PPlot 0; PDraw 0; PClear 0; PPlot 0; PDraw 0; PClear 0; PPlot 0] /\
  pl_events (fst (fst (snd (log_of false)))) = [PNew 0; PPlot 0; PDraw 0; PShow; PNew 1; PPlot 1; PDraw 1; PShow; PNew 2; PPlot 2].
Proof. split; [|split]; vm_compute; reflexivity. Qed.
