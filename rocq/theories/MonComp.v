(** MonitorComposite (sympl/_core/composite.py 288-310). *)
From Coq Require Import String List Bool Arith ZArith.
From Verif Require Import Prelude ArithM NdArray DataArrayM StrFun NetCDF.
Import ListNotations.
Open Scope string_scope.
Open Scope nat_scope.
Open Scope list_scope.

Section Composite.
  (** [W]: everything the monitors can change; [St]: states. *)
  Context {W St : Type}.

  (** The store method of a monitor. *)
  Definition storer : Type := W -> St -> W * res unit.

  (** composite.py 308-309: store *)
  Fixpoint composite_store (ms : list storer) (w : W) (st : St) : W * res unit :=
    match ms with
    | [] => (w, Ok tt)
    | m :: r => match m w st with
                | (w', Ok _) => composite_store r w' st
                | (w', Err e) => (w', Err e)
                end
    end.

  (** Several calls; exceptions are caught by the program. *)
  Fixpoint composite_run (ms : list storer) (w : W) (sts : list St) : W * list (res unit) :=
    match sts with
    | [] => (w, [])
    | st :: r => match composite_store ms w st with
                 | (w', o) => match composite_run ms w' r with (w'', os) => (w'', o :: os) end
                 end
    end.
End Composite.
Arguments storer : clear implicits.

(** An object offered to MonitorComposite: is it a Monitor, and its store method. *)
(** composite.py 84-99: the constructor *)
Definition new_composite {W St : Type} (args : list (bool * storer W St)) : res (list (storer W St)) :=
  if forallb fst args then Ok (map snd args) else Err EType.

Section NetCDFMonitors.
  Context {T : Type} {A : Arith T} {L : NcLib T}.

  (** The i-th monitor of a composite of NetCDF monitors: the monitors share the files, and
      each has its own cache. *)
  Definition nc_storer (ord : list string -> list string) (i : nat) (m : monitor) : storer (files T * list (cache_t T)) (state T) :=
    fun w st =>
      match store ord m st (fst w) (nth i (snd w) []) with
      | (o, fs, c) => ((fs, firstn i (snd w) ++ c :: skipn (S i) (snd w)), o)
      end.

  Fixpoint nc_storers (ord : list string -> list string) (i : nat) (ms : list monitor) : list (storer (files T * list (cache_t T)) (state T)) :=
    match ms with
    | [] => []
    | m :: r => nc_storer ord i m :: nc_storers ord (S i) r
    end.
End NetCDFMonitors.
