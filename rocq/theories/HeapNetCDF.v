(** Memory and the NetCDF monitor: its cache holds references (C67).

    netcdf.py 84-88 copies the state dictionary, not the arrays in it, and 113-116 caches
    that copy; the arrays are read when write() runs (161-185).  An array here is a da
    whose elements are cells of the memory of Heap.v.  attrs and dims are values, as
    there. *)
From Coq Require Import String List Bool Arith ZArith.
From Verif Require Import Prelude ArithM NdArray DataArrayM Heap StrFun NetCDF.
Import ListNotations.
Open Scope string_scope.
Open Scope nat_scope.
Open Scope list_scope.

Section HeapNetCDF.
  Context {T : Type} {A : Arith T} {N : NcLib T}.

  (** What a value, a state and a cache hold. *)
  Definition load_ref (h : heap T) (v : pval nat) : pval T :=
    match v with
    | VDA a => VDA (mkda (dims a) (mknd (shape (arr a)) (map (cell h) (data (arr a)))) (attrs a))
    | VTime t => VTime t
    end.

  Definition load_refs (h : heap T) (s : dict (pval nat)) : dict (pval T) := map (fun nv => (fst nv, load_ref h (snd nv))) s.

  Definition load_cache (h : heap T) (c : cache_t nat) : cache_t T := map (fun ts => (fst ts, load_refs h (snd ts))) c.

  (** A program with one monitor: it stores states, writes, and changes its memory in any
      way. *)
  Inductive ref_op : Type :=
  | RStore (st : dict (pval nat))
  | RWrite
  | RMemory (h : heap T).

  (** netcdf.py 161-185 *)
  Definition ref_write (m : monitor) (h : heap T) (fs : files T) (c : cache_t nat) : res unit * files T * cache_t nat :=
    match NetCDF.write m fs (load_cache h c) with
    | (Ok _, fs', _) => (Ok tt, fs', [])
    | (Err e, fs', _) => (Err e, fs', c)
    end.

  Definition ref_step (ord : list string -> list string) (m : monitor) (op : ref_op) (h : heap T) (fs : files T) (c : cache_t nat) : res unit * heap T * files T * cache_t nat :=
    match op with
    | RMemory h' => (Ok tt, h', fs, c)
    | RWrite => match ref_write m h fs c with (o, fs', c') => (o, h, fs', c') end
    | RStore st =>
        match prepare ord m st with
        | Err e => (Err e, h, fs, c)
        | Ok (t, cs) => let c' := cache_add t cs c in
                        if m_on_store m then match ref_write m h fs c' with (o, fs', c') => (o, h, fs', c') end else (Ok tt, h, fs, c')
        end
    end.

  (** The outcomes of the calls to the monitor, the files and the cache. *)
  Fixpoint ref_run (ord : list string -> list string) (m : monitor) (ops : list ref_op) (h : heap T) (fs : files T) (c : cache_t nat) : list (res unit) * files T * cache_t nat :=
    match ops with
    | [] => ([], fs, c)
    | op :: r => match ref_step ord m op h fs c with
                 | (o, h', fs', c') => match ref_run ord m r h' fs' c' with
                                       | (os, fs'', c'') => (match op with RMemory _ => os | _ => o :: os end, fs'', c'')
                                       end
                 end
    end.
End HeapNetCDF.
Arguments ref_op T : clear implicits.
