(** Specification vocabulary for the file that a model run leaves (C87). *)
From Coq Require Import String List Bool Arith ZArith QArith.
From Verif Require Import Prelude ArithM NdArray Units DataArrayM StrFun NetCDF SpecNetCDF Components Composite Steppers Basic MainLoop SpecMainLoop.
Import ListNotations.
Open Scope string_scope.
Open Scope nat_scope.
Open Scope list_scope.

Section RunFile.
  Context {T : Type} {A : Arith T} {N : NcLib T}.

  (** The store method of a NetCDF monitor in a program with other objects [U]. *)
  Definition to_file {U} (ord : list string -> list string) (m : monitor) (w : (files T * cache_t T) * U) (st : state T)
      : ((files T * cache_t T) * U) * res unit :=
    match NetCDF.store ord m st (fst (fst w)) (snd (fst w)) with
    | (r, fs, c) => (((fs, c), snd w), r)
    end.

  (** The aliases of the monitor apply to the quantities of [st] without a clash (C57). *)
  Definition aliased (ord : list string -> list string) (m : monitor) (st : state T) : Prop :=
    ~ In "" (chosen ord m st) /\ no_clashes (m_aliases m) (chosen ord m st).

  (** [s] holds the chosen quantities of [st] under their aliases, and nothing else. *)
  Definition record_of (ord : list string -> list string) (m : monitor) (st : state T) (s : dict (pval T)) : Prop :=
    (forall n v, In n (chosen ord m st) -> n <> "time" -> dget n st = Some v -> dget (final_name (m_aliases m) n) s = Some v) /\
    (forall x, In x (keys s) -> exists n, In n (chosen ord m st) /\ n <> "time" /\ x = final_name (m_aliases m) n).

  (** After the records [old] the file holds one record for each state of [log], in order:
      the k-th for the time t0 + k dt with the quantities of the k-th state. *)
  Definition run_file (ord : list string -> list string) (m : monitor) (L : string -> nat) (t0 dt : Z) (old : list (Z * dict (pval T))) (log : list (state T)) (fs : files T) : Prop :=
    exists records, length records = length log /\
      (forall k S, nth_error log k = Some S -> exists s, nth_error records k = Some ((t0 + Z.of_nat k * dt)%Z, s) /\ record_of ord m S s) /\
      file_holds m L (old ++ records) fs.
End RunFile.
