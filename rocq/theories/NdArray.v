(** numpy arrays: a shape and the elements in row-major (C) order.
    Simplification: one element type per model instance, no dtype, strides or
    views (aliasing is modelled separately, in Heap.v). *)
From Coq Require Import List Bool Arith.
From Verif Require Import Prelude ArithM.
Import ListNotations.

Record nd (T : Type) : Type := mknd { shape : list nat; data : list T }.
Arguments mknd {T} _ _.
Arguments shape {T} _.
Arguments data {T} _.

(** np.prod of a shape *)
Definition prod (l : list nat) : nat := fold_right Nat.mul 1 l.
Arguments prod : simpl never.

(** Row-major position of an index. *)
Fixpoint ravel (sh idx : list nat) : nat :=
  match sh, idx with
  | n :: sh', i :: idx' => i * prod sh' + ravel sh' idx'
  | _, _ => 0
  end.

(** Index of a row-major position. *)
Fixpoint unravel (sh : list nat) (k : nat) : list nat :=
  match sh with
  | [] => []
  | _ :: sh' => (k / prod sh') :: unravel sh' (k mod prod sh')
  end.

(** [idx] is a valid index for shape [sh]. *)
Definition in_range (idx sh : list nat) : Prop := Forall2 lt idx sh.

Definition wf_nd {T} (a : nd T) : Prop := length (data a) = prod (shape a).

Section Nd.
  Context {T : Type} {A : Arith T}.

  (** a[idx]; only meaningful for an index in range. *)
  Definition at_ (a : nd T) (idx : list nat) : T :=
    nth (ravel (shape a) idx) (data a) azero.

  (** Array with given shape and elements. *)
  Definition build (sh : list nat) (f : list nat -> T) : nd T :=
    mknd sh (map (fun k => f (unravel sh k)) (seq 0 (prod sh))).

  (** np.full / np.zeros / np.empty followed by a full assignment *)
  Definition full (sh : list nat) (v : T) : nd T := build sh (fun _ => v).

  (** elementwise function *)
  Definition nd_map (f : T -> T) (a : nd T) : nd T := mknd (shape a) (map f (data a)).

  (** a.reshape(sh): same elements in row-major order; ValueError if the number
      of elements differs. *)
  Definition reshape (a : nd T) (sh : list nat) : res (nd T) :=
    if Nat.eqb (prod sh) (prod (shape a)) then Ok (mknd sh (data a)) else Err EValue.

  (** [axes] is a permutation of the axes of an array of rank [n]. *)
  Definition is_axes (n : nat) (axes : list nat) : bool :=
    Nat.eqb (length axes) n && forallb (fun i => existsb (Nat.eqb i) axes) (seq 0 n).

  (** Position of axis [i] in [axes]. *)
  Fixpoint pos_nat (i : nat) (l : list nat) : nat :=
    match l with
    | [] => 0
    | j :: r => if Nat.eqb i j then 0 else S (pos_nat i r)
    end.

  (** a.transpose(axes): axis k of the result is axis axes[k] of a; ValueError
      unless axes is a permutation. *)
  Definition transpose (a : nd T) (axes : list nat) : res (nd T) :=
    if is_axes (length (shape a)) axes then
      Ok (build (map (fun k => nth k (shape a) 0) axes)
            (fun idx => at_ a (map (fun i => nth (pos_nat i axes) idx 0)
                                   (seq 0 (length (shape a))))))
    else Err EValue.

  (** Can an array of shape [src] be assigned to a target of shape [dst] of the
      same rank by numpy broadcasting? *)
  Fixpoint bcast_ok (src dst : list nat) : bool :=
    match src, dst with
    | [], [] => true
    | s :: src', d :: dst' => (Nat.eqb s 1 || Nat.eqb s d) && bcast_ok src' dst'
    | _, _ => false
    end.

  Fixpoint bcast_idx (src idx : list nat) : list nat :=
    match src, idx with
    | s :: src', i :: idx' => (if Nat.eqb s 1 then 0 else i) :: bcast_idx src' idx'
    | _, _ => []
    end.

  (** out = np.empty(dst); out[:] = a.
      Simplification: equal ranks (the only case that occurs). *)
  Definition broadcast_to (a : nd T) (dst : list nat) : res (nd T) :=
    if bcast_ok (shape a) dst then
      Ok (build dst (fun idx => at_ a (bcast_idx (shape a) idx)))
    else Err EValue.
End Nd.
