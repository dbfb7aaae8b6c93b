(** Rearranging cells and then reading is reading and then rearranging. *)
From Coq Require Import String List Bool Arith ZArith QArith Qcanon Lia.
From Verif Require Import Prelude PreludeFacts ArithM NdArray NdFacts Units DataArrayM Wildcard GetNp GetNpFacts Restore InitNp Tracers Composite Heap Components HeapCalls SpecComposite SpecHeap SpecHeapCalls HeapFacts.
Import ListNotations.
Open Scope string_scope.
Open Scope nat_scope.
Open Scope list_scope.

Lemma rmap_bind : forall {B C D} (f : C -> D) (r : res B) (k : B -> res C), rmap f (bind r k) = bind r (fun x => rmap f (k x)).
Proof. intros B C D f [x|e] k; reflexivity. Qed.

Lemma bind_rmap : forall {B C D} (f : B -> C) (r : res B) (k : C -> res D), bind (rmap f r) k = bind r (fun x => k (f x)).
Proof. intros B C D f [x|e] k; reflexivity. Qed.

Lemma bind_ext : forall {B C} (r : res B) (k k' : B -> res C), (forall x, k x = k' x) -> bind r k = bind r k'.
Proof. intros B C [x|e] k k' H; [apply H|reflexivity]. Qed.

Lemma rmap_id : forall {B} (r : res B), rmap (fun x => x) r = r.
Proof. intros B [x|e]; reflexivity. Qed.

Lemma foldM_rmap : forall {B S S'} (L : S -> S') (f : S' -> B -> res S') (g : S -> B -> res S) l s,
  (forall x s, f (L s) x = rmap L (g s x)) -> foldM f l (L s) = rmap L (foldM g l s).
Proof.
  intros B S S' L f g l. induction l as [|x l IH]; intros s H; [reflexivity|]. cbn [foldM].
  rewrite H, rmap_bind, bind_rmap. apply bind_ext. intros y. apply IH, H.
Qed.

Lemma foldM_ext_in : forall {B S} (f g : S -> B -> res S) l s, (forall x s, In x l -> f s x = g s x) -> foldM f l s = foldM g l s.
Proof.
  intros B S f g l. induction l as [|x l IH]; intros s H; [reflexivity|]. cbn [foldM]. rewrite H by (left; auto).
  apply bind_ext. intros y. apply IH. intros; apply H; right; auto.
Qed.

Section Facts.
  Context {T : Type} {A : Arith T} {R : Registry}.

  Lemma cell_out : forall (h : heap T) c, length h <= c -> cell h c = azero.
  Proof. intros h c H. unfold cell. apply nth_overflow, H. Qed.

  Lemma at_load : forall (h : heap T) d (a : nd nat) idx, length h <= d ->
    at_ (load_nd h a) idx = cell h (at_ (A:=ArithCell d) a idx).
  Proof.
    intros h d a idx H. unfold at_, load_nd. cbn [shape data].
    transitivity (nth (ravel (shape a) idx) (map (cell h) (data a)) (cell h d)).
    - f_equal. symmetry. apply cell_out, H.
    - apply map_nth.
  Qed.

  Lemma load_build : forall (h : heap T) sh (f : list nat -> nat), load_nd h (build sh f) = build sh (fun i => cell h (f i)).
  Proof. intros. unfold load_nd, build. cbn [shape data]. rewrite map_map. reflexivity. Qed.

  Lemma build_ext : forall {S} sh (f g : list nat -> S), (forall i, f i = g i) -> build sh f = build sh g.
  Proof. intros S sh f g H. unfold build. f_equal. apply map_ext. intros; apply H. Qed.

  Lemma reshape_load : forall (h : heap T) (a : nd nat) sh, reshape (load_nd h a) sh = rmap (load_nd h) (reshape a sh).
  Proof. intros. unfold reshape. cbn [load_nd shape data]. destruct (Nat.eqb _ _); reflexivity. Qed.

  Lemma transpose_load : forall (h : heap T) d (a : nd nat) axes, length h <= d ->
    transpose (load_nd h a) axes = rmap (load_nd h) (transpose (A:=ArithCell d) a axes).
  Proof.
    intros h d a axes H. unfold transpose. cbn [load_nd shape]. destruct (is_axes _ _); [|reflexivity].
    cbn [rmap]. rewrite load_build. f_equal. apply build_ext. intros i. apply at_load, H.
  Qed.

  Lemma broadcast_load : forall (h : heap T) d (a : nd nat) dst, length h <= d ->
    broadcast_to (load_nd h a) dst = rmap (load_nd h) (broadcast_to (A:=ArithCell d) a dst).
  Proof.
    intros h d a dst H. unfold broadcast_to. cbn [load_nd shape]. destruct (bcast_ok _ _); [|reflexivity].
    cbn [rmap]. rewrite load_build. f_equal. apply build_ext. intros i. apply at_load, H.
  Qed.

  Lemma get_numpy_array_load : forall (h : heap T) d a od dl, length h <= d ->
    get_numpy_array (load h a) od dl = rmap (load_nd h) (get_numpy_array (A:=ArithCell d) (refs a) od dl).
  Proof.
    intros h d a od dl H. unfold get_numpy_array. cbn [load refs arr dims shape].
    destruct (Nat.eqb (length (h_shape a)) 0 && Nat.eqb (length od) 0); [reflexivity|].
    destruct (list_eqb (h_dims a) od); [reflexivity|].
    set (missing := filter _ od). set (hm := negb _). set (cur := if hm then rev missing ++ h_dims a else h_dims a).
    change (mknd (h_shape a) (map (cell h) (h_cells a))) with (load_nd h (mknd (h_shape a) (h_cells a))).
    rewrite rmap_bind.
    replace (if hm then reshape (load_nd h (mknd (h_shape a) (h_cells a))) (repeat 1 (length missing) ++ h_shape a)
             else Ok (load_nd h (mknd (h_shape a) (h_cells a))))
      with (rmap (load_nd h) (if hm then reshape (mknd (h_shape a) (h_cells a)) (repeat 1 (length missing) ++ h_shape a)
             else Ok (mknd (h_shape a) (h_cells a)))).
    2:{ destruct hm; [|reflexivity]. symmetry. apply reshape_load. }
    rewrite bind_rmap. apply bind_ext. intros v'.
    set (tgt := od ++ _). rewrite rmap_bind.
    replace (if list_eqb cur tgt then Ok (load_nd h v')
             else let* axes := mapM (fun d0 => match last_index d0 cur with Some i => Ok i | None => Err EValue end) tgt in
                  transpose (load_nd h v') axes)
      with (rmap (load_nd h) (if list_eqb cur tgt then Ok v'
             else let* axes := mapM (fun d0 => match last_index d0 cur with Some i => Ok i | None => Err EValue end) tgt in
                  transpose (A:=ArithCell d) v' axes)).
    2:{ destruct (list_eqb cur tgt); [reflexivity|]. rewrite rmap_bind. apply bind_ext. intros axes. symmetry. apply transpose_load, H. }
    rewrite bind_rmap. apply bind_ext. intros na.
    destruct hm; [|reflexivity]. cbn [load_nd shape]. destruct (nats_eqb _ _); [reflexivity|]. apply broadcast_load, H.
  Qed.

  Lemma flatten_load : forall (h : heap T) (a : nd nat) i j,
    flatten_wildcard_dims (load_nd h a) i j = rmap (load_nd h) (flatten_wildcard_dims a i j).
  Proof.
    intros. unfold flatten_wildcard_dims. cbn [load_nd shape].
    destruct (Nat.ltb _ _); [reflexivity|]. destruct (Nat.ltb _ _); [reflexivity|].
    destruct (Nat.eqb i j); apply reshape_load.
  Qed.

  Lemma expand_load : forall (h : heap T) (a : nd nat) sh,
    expand_array_wildcard_dims (load_nd h a) sh = rmap (load_nd h) (expand_array_wildcard_dims a sh).
  Proof. intros. unfold expand_array_wildcard_dims. rewrite reshape_load. destruct (reshape a sh); reflexivity. Qed.

  Lemma get_slice_load : forall (h : heap T) d (a : nd nat) k i, length h <= d ->
    get_slice (load_nd h a) k i = rmap (load_nd h) (get_slice (A:=ArithCell d) a k i).
  Proof.
    intros h d a k i H. unfold get_slice. cbn [load_nd shape]. destruct (nth_error _ _) as [n|]; [|reflexivity].
    destruct (Nat.ltb i n); [|reflexivity]. cbn [rmap]. rewrite load_build. f_equal. apply build_ext. intros. apply at_load, H.
  Qed.

  (** ** Dictionaries *)

  Lemma keys_load_nds : forall (h : heap T) d, keys (load_nds h d) = keys d.
  Proof. intros. unfold keys, load_nds. rewrite map_map. reflexivity. Qed.

  Lemma keys_load_raw : forall (h : heap T) d, keys (load_raw h d) = keys d.
  Proof. intros. unfold keys, load_raw. rewrite map_map. reflexivity. Qed.

  Lemma dget_map : forall {V W} (f : V -> W) k (d : dict V), dget k (map (fun kv => (fst kv, f (snd kv))) d) = option_map f (dget k d).
  Proof.
    intros V W f k d. induction d as [|[k' v] d IH]; [reflexivity|]. cbn [map dget fst snd].
    destruct (String.eqb k k'); [reflexivity|exact IH].
  Qed.

  Lemma dgetE_map : forall {V W} (f : V -> W) k (d : dict V), dgetE k (map (fun kv => (fst kv, f (snd kv))) d) = rmap f (dgetE k d).
  Proof. intros. unfold dgetE. rewrite dget_map. destruct (dget k d); reflexivity. Qed.

  Lemma dset_map : forall {V W} (f : V -> W) k v (d : dict V),
    dset k (f v) (map (fun kv => (fst kv, f (snd kv))) d) = map (fun kv => (fst kv, f (snd kv))) (dset k v d).
  Proof.
    intros V W f k v d. induction d as [|[k' v'] d IH]; [reflexivity|]. cbn [map dset fst snd].
    destruct (String.eqb k k'); [reflexivity|]. cbn [map fst snd]. rewrite IH. reflexivity.
  Qed.

  Lemma ddel_map : forall {V W} (f : V -> W) k (d : dict V),
    ddel k (map (fun kv => (fst kv, f (snd kv))) d) = map (fun kv => (fst kv, f (snd kv))) (ddel k d).
  Proof.
    intros V W f k d. induction d as [|[k' v'] d IH]; [reflexivity|]. cbn [map ddel fst snd].
    destruct (String.eqb k k'); cbn [map fst snd]; rewrite IH; reflexivity.
  Qed.

  Lemma dmem_map : forall {V W} (f : V -> W) k (d : dict V), dmem k (map (fun kv => (fst kv, f (snd kv))) d) = dmem k d.
  Proof. intros. unfold dmem. rewrite dget_map. destruct (dget k d); reflexivity. Qed.

  (** ** Names and lengths *)

  Lemma wildcard_load : forall (h : heap T) st pd,
    get_wildcard_matches_and_dim_lengths (load_state h st) pd = get_wildcard_matches_and_dim_lengths (refs_state st) pd.
  Proof.
    intros h st pd. unfold get_wildcard_matches_and_dim_lengths. f_equal.
    apply foldM_ext_in. intros np acc _. unfold wildcard_step, load_state, refs_state. rewrite !dgetE_map.
    apply bind_ext. intros [ds u]. destruct (dgetE (fst np) st) as [v|e]; [|reflexivity]. destruct v; reflexivity.
  Qed.

  (** ** Restoring *)

  Definition load_das (h : heap T) (d : dict (da nat)) : dict (da T) := map (fun kv => (fst kv, load h (unrefs (snd kv)))) d.

  Lemma restore_load : forall (h : heap T) raw outp st inp ig,
    restore_data_arrays_with_properties (load_nds h raw) outp (load_state h st) inp ig false
    = rmap (load_das h) (restore_data_arrays_with_properties raw outp (refs_state st) inp ig false).
  Proof.
    intros h raw outp st inp ig. unfold restore_data_arrays_with_properties. rewrite wildcard_load, rmap_bind.
    apply bind_ext. intros [wn dl]. rewrite rmap_bind. apply bind_ext. intros dd. rewrite rmap_bind.
    rewrite (foldM_rmap (fun s : dict nat * dict (da nat) => (fst s, load_das h (snd s)))
               (restore_step (load_nds h raw) outp inp wn ig) (restore_step raw outp inp wn ig) dd (dl, [])).
    { rewrite bind_rmap. apply bind_ext. intros [dl' out]. reflexivity. }
    intros [name od] [dl0 out]. unfold restore_step. cbn [fst snd]. destruct (mem name ig); [reflexivity|].
    rewrite rmap_bind. apply bind_ext. intros rn. rewrite rmap_bind. unfold load_nds. rewrite dgetE_map.
    transitivity (bind (rmap (fun r : dict nat * list string * nd nat => (fst (fst r), snd (fst r), load_nd h (snd r)))
       (if mem "*" od
        then let* ra := dgetE rn raw in
             let* (ds, target) := fill_dims_wildcard od (note_new_dims od (shape ra) dl0) wn in
             let* oa := expand_array_wildcard_dims ra target in Ok (note_new_dims od (shape ra) dl0, ds, oa)
        else let* ra := dgetE rn raw in let* _ := check_array_shape od ra dl0 in Ok (dl0, od, ra)))
       (fun r => let '(dl', ds, oa) := r in
                 let* p := dgetE name outp in
                 let* u := match p_units p with Some u => Ok u | None => Err EKey end in
                 let* q := create_quantity oa u ds in
                 Ok (dl', dset name q (load_das h out)))).
    - f_equal. destruct (mem "*" od).
      + rewrite rmap_bind, bind_rmap. apply bind_ext. intros ra. rewrite rmap_bind. cbn [load_nd shape].
        apply bind_ext. intros [ds target]. rewrite rmap_bind. rewrite expand_load, bind_rmap. reflexivity.
      + rewrite rmap_bind, bind_rmap. apply bind_ext. intros ra. rewrite rmap_bind.
        change (check_array_shape od (load_nd h ra) dl0) with (check_array_shape od ra dl0). reflexivity.
    - rewrite bind_rmap. apply bind_ext. intros [[dl' ds] oa]. cbn [fst snd]. rewrite rmap_bind. apply bind_ext. intros p.
      rewrite rmap_bind. apply bind_ext. intros u. rewrite rmap_bind. unfold create_quantity. cbn [load_nd shape].
      destruct (Nat.eqb _ _); [|reflexivity]. cbn [bind rmap fst snd]. f_equal. f_equal. unfold load_das.
      exact (dset_map (fun q => load h (unrefs q)) name (mkda ds oa [("units", u)]) out).
  Qed.
End Facts.
