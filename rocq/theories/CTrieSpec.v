(** What a user expects of concurrent insertions. *)
From Verif Require Export TrieSpec CTrieModel.

Section spec.
  Context {T : Type}.
  Variable keys_of : T -> list any.

  (** [h] links node [n] to node [m] under key [k]. *)
  Definition linked (h : list (cnode T)) (n : nat) (k : any) (m : nat) : Prop :=
    exists c, h !! n = Some c /\ kid k (cn_child c) = Some m.
  (** The keys [ks] lead from node [n] to node [m]. *)
  Inductive leads (h : list (cnode T)) : nat -> list any -> nat -> Prop :=
  | leads_nil n : leads h n [] n
  | leads_cons n k m ks m' : linked h n k m -> leads h m ks m' -> leads h n (k :: ks) m'.
  (** Row [d] is stored under the keys [ks]: this is where Search finds it. *)
  Definition row_at (h : list (cnode T)) (ks : list any) (d : T) : Prop :=
    exists m c, leads h 0 ks m /\ h !! m = Some c /\ cn_end c = true /\ cn_data c = Some d.
  (** Search meets a node that is marked but carries no row; its callback is then called with nil. *)
  Definition half_written (h : list (cnode T)) : Prop :=
    exists ks m c, leads h 0 ks m /\ h !! m = Some c /\ cn_end c = true /\ cn_data c = None.

  (** All rows of [ds] are inserted, each by a goroutine of its own, starting from [h] and ending, when all have
      returned, with [h']. *)
  Definition inserted (h : list (cnode T)) (ds : list T) (h' : list (cnode T)) : Prop :=
    exists sched, crun (h, cinsert keys_of <$> ds) sched = Some (h', CDone <$> ds).
  (** Tries that can arise: any number of such batches, one after the other. *)
  Inductive ctrie_reachable : list (cnode T) -> Prop :=
  | ctrie_init : ctrie_reachable ctrie_new
  | ctrie_batch h ds h' : ctrie_reachable h -> inserted h ds h' -> ctrie_reachable h'.

  (** The rows of [log] are inserted by one goroutine at a time. *)
  Inductive one_by_one : list T -> list (cnode T) -> Prop :=
  | obo_nil : one_by_one [] ctrie_new
  | obo_snoc log h d h' : one_by_one log h -> inserted h [d] h' -> one_by_one (log ++ [d]) h'.

  (** Any two rows of the batch part ways at a node that is already there: what their paths have in common is in
      the trie. *)
  Definition part_ways (h : list (cnode T)) (ds : list T) : Prop :=
    forall i j di dj p, i <> j -> ds !! i = Some di -> ds !! j = Some dj ->
      p `prefix_of` row_path keys_of di -> p `prefix_of` row_path keys_of dj -> exists m, leads h 0 p m.
End spec.
