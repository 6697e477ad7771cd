(** Model of trie/trie.go. *)
From Verif Require Export Base.

Section trie.
  Context {T : Type}.
  (** trie/trie.go:11,46: the key extractor the trie was built with (New panics on nil). *)
  Variable keys_of : T -> list any.

  (** trie/trie.go:13-17 Node.  [child] is the xsync map as an association list; [data] is the
      stored pointer (rows are not mutated after Insert: simplification, lifted in HandModel). *)
  Inductive node : Type :=
  | Node (is_end : bool) (data : option T) (child : list (any * node)).

  (** trie/trie.go:19-21 NewNode *)
  Definition new_node : node := Node false None [].

  Definition node_child (n : node) : list (any * node) := match n with Node _ _ c => c end.

  (** xsync Map.Get *)
  Fixpoint assoc_get (k : any) (c : list (any * node)) : option node :=
    match c with
    | [] => None
    | (k', n) :: c' => if decide (k' = k) then Some n else assoc_get k c'
    end.
  (** xsync Map.Set *)
  Fixpoint assoc_set (k : any) (n : node) (c : list (any * node)) : list (any * node) :=
    match c with
    | [] => [(k, n)]
    | (k', n') :: c' => if decide (k' = k) then (k, n) :: c' else (k', n') :: assoc_set k n c'
    end.

  (** trie/trie.go:60-80 Insert: walk down the non-nil keys, creating nodes with addChild
      (23-33), and mark the last node.  The walk mutates nodes in place; here it rebuilds the path. *)
  Fixpoint insert_at (d : T) (ks : list any) (n : node) : node :=
    match ks with
    | [] => match n with Node _ _ c => Node true (Some d) c end        (* 78-79 *)
    | k :: ks' =>
        if is_nil k then insert_at d ks' n                             (* 71-73 *)
        else match n with
             | Node e x c =>
                 let child := match assoc_get k c with                 (* 27-29 *)
                              | Some m => m
                              | None => new_node                       (* 30-31 *)
                              end in
                 Node e x (assoc_set k (insert_at d ks' child) c)
             end
    end.
  Definition trie_insert (t : node) (d : T) : node := insert_at d (keys_of d) t.

  (** trie/trie.go:124-128, the loop over the children: [stop] makes it end with the first
      child that produced a result. *)
  Fixpoint collect (stop : bool) (ls : list (list T)) : list T :=
    match ls with
    | [] => []
    | l :: ls' => match l with
                  | _ :: _ => if stop then l else l ++ collect stop ls'
                  | [] => collect stop ls'
                  end
    end.

  (** trie/trie.go:111-130 dfs.  [cb] is the callback already applied to the filter.  The
      children are visited in the order chosen by the oracle.  Simplification: the results of a
      child are computed before the children are put in order, which is invisible because the
      callbacks are pure; the slice-capacity bookkeeping of lines 113-118 is omitted. *)
  Fixpoint dfs (o : oracle) (stop : bool) (cb : T -> bool) (n : node) : list T :=
    match n with
    | Node e x c =>
        let own := match x with
                   | Some d => if e && cb d then [d] else []
                   | None => []
                   end in
        let fix go (i : nat) (c : list (any * node)) : list (list T) :=
          match c with
          | [] => []
          | (_, m) :: c' => dfs (sub o (S i)) stop cb m :: go (S i) c'
          end in
        match own with
        | _ :: _ => if stop then own else own ++ collect stop (ordered (sub o 0) (go 0 c))
        | [] => collect stop (ordered (sub o 0) (go 0 c))
        end
    end.

  (** trie/trie.go:98-104, 106-133 Search/SearchFunc *)
  Definition trie_search (o : oracle) (t : node) (cb : T -> bool) : list T := dfs o false cb t.
  (** trie/trie.go:82-96 First/FirstFunc *)
  Definition trie_first (o : oracle) (t : node) (cb : T -> bool) : option T :=
    match dfs o true cb t with
    | d :: _ => Some d
    | [] => None
    end.
  (** trie/trie.go:135-138 Data *)
  Definition trie_data (o : oracle) (t : node) : list T := trie_search o t (fun _ => true).

  (** A trie after New (trie/trie.go:49-58) and a sequence of Insert calls. *)
  Definition trie_of (log : list T) : node := foldl trie_insert new_node log.
End trie.
Arguments node : clear implicits.
Arguments new_node {T}.
