(** Model of the rows of trie/trie.go as what they are: pointers.  The trie keeps the pointer it is
    given (trie/trie.go:79) and every search hands the pointers themselves out (trie/trie.go:119,
    query.go:18-20); the fields of a row are exported (filters.go:7-14).  So whoever has put a row
    in, or has got one out, can write to it later.  This lifts the simplification of TrieModel that
    rows are not mutated after Insert. *)
From Verif Require Export TrieModel DataModel RootModel AuthModel.

(** All rows in memory, by location, and the trie of one manager.  At each end node the trie keeps
    a location; the keys the row had when it was inserted stand beside it: they are the way from the
    root to that node and are never recomputed. *)
Record hstate : Type := HState {
  h_rows : list data;
  h_trie : node (list any * nat)
}.
Definition h_start : hstate := HState [] new_node.

(** What the caller does. *)
Inductive hop : Type :=
| HNew (d : data)                 (* p := &Data{...} *)
| HAdd (p : nat)                  (* manager.AddData(p) *)
| HSet (p : nat) (d : data).      (* *p = Data{...}, or assignments to single fields of *p *)

(** role_manager.go:108-110 AddData, trie/trie.go:60-80 Insert: the keys are extracted from the row
    as it is now (65), the pointer is stored (79); a nil pointer is ignored (61-63). *)
Definition h_add (h : hstate) (p : nat) : hstate :=
  match h_rows h !! p with
  | None => h
  | Some d => HState (h_rows h) (trie_insert fst (h_trie h) (data_keys d, p))
  end.
Definition hstep (h : hstate) (x : hop) : hstate :=
  match x with
  | HNew d => HState (h_rows h ++ [d]) (h_trie h)
  | HAdd p => h_add h p
  | HSet p d => HState (<[p := d]> (h_rows h)) (h_trie h)
  end.
Definition hrun (ops : list hop) : hstate := foldl hstep h_start ops.

(** query.go:18-20 search, trie/trie.go:98-133: the callback looks at the rows as they are now;
    the result is a list of the stored pointers. *)
Definition h_search (o : oracle) (h : hstate) (cb : data -> bool) : list nat :=
  (trie_search o (h_trie h) (fun x => match h_rows h !! x.2 with Some d => cb d | None => false end)).*2.

(** The same write seen from a manager of RootModel: the row that was inserted under the keys [ks]
    is overwritten in place. *)
Fixpoint write_at (ks : list any) (d : data) (n : node data) : node data :=
  match ks with
  | [] => match n with Node e x c => Node e (match x with Some _ => Some d | None => None end) c end
  | k :: ks' =>
      if is_nil k then write_at ks' d n
      else match n with
           | Node e x c => match assoc_get k c with
                           | Some m => Node e x (assoc_set k (write_at ks' d m) c)
                           | None => n
                           end
           end
  end.
Definition write_row (st : state) (old new : data) : state :=
  with_trie st (write_at (data_keys old) new (m_trie st)).
