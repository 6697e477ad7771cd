(** Model of stored rows as pointers.  RootModel stores rows as values; in Go the trie keeps the pointer given to AddData, and
    the listings return it, so that the caller can go on changing a stored row. *)
From Verif Require Export RootModel.

(** All [Data] structs of the program, and the trie with pointers to them *)
Record row_store : Type := Rows { rw_cells : list data; rw_trie : node nat }.
(** role_manager.go:25-38 New (35: an empty trie) *)
Definition no_rows : row_store := Rows [] new_node.
Inductive row_op : Type :=
| RowAlloc (d : data)            (* p := &Data{...} *)
| RowAdd (l : nat)               (* AddData(p) *)
| RowWrite (l : nat) (d : data). (* *p = Data{...}, for a struct of one's own or one that a listing returned *)
(** role_manager.go:108-110 AddData, trie/trie.go:60-80 Insert: the keys are taken from the struct as it is now (65), the
    node keeps the pointer (79).  [None]: there is no such struct. *)
Definition row_step (s : row_store) (x : row_op) : option row_store :=
  match x with
  | RowAlloc d => Some (Rows (rw_cells s ++ [d]) (rw_trie s))
  | RowAdd l => d ← rw_cells s !! l; Some (Rows (rw_cells s) (insert_at l (data_keys d) (rw_trie s)))
  | RowWrite l d => _ ← rw_cells s !! l; Some (Rows (<[l := d]> (rw_cells s)) (rw_trie s))
  end.
Fixpoint row_run (s : row_store) (ops : list row_op) : option row_store :=
  match ops with
  | [] => Some s
  | x :: ops' => s' ← row_step s x; row_run s' ops'
  end.
(** trie/trie.go:106-133 search: the callback looks at the structs as they are now (112), the pointers are returned (119). *)
Definition row_search (o : oracle) (s : row_store) (cb : data -> bool) : list nat :=
  trie_search o (rw_trie s) (fun l => match rw_cells s !! l with Some d => cb d | None => false end).
(** What the caller sees behind the pointers *)
Definition contents (s : row_store) (ls : list nat) : list data := omap (fun l => rw_cells s !! l) ls.
(** The trie as the functions of RootModel look at it: each node with the struct its pointer points to *)
Fixpoint seen_trie (cells : list data) (n : node nat) : node data :=
  match n with
  | Node e x c => Node e (x ≫= fun l => cells !! l) ((fun km => (km.1, seen_trie cells km.2)) <$> c)
  end.
(** The manager [st] with these rows *)
Definition seen_state (st : state) (s : row_store) : state := with_trie st (seen_trie (rw_cells s) (rw_trie s)).
