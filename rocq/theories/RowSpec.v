(** What a user expects of rows handed to AddData. *)
From Verif Require Export AuthSpec TrieSpec RowModel.

(** The pointers added by a history, each with the row it pointed to at that moment *)
Fixpoint adds (cells : list data) (ops : list row_op) : list (nat * data) :=
  match ops with
  | [] => []
  | RowAlloc d :: ops' => adds (cells ++ [d]) ops'
  | RowWrite l d :: ops' => adds (<[l := d]> cells) ops'
  | RowAdd l :: ops' => match cells !! l with Some d => [(l, d)] | None => [] end ++ adds cells ops'
  end.
Definition added (ops : list row_op) : list (nat * data) := adds [] ops.
(** Those not displaced by a later row of the same path *)
Definition remaining (ops : list row_op) : list (nat * data) := survivors (fun ld => data_keys ld.2) (added ops).
(** Listings show the rows as they were added. *)
Definition shown_as_added (ops : list row_op) (s : row_store) : Prop :=
  forall o cb, contents s (row_search o s cb) ≡ₚ filter (fun d => cb d = true) (remaining ops).*2.
(** No struct is changed after it was handed to AddData. *)
Definition left_alone (ops : list row_op) : Prop :=
  forall ops1 l d ops2, ops = ops1 ++ RowWrite l d :: ops2 -> RowAdd l ∉ ops1.
(** One struct used for several rows: fill it in, add it, fill it in again, ... *)
Fixpoint through_one (l : nat) (ds : list data) : list row_op :=
  match ds with
  | [] => []
  | d :: ds' => RowWrite l d :: RowAdd l :: through_one l ds'
  end.
