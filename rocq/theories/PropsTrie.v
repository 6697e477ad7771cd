(** Properties C07, C08, C09 and C51. *)
From Verif Require Import TrieModel TrieSpec TrieProofs DataModel DataSpec DataProofs.

(** C07: a search returns exactly the surviving rows that satisfy the callback, each once. *)
Theorem C07_search_exact (T : Type) (keys_of : T -> list any) (o : oracle) (log : list T) (cb : T -> bool) :
  trie_search o (trie_of keys_of log) cb ≡ₚ filter (fun d => cb d = true) (survivors keys_of log).
Proof. exact (trie_search_spec keys_of o log cb). Qed.
Print Assumptions C07_search_exact.

(** What survives, without recursion: a row is stored iff it was inserted and no later row has
    the same non-nil keys. *)
Theorem C07_survivors (T : Type) (keys_of : T -> list any) (log : list T) (d : T) :
  d ∈ survivors keys_of log <->
    exists l1 l2, log = l1 ++ d :: l2
      /\ Forall (fun d' => row_path keys_of d' <> row_path keys_of d) l2.
Proof. exact (elem_of_survivors keys_of log d). Qed.
Print Assumptions C07_survivors.

Theorem C07_survivors_once (T : Type) (keys_of : T -> list any) (log : list T) :
  NoDup (row_path keys_of <$> survivors keys_of log).
Proof. exact (survivors_nodup keys_of log). Qed.
Print Assumptions C07_survivors_once.

Theorem C07_data (T : Type) (keys_of : T -> list any) (o : oracle) (log : list T) :
  trie_data o (trie_of keys_of log) ≡ₚ survivors keys_of log.
Proof. exact (trie_data_spec keys_of o log). Qed.
Print Assumptions C07_data.

Example C07_ex :
  let r1 := Data (AStr "t") ANil ANil (AStr "p") (AStr "r") (ABool true) in
  let r2 := Data (AStr "t") (AStr "n") ANil ANil ANil ANil in
  let r3 := Data (AStr "t") ANil ANil (AStr "p") (AStr "r") (ABool false) in
  trie_search rev_oracle (trie_of data_keys [r1; r2; r3; r1])
    (fun d => negb (is_nil (principal d))) = [r3; r1].
Proof. vm_compute. reflexivity. Qed.

(** C08 is false: a row {T, Namespace x} is destroyed by a row {T, Scope x}. *)
Theorem C08_insert_keeps_rows_refuted :
  exists log d d', d' ∈ rows log /\ d' <> d /\ d' ∉ rows (log ++ [d])
    /\ forall o, trie_search o (trie_of data_keys (log ++ [d])) (fun x => bool_decide (x = d')) = [].
Proof. exact c08_refuted. Qed.
Print Assumptions C08_insert_keeps_rows_refuted.

(** Exactly which rows an insertion destroys. *)
Theorem C08_lost_rows_exact (log : list data) (d d' : data) :
  d' ∈ rows log ->
  (d' ∉ rows (log ++ [d]) <-> d' <> d /\ row_path data_keys d' = row_path data_keys d).
Proof. exact (rows_snoc_lost log d d'). Qed.
Print Assumptions C08_lost_rows_exact.

(** C08 holds when identifiers of different kinds never coincide: then every row ever inserted
    is still there. *)
Theorem C08_insert_keeps_rows_partial (log : list data) (d : data) :
  kinds_separate log -> (d ∈ rows log <-> d ∈ log).
Proof. exact (rows_kinds log d). Qed.
Print Assumptions C08_insert_keeps_rows_partial.
Example C08_ex :
  kinds_separate [Data (AStr "t") (AStr "n") ANil ANil ANil ANil;
                  Data (AStr "t") ANil (AStr "s") ANil ANil ANil;
                  Data (AStr "t") ANil (AStr "s") (AStr "p") ANil (ABool true)].
Proof. exact kinds_separate_ex. Qed.

(** C09: First finds a matching stored row iff there is one. *)
Theorem C09_first (T : Type) (keys_of : T -> list any) (o : oracle) (log : list T) (cb : T -> bool) :
  match trie_first o (trie_of keys_of log) cb with
  | Some d => d ∈ survivors keys_of log /\ cb d = true
  | None => forall d, d ∈ survivors keys_of log -> cb d = false
  end.
Proof. exact (trie_first_spec keys_of o log cb). Qed.
Print Assumptions C09_first.

(** ... and it agrees with Search, whatever the two iteration orders are. *)
Theorem C09_first_agrees_with_search (T : Type) (keys_of : T -> list any) (o1 o2 : oracle)
    (log : list T) (cb : T -> bool) :
  (trie_first o1 (trie_of keys_of log) cb = None <-> trie_search o2 (trie_of keys_of log) cb = [])
  /\ (forall d, trie_first o1 (trie_of keys_of log) cb = Some d ->
        d ∈ trie_search o2 (trie_of keys_of log) cb).
Proof. exact (trie_first_search keys_of o1 o2 log cb). Qed.
Print Assumptions C09_first_agrees_with_search.
Example C09_ex :
  let r1 := Data (AStr "t") ANil ANil (AStr "p") (AStr "r") (ABool true) in
  let r2 := Data (AStr "u") (AStr "n") ANil ANil ANil ANil in
  trie_first id_oracle (trie_of data_keys [r1; r2]) (fun _ => true) = Some r1
  /\ trie_first rev_oracle (trie_of data_keys [r1; r2]) (fun _ => true) = Some r2.
Proof. split; vm_compute; reflexivity. Qed.

(** C51: Search(filter) with the library's own FilterFunc is query by example. *)
Theorem C51_query_by_example (o : oracle) (log : list data) (f d : data) :
  d ∈ trie_search o (trie_of data_keys log) (filter_func f) <->
    d ∈ rows log
    /\ agrees (tenant f) (tenant d) /\ agrees (namespace f) (namespace d) /\ agrees (scope f) (scope d)
    /\ agrees (principal f) (principal d) /\ agrees (role f) (role d) /\ agrees (manage f) (manage d).
Proof. exact (query_by_example o log f d). Qed.
Print Assumptions C51_query_by_example.
Example C51_ex :
  let r1 := Data (AStr "t") ANil ANil (AStr "p") (AStr "r") (ABool true) in
  let r2 := Data (AStr "t") (AStr "n") ANil ANil ANil ANil in
  trie_search id_oracle (trie_of data_keys [r1; r2])
    (filter_func (Data (AStr "t") (AStr "n") ANil ANil ANil ANil)) = [r2].
Proof. vm_compute. reflexivity. Qed.
