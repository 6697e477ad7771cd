(** Properties of rows that the caller keeps pointers to. *)
From Verif Require Import HandEx HandSpec.

(** ** C124: what was put into or read out of a manager is not connected with it any more *)
(** Refuted: the row a search has returned is the stored row.  Writing to it moves an assignment
    from one principal to another. *)
Theorem C124_copies_refuted : exists ops p d (cb cb' : data -> bool), forall o,
  h_search o (hrun ops) cb = [p] /\ h_search o (hrun ops) cb' = []
  /\ h_search o (hrun (ops ++ [HSet p d])) cb = [] /\ h_search o (hrun (ops ++ [HSet p d])) cb' = [p].
Proof. exact c124_copies_refuted. Qed.
Print Assumptions C124_copies_refuted.
(** Refuted: rows with different keys added from one variable are not all kept. *)
Theorem C124_reuse_refuted : exists ops log d p, entered ops log /\ NoDup (path <$> log) /\ d ∈ log /\ forall o,
  h_search o (hrun ops) (fun r => bool_decide (r = d)) = [] /\ h_search o (hrun ops) (fun _ => true) ≡ₚ [p; p].
Proof. exact c124_reuse_refuted. Qed.
Print Assumptions C124_reuse_refuted.
(** Refuted: adding a row takes away a row that reads differently. *)
Theorem C124_lost_refuted : exists ops p p' d d', holds ops p d /\ holds ops p' d' /\ path d <> path d'
  /\ forall o, h_search o (hrun ops) (fun _ => true) = [p] /\ p ∉ h_search o (hrun (ops ++ [HAdd p'])) (fun _ => true).
Proof. exact c124_lost_refuted. Qed.
Print Assumptions C124_lost_refuted.
(** Refuted for decisions: somebody without any assignment is let in, and somebody else shut out,
    by a write to a row that was handed out. *)
Theorem C124_decisions_refuted : exists st old new p p' q, reachable st /\ (forall o, old ∈ trie_data o (m_trie st))
  /\ (forall o d, d ∈ trie_data o (m_trie st) -> principal d <> AStr p')
  /\ answer (authorize id_oracle st p q) = Some true /\ answer (authorize id_oracle st p' q) = Some false
  /\ answer (authorize id_oracle (write_row st old new) p q) = Some false
  /\ answer (authorize id_oracle (write_row st old new) p' q) = Some true.
Proof. exact c124_decisions_refuted. Qed.
Print Assumptions C124_decisions_refuted.

(** What a search returns, after any history: a row once for every place it stands at, if it now
    reads as asked for. *)
Theorem C124_search (o : oracle) (ops : list hop) (cb : data -> bool) : exists L : list (list any * nat), NoDup L
  /\ (forall ks p, (ks, p) ∈ L <-> filed ops ks p /\ exists d, holds ops p d /\ cb d = true)
  /\ h_search o (hrun ops) cb ≡ₚ L.*2.
Proof. exact (c124_search o ops cb). Qed.
Print Assumptions C124_search.
(** What a single write changes: that row only, in all later searches. *)
Theorem C124_write (o o' o'' : oracle) (ops : list hop) (p : nat) (d : data) (cb : data -> bool) (p' : nat) :
  p' ∈ h_search o (hrun (ops ++ [HSet p d])) cb <->
  (p' = p /\ p ∈ h_search o' (hrun ops) (fun _ => true) /\ cb d = true) \/ (p' <> p /\ p' ∈ h_search o'' (hrun ops) cb).
Proof. exact (c124_write o o' o'' ops p d cb p'). Qed.
Print Assumptions C124_write.
(** The same for the rows of a manager: the one row is replaced where it stands. *)
Theorem C124_written (o : oracle) (log : list data) (old new : data) (cb : data -> bool) :
  trie_search o (write_at (data_keys old) new (trie_of data_keys log)) cb
  ≡ₚ filter (fun r => cb r = true) ((fun r => if decide (path r = path old) then new else r) <$> survivors data_keys log).
Proof. exact (c124_written o log old new cb). Qed.
Print Assumptions C124_written.
Example C124_example : forall o, h_search o (hrun w124_reuse) (of_principal "bob") ≡ₚ [0; 0]
  /\ h_search o (hrun w124_left) (of_principal "bob") = [2] /\ h_search o (hrun w124_left) (fun _ => true) ≡ₚ [1; 2]
  /\ h_search o (hrun (w124_left ++ [HSet 2 (clerk "ann")])) (of_principal "ann") ≡ₚ [1; 2].
Proof. exact c124_ex. Qed.

(** What remains of C124: as long as nobody writes to a row after it was added, the rows found are
    those of a trie of values (C07, C08, C51). *)
Theorem C124_untouched_partial (o o' : oracle) (ops : list hop) (log : list data) (cb : data -> bool) :
  left_alone ops -> entered ops log ->
  exists ds, Forall2 (holds ops) (h_search o (hrun ops) cb) ds /\ ds ≡ₚ trie_search o' (trie_of data_keys log) cb.
Proof. exact (c124_untouched o o' ops log cb). Qed.
Print Assumptions C124_untouched_partial.
Example C124_untouched_example : left_alone w124_left /\ entered w124_left [clerk "bob"; clerk "ann"; clerk "bob"].
Proof. exact c124_untouched_ex. Qed.
