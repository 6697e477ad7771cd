(** Specification of rows that the caller keeps pointers to: by the history of what was done. *)
From Verif Require Export HandModel TrieSpec.

Definition is_new (x : hop) : Prop := match x with HNew _ => True | _ => False end.
Global Instance is_new_dec x : Decision (is_new x).
Proof. destruct x; apply _. Defined.
(** How many rows were made *)
Definition news (ops : list hop) : nat := length (filter is_new ops).
(** The row [p] reads [d] now: it was made so or last written so. *)
Definition holds (ops : list hop) (p : nat) (d : data) : Prop :=
  exists l1 x l2, ops = l1 ++ x :: l2
    /\ (x = HNew d /\ news l1 = p \/ x = HSet p d /\ p < news l1)
    /\ forall d', HSet p d' ∉ l2.
(** The keys a row is stored under *)
Definition path (d : data) : list any := row_path data_keys d.
(** The row [p] stands under the keys [ks]: it read so when it was added, and no row reading so was
    added later. *)
Definition filed (ops : list hop) (ks : list any) (p : nat) : Prop :=
  exists l1 l2 d, ops = l1 ++ HAdd p :: l2 /\ holds l1 p d /\ path d = ks
    /\ forall m1 m2 p' d', l2 = m1 ++ HAdd p' :: m2 -> holds (l1 ++ HAdd p :: m1) p' d' -> path d' <> ks.

(** Nobody writes to a row after it was added. *)
Definition left_alone (ops : list hop) : Prop :=
  forall l1 l2 p d, ops = l1 ++ HAdd p :: l2 -> HSet p d ∉ l2.
(** The rows added, as they read when they were added *)
Inductive entered : list hop -> list data -> Prop :=
| entered_none : entered [] []
| entered_add ops log p d : entered ops log -> holds ops p d -> entered (ops ++ [HAdd p]) (log ++ [d])
| entered_nil ops log p : entered ops log -> (forall d, ~ holds ops p d) -> entered (ops ++ [HAdd p]) log
| entered_other ops log x : entered ops log -> (forall p, x <> HAdd p) -> entered (ops ++ [x]) log.
