(** Specification of the trie: an indexed log of rows. *)
From Verif Require Export Base.

Section spec.
  Context {T : Type}.
  Variable keys_of : T -> list any.

  (** Where a row is stored: its non-nil keys, in order. *)
  Definition row_path (d : T) : list any := filter (fun k => k <> ANil) (keys_of d).

  (** The rows that survive a sequence of insertions: a row is lost exactly when a later one has
      the same path. *)
  Fixpoint survivors (log : list T) : list T :=
    match log with
    | [] => []
    | d :: log' =>
        if decide (Exists (fun d' => row_path d' = row_path d) log') then survivors log'
        else d :: survivors log'
    end.
End spec.
