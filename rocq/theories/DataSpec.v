(** Specification vocabulary for rows. *)
From Verif Require Export DataModel TrieSpec.

(** The rows a relation holds after a log of insertions. *)
Definition rows (log : list data) : list data := survivors data_keys log.

(** Identifiers of different kinds never coincide: some classification of values separates the
    six columns of all rows of the log. *)
Definition kinds_separate (log : list data) : Prop :=
  exists kind : any -> nat, forall d, d ∈ log ->
    (tenant d <> ANil -> kind (tenant d) = 0) /\
    (namespace d <> ANil -> kind (namespace d) = 1) /\
    (scope d <> ANil -> kind (scope d) = 2) /\
    (principal d <> ANil -> kind (principal d) = 3) /\
    (role d <> ANil -> kind (role d) = 4) /\
    (manage d <> ANil -> kind (manage d) = 5).

(** A filter field agrees with a row field: a nil filter field accepts anything. *)
Definition agrees (f x : any) : Prop := f = ANil \/ x = f.
