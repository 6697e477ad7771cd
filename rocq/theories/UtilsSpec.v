(** Specification vocabulary for ds.Link. *)
From Verif Require Export UtilsModel.

(** The sequence a client expects from a construction. *)
Fixpoint link_denote {A} (e : link_expr A) : list A :=
  match e with
  | EEmpty => []
  | EAppend e x => link_denote e ++ [x]
  | EConcat e1 e2 => link_denote e1 ++ link_denote e2
  end.
