(** Properties C06 and C10. *)
From Verif Require Import UtilsModel UtilsSpec UtilsProofs DataModel DataProofs.

(** C06: Compact keeps every distinct element once, at its first occurrence. *)
Theorem C06_compact (A : Type) (EQ : EqDecision A) (l : list A) :
  NoDup (compact l) /\ (forall x, x ∈ compact l <-> x ∈ l)
  /\ (forall l1 x l2, l = l1 ++ x :: l2 -> x ∉ l1 ->
        exists r1 r2, compact l = r1 ++ x :: r2 /\ (forall y, y ∈ r1 <-> y ∈ l1)).
Proof. exact (compact_spec l). Qed.
Print Assumptions C06_compact.
Example C06_compact_ex : compact [AStr "a"; ANil; AStr "a"; AInt 3; ANil] = [AStr "a"; ANil; AInt 3].
Proof. reflexivity. Qed.

Theorem C06_contains (A : Type) (EQ : EqDecision A) (l : list A) (x : A) :
  contains l x = true <-> x ∈ l.
Proof. exact (contains_spec l x). Qed.
Print Assumptions C06_contains.
Example C06_contains_ex :
  contains [AStr "a"; AInt 3] (AInt 3) = true /\ contains [AStr "3"] (AInt 3) = false.
Proof. split; reflexivity. Qed.

Theorem C06_join (T U V : Type) (left : list T) (right : list U)
    (jf : T -> U -> bool) (cf : T -> U -> V) :
  join_slices left right jf cf =
    (fun p => cf p.1 p.2) <$> filter (fun p => jf p.1 p.2 = true)
        (l ← left; r ← right; [(l, r)]).
Proof. exact (join_slices_spec left right jf cf). Qed.
Print Assumptions C06_join.
Example C06_join_ex : join_slices [1; 2; 3] [2; 3] Nat.ltb pair = [(1, 2); (1, 3); (2, 3)].
Proof. reflexivity. Qed.

Theorem C06_filter_by_fields (T : Type) (f row : T) (fields : list (T -> any)) :
  filter_by_fields f row fields = true <->
    (forall g, g ∈ fields -> g row <> ANil /\ g row = g f).
Proof. exact (filter_by_fields_spec f row fields). Qed.
Print Assumptions C06_filter_by_fields.
Example C06_filter_by_fields_ex :
  filter_by_fields (AStr "x", AInt 1) (AStr "x", AInt 2) [fst] = true
  /\ filter_by_fields (AStr "x", AInt 1) (AStr "x", AInt 2) [fst; snd] = false.
Proof. split; reflexivity. Qed.

(** The five projections return the distinct projected values in first-occurrence order. *)
Theorem C06_projections (rs : list data) :
  get_tenant_ids rs = compact (tenant <$> rs)
  /\ get_principal_ids rs = compact (principal <$> rs)
  /\ get_role_ids rs = compact (role <$> rs)
  /\ get_namespace_ids rs = compact (namespace <$> rs)
  /\ get_scope_ids rs = compact (scope <$> rs).
Proof. exact (projections_compact rs). Qed.
Print Assumptions C06_projections.
Example C06_projections_ex :
  get_role_ids [Data ANil ANil ANil ANil (AStr "r") ANil; Data ANil ANil ANil ANil ANil ANil;
                Data (AStr "t") ANil ANil ANil (AStr "r") ANil] = [AStr "r"; ANil].
Proof. reflexivity. Qed.

(** C10: a link built in any way denotes the expected sequence; IsEmpty tells whether it is
    empty.  Links are values in the model, so no operation can change an existing one; the
    second theorem gives the laws for single operations on any two built links. *)
Theorem C10_link_sequence (A : Type) (e : link_expr A) :
  link_as_slice (link_eval e) = link_denote e
  /\ (link_is_empty (link_eval e) = true <-> link_denote e = []).
Proof. exact (link_eval_spec e). Qed.
Print Assumptions C10_link_sequence.
Theorem C10_link_laws (A : Type) (e1 e2 : link_expr A) (x : A) :
  let l1 := link_eval e1 in let l2 := link_eval e2 in
  link_as_slice (link_append l1 x) = link_as_slice l1 ++ [x]
  /\ link_as_slice (link_concat l1 l2) = link_as_slice l1 ++ link_as_slice l2
  /\ (link_is_empty l1 = true <-> link_as_slice l1 = [])
  /\ (link_is_empty (link_concat l1 l2) = true <-> link_is_empty l1 = true /\ link_is_empty l2 = true).
Proof. exact (link_laws e1 e2 x). Qed.
Print Assumptions C10_link_laws.
Example C10_ex :
  link_as_slice (link_eval (EConcat (EAppend (EAppend EEmpty 1) 2) (EConcat EEmpty (EAppend EEmpty 3))))
    = [1; 2; 3].
Proof. reflexivity. Qed.
