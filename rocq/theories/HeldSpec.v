(** What a user expects who changes an answer of GetImplicitTenants or TenantChildren. *)
From Verif Require Export AuthSpec RootSpec HeldModel.

(** Both managers answer every request about [p] in the same way. *)
Definition same_verdicts (st st' : state) (p : string) : Prop :=
  forall o q b, (exists st1, authorize o st p q = Ok (st1, b)) <-> (exists st1, authorize o st' p q = Ok (st1, b)).
(** A caller may do what they like with an answer: no verdict depends on it. *)
Definition answers_are_copies (st : state) : Prop :=
  forall p s st' p', edit_tenants st p s = Some st' -> same_verdicts st st' p'.
Definition children_are_copies (st : state) : Prop :=
  forall t ds st' p', edit_children st t ds = Some st' -> same_verdicts st st' p'.
(** The names in a list *)
Definition strings (ds : list any) : gset string := list_to_set (omap (fun d => match d with AStr t => Some t | _ => None end) ds).
(** All of the principal's rows are in [t], with ManageDescendants. *)
Definition manages_only (st : state) (p t : string) : Prop :=
  own st p t /\ forall d, stored st d -> principal d = AStr p -> tenant d <> ANil -> tenant d = AStr t /\ manage d = ABool true.
