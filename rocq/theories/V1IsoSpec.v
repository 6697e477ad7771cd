(** Vocabulary for isolation between tenants in package v1. *)
From Verif Require Export V1Spec.

(** A method called on the tenant object [t]. *)
Definition tenant_op (x : uop) (t : nat) : Prop :=
  match x with
  | UTAddDescendent t' _ | UTSetDefault t' _ | UTAddNamespace t' _ | UTAddRole t' _ | UTAddScopes t' _
  | UTAddScopesToNamespace t' _ _ | UTAddRolesToNamespace t' _ _ | UTAddPrincipal t' _ _
  | UTAddPrincipalInNamespace t' _ _ _ | UTAssignScopes t' _ _ | UTAssignScopesWithRole t' _ _ _
  | UAddPrincipalRole _ _ t' _ _ _ => t' = t
  | _ => False
  end.
(** The principal and the roles it names contain no underscore. *)
Definition clean_names (x : uop) : Prop :=
  match x with
  | UTAddPrincipal _ p rs | UTAddPrincipalInNamespace _ p _ rs => clean p /\ forall r, r ∈ rs -> clean r
  | UTAssignScopes _ p _ => clean p
  | UTAssignScopesWithRole _ p r _ | UAddPrincipalRole p r _ _ _ _ => clean p /\ clean r
  | _ => True
  end.
(** The namespace objects of tenant [c], including its default one. *)
Definition uses_ns (c : utenant) (l : nat) : Prop :=
  (exists n, ut_namespaces c !! n = Some l) \/ ut_default c = Some l.
