(** The registries of the root manager: lookups, listings and totals. *)
From Verif Require Export AuthModel.

(** permission.go:72-74, tenant.go:158-160, activity_group.go:27-29, activity.go:23-25 *)
Definition get_role (st : state) (id : string) : option nat := m_roles st !! id.
Definition get_tenant (st : state) (id : string) : option nat := m_tenants st !! id.
Definition get_attribute_group (st : state) (id : string) : option nat := m_groups st !! id.
Definition get_attribute (st : state) (key : string) : option attr := m_attributes st !! key.
(** namespace.go:31-33, scope.go:31-33, principal.go:26-28: the second result.  These objects
    are determined by their id. *)
Definition get_namespace (st : state) (id : string) : bool := bool_decide (id ∈ m_namespaces st).
Definition get_scope (st : state) (id : string) : bool := bool_decide (id ∈ m_scopes st).
Definition get_principal (st : state) (id : string) : bool := bool_decide (id ∈ m_principals st).

(** permission.go:76-82 Roles, tenant.go:162-168 Tenants, activity.go:31-37 Attributes *)
Definition role_list (o : oracle) (st : state) : list string := ordered o (elements (dom (m_roles st))).
Definition tenant_list (o : oracle) (st : state) : list string := ordered o (elements (dom (m_tenants st))).
Definition attribute_list (o : oracle) (st : state) : list string := ordered o (elements (dom (m_attributes st))).
(** namespace.go:35-41 Namespaces, scope.go:35-41 Scopes, principal.go:30-36 Principals *)
Definition namespace_list (o : oracle) (st : state) : list string := ordered o (elements (m_namespaces st)).
Definition scope_list (o : oracle) (st : state) : list string := ordered o (elements (m_scopes st)).
Definition principal_list (o : oracle) (st : state) : list string := ordered o (elements (m_principals st)).

(** role_manager.go:153-173 Summary; the fields are role_manager.go:112-122 and 137-143,
    activity.go:27-29 and activity_group.go:31-33 Total* *)
Record summary : Type := Summary {
  n_tenants : nat; n_principals : nat; n_namespaces : nat; n_scopes : nat;
  n_roles : nat; n_groups : nat; n_attributes : nat
}.
Definition summary_of (st : state) : summary :=
  Summary (size (m_tenants st)) (size (m_principals st)) (size (m_namespaces st)) (size (m_scopes st))
    (size (m_roles st)) (size (m_groups st)) (size (m_attributes st)).
