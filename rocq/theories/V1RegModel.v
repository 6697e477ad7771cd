(** The registries of the v1 manager: lookups, listings and totals; and the remaining queries. *)
From Verif Require Export V1Model.

(** v1/role_manager.go:143-145, 170-172, 93-95, 196-198, 71-73 *)
Definition uget_role (st : ustate) (id : string) : option nat := u_roles st !! id.
Definition uget_tenant (st : ustate) (id : string) : option nat := u_reg st !! id.
Definition uget_group (st : ustate) (id : string) : option nat := u_groups st !! id.
Definition uget_namespace (st : ustate) (id : string) : option nat := u_regns st !! id.
Definition uget_attribute (st : ustate) (key : string) : option attr := u_attrs st !! key.
(** v1/role_manager.go:248-250, 222-224: the second result.  These objects are determined by
    their id. *)
Definition uget_scope (st : ustate) (id : string) : bool := bool_decide (id ∈ u_regscopes st).
Definition uget_principal (st : ustate) (id : string) : bool := bool_decide (id ∈ u_principals st).

(** v1/role_manager.go:147-153 Roles, 174-180 Tenants, 200-206 Namespaces, 121-127 Attributes *)
Definition urole_list (o : oracle) (st : ustate) : list string := ordered o (elements (dom (u_roles st))).
Definition utenant_list (o : oracle) (st : ustate) : list string := ordered o (elements (dom (u_reg st))).
Definition unamespace_list (o : oracle) (st : ustate) : list string := ordered o (elements (dom (u_regns st))).
Definition uattribute_list (o : oracle) (st : ustate) : list string := ordered o (elements (dom (u_attrs st))).
(** v1/role_manager.go:252-258 Scopes, 226-232 Principals *)
Definition uscope_list (o : oracle) (st : ustate) : list string := ordered o (elements (u_regscopes st)).
Definition uprincipal_list (o : oracle) (st : ustate) : list string := ordered o (elements (u_principals st)).

(** v1/role_manager.go:745-765 Summary; the fields are 75-77 and 97-119 Total* *)
Record usummary : Type := USummary {
  un_tenants : nat; un_principals : nat; un_namespaces : nat; un_scopes_total : nat;
  un_roles_total : nat; un_groups : nat; un_attributes : nat
}.
Definition usummary_of (st : ustate) : usummary :=
  USummary (size (u_reg st)) (size (u_principals st)) (size (u_regns st)) (size (u_regscopes st))
    (size (u_roles st)) (size (u_groups st)) (size (u_attrs st)).

(** v1/role_manager.go:400-406 GetRolePermissions; [None] is the error *)
Definition get_role_permissions (o : oracle) (st : ustate) (id : string) : res (option (gmap string (list attr))) :=
  match u_roles st !! id with
  | None => Ok None
  | Some l => let! m := get_permissions o (u_heap st) l in Ok (Some m)
  end.

(** v1/tenant.go:21-29 GetDescendantTenants *)
Definition utenant_children (st : ustate) (t : nat) : option (gmap string nat) := ut_desc <$> u_tenants st !! t.
Definition get_descendant_tenants (o : oracle) (st : ustate) (t : nat) : res (list nat) :=
  let! ds := descend (utenant_children st) (S (length (u_tenants st))) o t in Ok (ds.*2).
