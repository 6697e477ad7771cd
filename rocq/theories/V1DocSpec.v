(** The set-up shown in TestAuthorize (v1/permission_test.go:33-60) and in README.md, told from the calls made. *)
From Verif Require Export V1CallsSpec.

(** [tenant.AddPrincipal(p, ..., r, ...)] was called on the tenant registered as [id], which had the role [r] by then, and [p] is registered. *)
Definition given_role (h : log) (t : nat) (id p r : string) : Prop :=
  tenant_at h id t /\ called h (UAddPrincipal p)
  /\ ever (fun h e => tenant_named h t id /\ exists rs, e.1 = UTAddPrincipal t p rs /\ r ∈ rs /\ role_in h t r) h.
(** [AddPermissionsToRole(r, grp, ..., a, ...)] returned no error, [l] being the role registered as [r]. *)
Definition given_permission (h : log) (l : nat) (r grp : string) (a : attr) : Prop :=
  ever (fun h e => role_at h r l /\ exists attrs, e = (UAddPermissionsToRole r grp attrs, YErr None) /\ a ∈ attrs) h.
(** The activity is the attribute itself or fits it. *)
Definition covers (a : attr) (act : string) : Prop := attr_string a = act \/ StrMatches (attr_string a) act.
(** [tenant.AddPrincipalInNamespace(p, n)] was called; the tenant had the namespace by then. *)
Definition given_namespace (h : log) (t : nat) (id p n : string) : Prop :=
  ever (fun h e => tenant_named h t id /\ e.1 = UTAddPrincipalInNamespace t p n [] /\ exists l, ns_in h t n l) h.
(** [tenant.AssignScopesToPrincipal(p, ..., s, ...)] was called; by then the tenant had the scope and [p] the role [r] there. *)
Definition given_scope (h : log) (t : nat) (id p r s : string) : Prop :=
  ever (fun h e => given_role h t id p r /\ tenant_named h t id /\ exists ss, e.1 = UTAssignScopes t p ss /\ s ∈ ss /\ scope_in h t s) h.
(** [tenant.AddScopesToNamespace(n, ss...)] was called with scopes that the tenant had by then. *)
Definition scope_placed (h : log) (t : nat) (id n s : string) : Prop :=
  ever (fun h e => tenant_named h t id /\ exists ss, e.1 = UTAddScopesToNamespace t n ss /\ s ∈ ss /\ Forall (scope_in h t) ss /\ exists l, ns_in h t n l) h.
(** The role [r] was put above the role [d] by [AddDescendent], which returned no error. *)
Definition put_above (h : log) (l d : nat) : Prop := exists ds, (URoleAddDescendent l ds, YErr None) ∈ h /\ d ∈ ds.
