(** When a call to the root package returns, told from the calls a program has made (not from any state). *)
From Verif Require Export RootCallsSpec.

(** The tenants, roles and groups passed to a call were returned by the constructors. *)
Definition pointers_made (h : log) (x : op) : Prop :=
  let a_tenant t := exists id, tenant_named h t id in
  let a_role l := exists id, role_named h l id in
  let a_group g := exists id, group_named h g id in
  match x with
  | OGroupAdd g _ | OAddGroup g => a_group g
  | OLock l | OUnlock l | ORoleAddPermission l _ _ | OAddRole l => a_role l
  | ORoleAddDescendant l ds => a_role l /\ forall d, d ∈ ds -> a_role d
  | ORoleAddGroup l g => a_role l /\ a_group g
  | OAddTenant t | OTenantAddNamespaces t _ | OTenantAddScopesToNamespace t _ _ | OTenantSetDefault t _ | OTenantAddPrincipalInNamespace t _ _ _
  | OTenantAddScopes t _ | OTenantAddPrincipal t _ _ _ | OTenantAssignScopes t _ _ _ => a_tenant t
  | OTenantAddDescendant t ds => a_tenant t /\ forall d, d ∈ ds -> a_tenant d
  | OTenantAddRoles t rs => a_tenant t /\ forall l, l ∈ rs -> a_role l
  | _ => True
  end.
(** The call gives a tenant something before the tenant is registered with AddTenant: by itself, or by passing on a default namespace. *)
Definition too_early (h : log) (x : op) : Prop :=
  match x with
  | OTenantAddNamespaces t ns => ns <> [] /\ ~ called h (OAddTenant t)
  | OTenantAddRoles t rs => rs <> [] /\ ~ called h (OAddTenant t)
  | OTenantAddScopes t ss | OTenantAssignScopes t _ _ ss => ss <> [] /\ ~ called h (OAddTenant t)
  | OTenantAddPrincipal t _ _ rs => rs <> [] /\ ~ called h (OAddTenant t)
  | OTenantAddScopesToNamespace t _ _ | OTenantSetDefault t _ | OTenantAddPrincipalInNamespace t _ _ _ => ~ called h (OAddTenant t)
  | OTenantAddDescendant t ds => exists n d, default_of h t n /\ d ∈ ds /\ ~ called h (OAddTenant d)
  | _ => False
  end.

(** Every text column of a row handed to AddData, and of a request, holds a text or nothing. *)
Definition textual (v : any) : Prop := v = ANil \/ exists s, v = AStr s.
Definition rows_textual (h : log) : Prop := forall d, called h (OAddData d) -> textual (tenant d) /\ textual (role d).
Definition request_textual (q : opts) : Prop := Forall textual [o_tenant q; o_namespace q; o_scope q; o_group q; o_activity q].
(** A tenant, a role with a circle below it *)
Definition tenant_circle (h : log) (t : nat) : Prop := exists m, rtc (sub_tenant h) t m /\ tc (sub_tenant h) m m.
Definition role_circle (h : log) (l : nat) : Prop := exists m, rtc (sub_role h) l m /\ tc (sub_role h) m m.
(** [p] may manage a tenant with a circle below it. *)
Definition manages_circle (h : log) (p : string) : Prop := exists t l, manages h p t /\ tenant_at h t l /\ tenant_circle h l.
(** The activity asked for can be looked up in every registered role. *)
Definition roles_decide (h : log) (q : opts) : Prop :=
  forall g a r l, o_group q = AStr g -> o_activity q = AStr a -> role_at h r l ->
    ~ role_circle h l /\ forall d at_, rtc (sub_role h) l d -> role_attr h d g at_ -> ~ StrLoops (attr_string at_) a.
(** The search for the permission in the registered role [r] does not come to an end (unless a hit comes first). *)
Definition stuck (h : log) (r grp act : string) : Prop :=
  exists l, role_at h r l /\ (exists w, store_of h l grp w)
    /\ (role_circle h l \/ exists d a, rtc (sub_role h) l d /\ role_attr h d grp a /\ StrLoops (attr_string a) act).
(** The request leads to the role [r], by a row that counts in the tenant looked at, [t]. *)
Definition searches (h : log) (p : string) (t : any) (q : opts) (r g a : string) : Prop :=
  o_group q = AStr g /\ o_activity q = AStr a
  /\ exists t' d, (if asked (o_tenant q) then t' = t else has_row h p t') /\ row_made h d /\ counts p t' q d /\ role d = AStr r.
(** It leads to a role in which the search does not come to an end. *)
Definition endless (h : log) (p : string) (q : opts) : Prop :=
  called h (OAddPrincipal p) /\ (exists u, own h p u) /\ known h q
  /\ exists t r g a, (t = o_tenant q \/ exists u, t = AStr u /\ reaches h p u) /\ searches h p t q r g a /\ stuck h r g a.
