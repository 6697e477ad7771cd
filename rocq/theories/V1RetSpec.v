(** When a call to package v1 returns, told from the calls a program has made (not from any state). *)
From Verif Require Export V1CallsSpec.

(** The tenants, namespaces, roles and groups passed to a call were returned by the constructors. *)
Definition pointers_made (h : log) (x : uop) : Prop :=
  let a_tenant t := exists id, tenant_named h t id in
  let a_namespace l := exists id, namespace_named h l id in
  let a_role l := exists id, role_named h l id in
  let a_group g := exists id, group_named h g id in
  match x with
  | UGroupAdd g _ | UAddGroup g => a_group g
  | ULock l | UUnlock l | URoleAddPermission l _ _ | UAddRole l => a_role l
  | URoleAddDescendent l ds => a_role l /\ forall d, d ∈ ds -> a_role d
  | URoleAddGroup l g => a_role l /\ a_group g
  | UAddNamespace n | UNAddScopes n _ => a_namespace n
  | UNAddRoles n rs => a_namespace n /\ forall l, l ∈ rs -> a_role l
  | UAddPrincipalRole _ _ t ns _ _ => a_tenant t /\ forall l, ns = Some l -> a_namespace l
  | UAddTenant t | UTSetDefault t _ | UTAddScopes t _ | UTAddScopesToNamespace t _ _ | UTAddRolesToNamespace t _ _ | UTAddPrincipal t _ _
  | UTAddPrincipalInNamespace t _ _ _ | UTAssignScopes t _ _ | UTAssignScopesWithRole t _ _ _ => a_tenant t
  | UTAddDescendent t ds => a_tenant t /\ forall d, d ∈ ds -> a_tenant d
  | UTAddNamespace t ns => a_tenant t /\ forall l, l ∈ ns -> a_namespace l
  | UTAddRole t rs => a_tenant t /\ forall l, l ∈ rs -> a_role l
  | _ => True
  end.
(** The call assigns something, or looks up what is assigned, in a tenant never registered with AddTenant. *)
Definition too_early (h : log) (x : uop) : Prop :=
  match x with
  | UTAddScopesToNamespace t n ss => ~ called h (UAddTenant t) /\ exists s l, reached (scope_in h t) ss s /\ ns_in h t n l
  | UTAddPrincipal t _ rs => ~ called h (UAddTenant t) /\ exists r, r ∈ rs /\ role_in h t r
  | UTAddPrincipalInNamespace t _ n rs => ~ called h (UAddTenant t) /\ (exists l, ns_in h t n l) /\ (rs = [] \/ exists r, r ∈ rs /\ role_in h t r)
  | UTAssignScopes t _ _ => ~ called h (UAddTenant t)
  | UTAssignScopesWithRole t _ _ ss => ss <> [] /\ ~ called h (UAddTenant t)
  | _ => False
  end.
(** The calls that ask for nothing *)
Definition set_up (x : uop) : Prop := match x with UAuthorize _ _ => False | _ => True end.

(** A role with a circle below it *)
Definition role_circle (h : log) (l : nat) : Prop := exists m, rtc (sub_role h) l m /\ tc (sub_role h) m m.
(** Matching a pattern of the role [l] (or of one below) kept for the group [grp] with [act] goes on for ever. *)
Definition role_stalls (h : log) (l : nat) (grp act : string) : Prop :=
  exists d a, rtc (sub_role h) l d /\ role_attr h d grp a /\ StrLoops (attr_string a) act.
(** Looking the activity up in the role registered as [r] comes to an end. *)
Definition looked_up (h : log) (r grp act : string) : Prop := forall l, role_at h r l -> ~ role_circle h l /\ ~ role_stalls h l grp act.
(** So it does in every role the request leads to: those assigned in the tenant asked for, and with an activity alone those usable anywhere. *)
Definition roles_decide (h : log) (p : string) (q : uopts) : Prop :=
  let t := to_string (uo_tenant q) in
  let in_tenant := forall r n s, has_row h p r t n s -> looked_up h r (to_string (uo_group q)) (to_string (uo_activity q)) in
  match asked (uo_tenant q), asked (uo_namespace q), asked (uo_scope q), asked (uo_group q), asked (uo_activity q) with
  | false, false, false, false, true => forall r, anywhere h p r -> looked_up h r "" (to_string (uo_activity q))
  | false, false, false, false, false | _, _, _, true, _ | _, _, _, _, true => in_tenant
  | _, _, _, false, false => True
  end.
(** Looking the activity up in the role registered as [r] to the end, as far as it goes when nothing is found: the role, if it keeps something for the group, and
    the roles below it that count (as in [role_allows]). *)
Definition search_ends (h : log) (r grp act : string) (adm : string -> Prop) : Prop :=
  forall l w, role_at h r l -> store_of h l grp w -> ~ role_circle h l
    /\ (forall a, role_attr h l grp a -> ~ StrLoops (attr_string a) act)
    /\ forall d id a, tc (sub_role h) l d -> role_named h d id -> (forall x, ~ adm x) \/ adm id -> role_attr h d grp a -> ~ StrLoops (attr_string a) act.
(** The request leads only to roles in which the search ends. *)
Definition request_ends (h : log) (p : string) (q : uopts) : Prop :=
  let id := to_string (uo_tenant q) in
  let n := to_string (uo_namespace q) in
  let s := to_string (uo_scope q) in
  let in_tenant := forall t r n' s', tenant_at h id t -> place_known h t n s -> has_row h p r id n' s' ->
    search_ends h r (to_string (uo_group q)) (to_string (uo_activity q)) (usable h t id p n s) in
  called h (UAddPrincipal p) ->
  match asked (uo_tenant q), asked (uo_namespace q), asked (uo_scope q), asked (uo_group q), asked (uo_activity q) with
  | false, false, false, false, true => forall r, anywhere h p r -> search_ends h r "" (to_string (uo_activity q)) (anywhere h p)
  | false, false, false, false, false | _, _, _, true, _ | _, _, _, _, true => in_tenant
  | _, _, _, false, false => True
  end.
