(** What the root package should decide, told from the calls a program has made (not from any state). *)
From Verif Require Export CallsSpec AuthModel MatchSpec.

(** The calls made, each with what it returned, the latest first *)
Definition log : Type := list (op * out).
Definition called (h : log) (x : op) : Prop := x ∈ h.*1.
Definition log_of (ops : list op) (outs : list out) : log := reverse (zip ops outs).
(** ** Objects: the pointer a constructor returned *)
Definition tenant_named (h : log) (t : nat) (id : string) : Prop := (ONewTenant id, RLoc t) ∈ h.
Definition role_named (h : log) (l : nat) (id : string) : Prop := (ONewRole id, RLoc l) ∈ h.
Definition group_named (h : log) (gl : nat) (id : string) : Prop := (ONewGroup id, RLoc gl) ∈ h.

(** ** The manager: the first object registered under an id *)
Definition tenant_at (h : log) (id : string) : nat -> Prop := first_of (fun h e t => e.1 = OAddTenant t /\ tenant_named h t id) h.
Definition role_at (h : log) (id : string) : nat -> Prop := first_of (fun h e l => e.1 = OAddRole l /\ role_named h l id) h.

(** ** Tenants *)
(** The descendant of the id [id] that the tenant [t] was given first *)
Definition sub_named (h : log) (t : nat) (id : string) : nat -> Prop :=
  first_of (fun h e d => exists ds, e.1 = OTenantAddDescendant t ds /\ first_in (fun d' => tenant_named h d' id) ds d) h.
Definition sub_tenant (h : log) (t d : nat) : Prop := exists id, sub_named h t id d.
(** The default namespace: the registered one chosen last, or passed on by a tenant made the parent *)
Fixpoint default_of (h : log) (t : nat) (n : string) : Prop :=
  match h with
  | [] => False
  | e :: h' =>
      let now m := e.1 = OTenantSetDefault t m /\ called h' (OAddNamespace m)
                   \/ exists t' ds, e.1 = OTenantAddDescendant t' ds /\ t ∈ ds /\ default_of h' t' m in
      now n \/ (forall m, ~ now m) /\ default_of h' t n
  end.
(** The tenant [id] is below the registered tenant [t]. *)
Definition below (h : log) (t id : string) : Prop := exists l m, tenant_at h t l /\ tc (sub_tenant h) l m /\ tenant_named h m id.

(** ** Roles *)
Definition sub_role_named (h : log) (l : nat) (id : string) : nat -> Prop :=
  first_of (fun h e d => exists ds, e = (ORoleAddDescendant l ds, RErr None) /\ first_in (fun d' => role_named h d' id) ds d) h.
Definition sub_role (h : log) (l d : nat) : Prop := exists id, sub_role_named h l id d.
(** The attributes were accepted for the role [l], under the group [grp]. *)
Definition accepts (h : log) (e : op * out) (l : nat) (grp : string) (attrs : list attr) : Prop :=
  e = (ORoleAddPermission l grp attrs, RErr None)
  \/ exists r, e = (OAddPermissionsToRole r grp attrs, RErr None) /\ role_at h r l.
(** Where a role keeps the permissions of a group: by itself, or in a group handed to it *)
Inductive store : Type := Own | Handed (gl : nat).
Definition store_of (h : log) (l : nat) (grp : string) : store -> Prop :=
  first_of (fun h e w => (w = Own /\ exists attrs, accepts h e l grp attrs)
    \/ exists gl, w = Handed gl /\ e = (ORoleAddGroup l gl, RErr None) /\ group_named h gl grp) h.
Definition given (h : log) (l : nat) (grp : string) (a : attr) : Prop :=
  ever (fun h e => exists attrs, accepts h e l grp attrs /\ a ∈ attrs) h.
(** A group handed out gets what it is given itself and what the roles keeping it are given. *)
Definition handed (h : log) (gl : nat) (a : attr) : Prop :=
  (exists attrs, called h (OGroupAdd gl attrs) /\ a ∈ attrs)
  \/ exists l grp, store_of h l grp (Handed gl) /\ given h l grp a.
Definition role_attr (h : log) (l : nat) (grp : string) (a : attr) : Prop :=
  store_of h l grp Own /\ given h l grp a \/ exists gl, store_of h l grp (Handed gl) /\ handed h gl a.
Definition role_offers (h : log) (l : nat) (grp act : string) : Prop :=
  exists a, role_attr h l grp a /\ (attr_string a = act \/ StrMatches (attr_string a) act).
(** The role registered as [r] has the group [grp], and it or a descendant of it allows [act] there. *)
Definition role_allows (h : log) (r grp act : string) : Prop :=
  exists l, role_at h r l /\ (exists w, store_of h l grp w)
    /\ (role_offers h l grp act \/ exists d, tc (sub_role h) l d /\ role_offers h d grp act).

(** ** Rows *)
(** A row about the tenant [t] as a whole, and about its default namespace *)
Definition whole_or_default (h : log) (t : nat) (v : any) : Prop := v = ANil \/ exists n, v = AStr n /\ default_of h t n.
(** What the call [x], made after [h], stores *)
Definition stores (h : log) (x : op) (d : data) : Prop :=
  match x with
  | OAddData d' => d = d'
  | OTenantAddNamespaces t ns => exists id n, tenant_named h t id /\ n ∈ ns /\ d = Data (AStr id) (AStr n) ANil ANil ANil ANil
  | OTenantAddDescendant t ds => exists l id n, l ∈ ds /\ tenant_named h l id /\ default_of h t n /\ d = Data (AStr id) (AStr n) ANil ANil ANil ANil
  | OTenantAddScopesToNamespace t n s => exists id, tenant_named h t id /\ d = Data (AStr id) (AStr n) (AStr s) ANil ANil ANil
  | OTenantAddPrincipalInNamespace t p n r => exists id, tenant_named h t id /\ d = Data (AStr id) (AStr n) ANil (AStr p) (AStr r) ANil
  | OTenantAddRoles t rs => exists id l r, tenant_named h t id /\ l ∈ rs /\ role_named h l r /\ d = Data (AStr id) ANil ANil ANil (AStr r) ANil
  | OTenantAddScopes t ss => exists id s, tenant_named h t id /\ s ∈ ss /\ d = Data (AStr id) ANil (AStr s) ANil ANil ANil
  | OTenantAddPrincipal t p md rs =>
      exists id n r, tenant_named h t id /\ whole_or_default h t n /\ called h (OAddPrincipal p) /\ reached (fun r' => exists l, role_at h r' l) rs r
        /\ d = Data (AStr id) n ANil (AStr p) (AStr r) (ABool md)
  | OTenantAssignScopes t p md ss =>
      exists id n s, tenant_named h t id /\ whole_or_default h t n /\ called h (OAddPrincipal p) /\ reached (fun s' => called h (OAddScope s')) ss s
        /\ d = Data (AStr id) n (AStr s) (AStr p) ANil (ABool md)
  | _ => False
  end.
Definition row_made (h : log) (d : data) : Prop := ever (fun h e => stores h e.1 d) h.
(** [p] has a row in the tenant [t]; one that lets manage the tenants below. *)
Definition own (h : log) (p t : string) : Prop := exists d, row_made h d /\ principal d = AStr p /\ tenant d = AStr t.
Definition manages (h : log) (p t : string) : Prop := exists d, row_made h d /\ principal d = AStr p /\ tenant d = AStr t /\ manage d = ABool true.
Definition reaches (h : log) (p t : string) : Prop := own h p t \/ exists t0, manages h p t0 /\ below h t0 t.

(** ** Decisions *)
Definition asked (v : any) : bool := match v with ANil => false | _ => true end.
(** The column is set, to what is asked for; or is not set to anything else. *)
Definition meant (x v : any) : Prop := x = v /\ x <> ANil.
Definition open_to (x v : any) : Prop := x = ANil \/ x = v.
(** Everything named in the request is registered. *)
Definition known (h : log) (q : opts) : Prop :=
  (o_tenant q = ANil \/ exists t l, o_tenant q = AStr t /\ tenant_at h t l)
  /\ (o_namespace q = ANil \/ exists n, o_namespace q = AStr n /\ called h (OAddNamespace n))
  /\ (o_scope q = ANil \/ exists s, o_scope q = AStr s /\ called h (OAddScope s)).
Definition has_row (h : log) (p : string) (t : any) : Prop := exists d, row_made h d /\ principal d = AStr p /\ meant (tenant d) t.
(** No activity is asked for; [t] is the tenant looked at. *)
Definition enters (h : log) (p : string) (t : any) (q : opts) : Prop :=
  let scope_free d := meant (scope d) (o_scope q) /\ (principal d = AStr p \/ principal d = ANil /\ open_to (namespace d) (o_namespace q)) in
  match asked (o_tenant q), asked (o_namespace q), asked (o_scope q) with
  | true, false, false => has_row h p t
  | true, true, false => exists d, row_made h d /\ meant (tenant d) t /\ meant (namespace d) (o_namespace q) /\ open_to (principal d) (AStr p)
  | true, false, true => exists d, row_made h d /\ meant (tenant d) t /\ meant (scope d) (o_scope q) /\ open_to (principal d) (AStr p)
  | true, true, true => exists d, row_made h d /\ meant (tenant d) t /\ scope_free d
  | false, true, true => exists t' d, has_row h p t' /\ row_made h d /\ tenant d = t' /\ scope_free d
  | false, _, _ => False
  end.
(** The role in the row [d] counts. *)
Definition counts (p : string) (t : any) (q : opts) (d : data) : Prop :=
  let here := meant (tenant d) t in
  let ns := meant (namespace d) (o_namespace q) in
  let sc := meant (scope d) (o_scope q) in
  match asked (o_tenant q), asked (o_namespace q), asked (o_scope q) with
  | true, true, false => (here /\ principal d = AStr p \/ ns) /\ open_to (namespace d) (o_namespace q)
  | true, false, true => (here /\ principal d = AStr p \/ sc) /\ open_to (scope d) (o_scope q)
  | _, true, true => principal d = AStr p /\ (here \/ ns \/ sc) /\ open_to (namespace d) (o_namespace q) /\ open_to (scope d) (o_scope q)
  | _, _, _ => False
  end.
Definition does (h : log) (p : string) (t : any) (q : opts) : Prop :=
  exists g a t' d r, o_group q = AStr g /\ o_activity q = AStr a
    /\ (if asked (o_tenant q) then t' = t else has_row h p t')
    /\ row_made h d /\ counts p t' q d /\ role d = AStr r /\ role_allows h r g a.
Definition granted (h : log) (p : string) (q : opts) : Prop :=
  called h (OAddPrincipal p) /\ (exists u, own h p u) /\ known h q
  /\ exists t, (t = o_tenant q \/ exists u, t = AStr u /\ reaches h p u)
       /\ if asked (o_group q) && asked (o_activity q) then does h p t q else enters h p t q.

(** ** The programs *)
(** Only groups made by NewAttributeGroup are changed or handed out. *)
Definition groups_made (h : log) : Prop :=
  always (fun h e => match e.1 with OGroupAdd gl _ | ORoleAddGroup _ gl => exists id, group_named h gl id | _ => True end) h.
(** Calls that register tenants or link them; calls that ask for what is below a tenant, or for the tenants of a principal *)
Definition links (x : op) : Prop := match x with OAddTenant _ | OTenantAddDescendant _ _ => True | _ => False end.
Definition asks (x : op) : Prop := match x with OTenantChildren _ | OImplicitTenants _ | OAuthorize _ _ => True | _ => False end.
Definition asks_of (p : string) (x : op) : Prop := match x with OImplicitTenants p' | OAuthorize p' _ => p' = p | _ => False end.
(** Tenants are registered and linked before anything is asked, and [p] is given rows before anything is asked of [p]. *)
Definition asked_last (h : log) (p : string) : Prop :=
  always (fun h e => (links e.1 -> forall x, called h x -> ~ asks x)
    /\ forall d, stores h e.1 d -> principal d = AStr p -> forall x, called h x -> ~ asks_of p x) h.
(** A tenant put below another is the one registered under its id, if one is. *)
Definition links_registered (h : log) : Prop := forall t id d d', sub_named h t id d -> tenant_at h id d' -> d' = d.
(** The rows of [p] in one tenant agree on whether they let manage the tenants below. *)
Definition flags_alike (h : log) (p : string) : Prop :=
  forall d d', row_made h d -> row_made h d' -> principal d = AStr p -> principal d' = AStr p -> tenant d = tenant d' ->
    manage d = ABool true -> manage d' = ABool true.
