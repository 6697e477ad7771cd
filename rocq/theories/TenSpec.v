(** What a user expects of the methods that set a root tenant up. *)
From Verif Require Export RDecSpec.

(** Nothing but the stored rows differs: no object, no registered thing, nothing remembered. *)
Definition rows_only (st st' : state) : Prop :=
  s_heap st' = s_heap st /\ s_tenants st' = s_tenants st /\ m_tenants st' = m_tenants st /\ m_namespaces st' = m_namespaces st
  /\ m_scopes st' = m_scopes st /\ m_principals st' = m_principals st /\ m_roles st' = m_roles st /\ m_attributes st' = m_attributes st
  /\ m_groups st' = m_groups st /\ m_hierarchy st' = m_hierarchy st /\ m_cache st' = m_cache st.
(** Two rows are kept in one place (C08). *)
Definition clash (d d' : data) : Prop := row_path data_keys d = row_path data_keys d'.
(** The rows [new] are stored besides those that were there before, except those whose place they take. *)
Definition rows_added (st : state) (new : list data) (st' : state) : Prop :=
  forall d, stored st' d <-> d ∈ new \/ stored st d /\ forall d', d' ∈ new -> ~ clash d' d.
Definition adds (st : state) (new : list data) (r : res state) : Prop :=
  exists st', r = Ok st' /\ rows_only st st' /\ rows_added st new st'.
(** The tenant object [t] exists and has been given to AddTenant. *)
Definition has_manager (st : state) (t : nat) : Prop := exists c, s_tenants st !! t = Some c /\ t_managed c = true.

(** Rows of a tenant called [t] *)
Definition ns_row (t n : string) : data := Data (AStr t) (AStr n) ANil ANil ANil ANil.
Definition ns_scope_row (t n s : string) : data := Data (AStr t) (AStr n) (AStr s) ANil ANil ANil.
Definition scope_row (t s : string) : data := Data (AStr t) ANil (AStr s) ANil ANil ANil.
Definition tenant_role_row (t r : string) : data := Data (AStr t) ANil ANil ANil (AStr r) ANil.
Definition member_row (t n p r : string) : data := Data (AStr t) (AStr n) ANil (AStr p) (AStr r) ANil.

(** ** Descendants *)
(** The default namespace of a tenant object *)
Definition default_at (st : state) (l : nat) : option (option string) := t_default <$> s_tenants st !! l.
(** The object AddDescendant(ds...) links under the id [k], if nothing is linked there: the first of [ds] with that id *)
Fixpoint first_called (st : state) (ds : list nat) (k : string) : option nat :=
  match ds with
  | [] => None
  | d :: ds' => if decide (t_id <$> s_tenants st !! d = Some k) then Some d else first_called st ds' k
  end.
(** What AddDescendant leaves of the tenant object [l], which was [x]: the receiver [t] has the missing links to [ds], and the objects in [ds] have
    the default namespace [n] of the receiver, if it has one. *)
Definition after_linking (st : state) (t : nat) (n : option string) (ds : list nat) (l : nat) (x y : tenant_obj) : Prop :=
  t_id y = t_id x /\ t_managed y = t_managed x
  /\ t_default y = (if decide (l ∈ ds) then match n with Some m => Some m | None => t_default x end else t_default x)
  /\ forall k, t_desc y !! k = match t_desc x !! k with
                               | Some d => Some d
                               | None => if decide (l = t) then first_called st ds k else None
                               end.
(** The rows passed on with it *)
Definition passed_rows (st : state) (n : option string) (ds : list nat) : list data :=
  match n with
  | Some m => omap (fun d => match s_tenants st !! d with Some x => Some (ns_row (t_id x) m) | None => None end) ds
  | None => []
  end.

(** ** Which things a row names *)
Definition registered_tenant (st : state) (t : string) : Prop := is_Some (m_tenants st !! t).
(** Every column that is set holds a registered id. *)
Definition names_registered (st : state) (d : data) : Prop :=
  (tenant d = ANil \/ exists t, tenant d = AStr t /\ registered_tenant st t)
  /\ (namespace d = ANil \/ exists n, namespace d = AStr n /\ n ∈ m_namespaces st)
  /\ (scope d = ANil \/ exists s, scope d = AStr s /\ s ∈ m_scopes st)
  /\ (principal d = ANil \/ exists p, principal d = AStr p /\ p ∈ m_principals st)
  /\ (role d = ANil \/ exists r, role d = AStr r /\ is_Some (m_roles st !! r)).
(** Calls that store what they are given, without a look at the registers *)
Definition unchecked (x : op) : Prop :=
  match x with
  | OAddData _ | OTenantAddNamespaces _ _ | OTenantAddScopesToNamespace _ _ _ | OTenantAddPrincipalInNamespace _ _ _ _
  | OTenantAddRoles _ _ | OTenantAddScopes _ _ => True
  | _ => False
  end.

(** ** Order of grants *)
(** Calls that only store rows *)
Definition only_stores (x : op) : Prop :=
  match x with
  | OAddData _ | OTenantAddNamespaces _ _ | OTenantAddScopesToNamespace _ _ _ | OTenantAddPrincipalInNamespace _ _ _ _
  | OTenantAddRoles _ _ | OTenantAddScopes _ _ | OTenantAddPrincipal _ _ _ _ | OTenantAssignScopes _ _ _ _ => True
  | _ => False
  end.
(** A row the call may store *)
Definition may_store (st : state) (x : op) (d : data) : Prop :=
  match x with
  | OAddData d0 => d = d0
  | OTenantAddNamespaces t ns => exists c n, s_tenants st !! t = Some c /\ n ∈ ns /\ d = ns_row (t_id c) n
  | OTenantAddScopesToNamespace t n s => exists c, s_tenants st !! t = Some c /\ d = ns_scope_row (t_id c) n s
  | OTenantAddPrincipalInNamespace t p n r => exists c, s_tenants st !! t = Some c /\ d = member_row (t_id c) n p r
  | OTenantAddRoles t rs => exists c r ro, s_tenants st !! t = Some c /\ r ∈ rs /\ h_roles (s_heap st) !! r = Some ro /\ d = tenant_role_row (t_id c) (r_id ro)
  | OTenantAddScopes t ss => exists c s, s_tenants st !! t = Some c /\ s ∈ ss /\ d = scope_row (t_id c) s
  | OTenantAddPrincipal t p md rs => exists c r, s_tenants st !! t = Some c /\ r ∈ rs /\ d ∈ role_rows c p md r
  | OTenantAssignScopes t p md ss => exists c s, s_tenants st !! t = Some c /\ s ∈ ss /\ d ∈ scope_rows c p md s
  | _ => False
  end.
(** No two different rows stored by the calls share a place. *)
Definition apart (st : state) (ops : list op) : Prop :=
  forall x x' d d', x ∈ ops -> x' ∈ ops -> may_store st x d -> may_store st x' d' -> clash d d' -> d = d'.
