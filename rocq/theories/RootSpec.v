(** What stays true of every state a program can reach. *)
From Verif Require Export AuthSpec.

(** [l] is a tenant object with id [id]. *)
Definition tenant_id_at (st : state) (l : nat) (id : string) : Prop :=
  exists c, s_tenants st !! l = Some c /\ t_id c = id.

(** Pointers are valid, things are stored under their own ids, registered tenants have a
    manager, caches hold tenant ids. *)
Record state_wf (st : state) : Prop := {
  wf_roles_heap : wf_heap (s_heap st);
  wf_m_roles : forall id l, m_roles st !! id = Some l -> has_id (s_heap st) l id;
  wf_m_groups : forall id l, m_groups st !! id = Some l ->
    exists g, h_groups (s_heap st) !! l = Some g /\ g_id g = id;
  wf_m_attributes : forall k a, m_attributes st !! k = Some a -> k = attr_string a;
  wf_m_tenants : forall id l, m_tenants st !! id = Some l ->
    exists c, s_tenants st !! l = Some c /\ t_id c = id /\ t_managed c = true;
  wf_t_desc : forall l c k d, s_tenants st !! l = Some c -> t_desc c !! k = Some d ->
    tenant_id_at st d k;
  wf_t_default : forall l c n, s_tenants st !! l = Some c -> t_default c = Some n ->
    n ∈ m_namespaces st;
  wf_hierarchy : forall t ds x, m_hierarchy st !! t = Some ds -> x ∈ ds -> exists s, x = AStr s
}.

(** Graph of tenants. *)
Definition tenant_edge (st : state) : nat -> nat -> Prop := child_of (tenant_children_of st).
Definition tenants_acyclic (st : state) (l : nat) : Prop :=
  ~ exists d, rtc (tenant_edge st) l d /\ tc (tenant_edge st) d d.
(** Tenant id [d] is below the registered tenant [t]. *)
Definition below (st : state) (t d : string) : Prop :=
  exists l m, m_tenants st !! t = Some l /\ tc (tenant_edge st) l m /\ tenant_id_at st m d.

(** Histories in which no AddDescendant call closes a cycle: the added role does not already
    reach the receiver. *)
Definition careful (st : state) (x : op) : Prop :=
  match x with
  | ORoleAddDescendant l ds => forall d, d ∈ ds -> ~ rtc (role_edge (s_heap st)) d l
  | _ => True
  end.
Inductive run_careful (o : oracle) : nat -> state -> list op -> state -> list out -> Prop :=
| careful_nil i st : run_careful o i st [] st []
| careful_cons i st x st1 r ops st' outs :
    careful st x -> step (sub o i) st x = Ok (st1, r) -> run_careful o (S i) st1 ops st' outs ->
    run_careful o i st (x :: ops) st' (r :: outs).

(** ** Implicit tenants *)
(** [p] has a row in tenant [t]; with the flag ManageDescendants set. *)
Definition own (st : state) (p t : string) : Prop :=
  exists d, stored st d /\ principal d = AStr p /\ tenant d = AStr t.
Definition manages (st : state) (p t : string) : Prop :=
  exists d, stored st d /\ principal d = AStr p /\ tenant d = AStr t /\ manage d = ABool true.
(** All rows of [p] in the same tenant agree on ManageDescendants. *)
Definition flags_agree (st : state) (p : string) : Prop :=
  forall d d', stored st d -> stored st d' -> principal d = AStr p -> principal d' = AStr p ->
    tenant d = tenant d' -> manage d = ABool true -> manage d' = ABool true.
(** A descendant tenant is the object registered under its id, if one is. *)
Definition tenants_coherent (st : state) : Prop :=
  forall l c k d d', s_tenants st !! l = Some c -> t_desc c !! k = Some d -> m_tenants st !! k = Some d' -> d' = d.
(** No cached list of descendants is out of date. *)
Definition hierarchy_fresh (st : state) : Prop :=
  forall t ds d, m_hierarchy st !! t = Some ds -> below st t d -> AStr d ∈ ds.
(** Some tenant [p] may manage has a cycle among its descendants. *)
Definition manages_cycle (st : state) (p : string) : Prop :=
  exists t l, manages st p t /\ m_tenants st !! t = Some l /\ m_hierarchy st !! t = None
              /\ ~ tenants_acyclic st l.

(** The states a run passes through. *)
Definition visits (o : oracle) (ops : list op) (st : state) : Prop :=
  exists ops1 ops2 outs, ops = ops1 ++ ops2 /\ run o 0 init_state ops1 = Ok (st, outs).

(** Operations that only ask. *)
Definition is_query (x : op) : Prop :=
  match x with
  | OTenantChildren _ | OImplicitTenants _ | OAuthorize _ _ => True
  | _ => False
  end.

(** A value that is absent or a string (the API takes [any], the code asserts strings). *)
Definition stringy (x : any) : Prop := x = ANil \/ exists s, x = AStr s.
Definition stringy_rows (st : state) : Prop := forall d, stored st d -> stringy (tenant d) /\ stringy (role d).
Definition stringy_request (q : opts) : Prop :=
  stringy (o_tenant q) /\ stringy (o_namespace q) /\ stringy (o_scope q) /\ stringy (o_group q) /\ stringy (o_activity q).
(** Deciding the activity of [q] terminates on every registered role. *)
Definition decidable_roles (st : state) (q : opts) : Prop :=
  forall g a r l, o_group q = AStr g -> o_activity q = AStr a -> m_roles st !! r = Some l ->
    ~ cyclic_from (s_heap st) l
    /\ forall d gr, rtc (role_edge (s_heap st)) l d -> owns (s_heap st) d g gr -> ~ stalls gr a.

(** The call associates principal [p] with something. *)
Definition names_principal (p : string) (x : op) : Prop :=
  match x with
  | OAddData d => principal d = AStr p
  | OTenantAddPrincipalInNamespace _ u _ _ => u = p
  | OTenantAddPrincipal _ u _ _ => u = p
  | OTenantAssignScopes _ u _ _ => u = p
  | _ => False
  end.

(** The call asks for the tenants of [p]. *)
Definition asks_about (p : string) (x : op) : Prop :=
  match x with
  | OImplicitTenants p' | OAuthorize p' _ => p' = p
  | _ => False
  end.

(** The rows a successful AddPrincipal (AssignScopesToPrincipal) call stores for one role
    (scope): one for the whole tenant, one for its default namespace. *)
Definition role_rows (c : tenant_obj) (p : string) (md : bool) (r : string) : list data :=
  Data (AStr (t_id c)) ANil ANil (AStr p) (AStr r) (ABool md)
  :: match t_default c with
     | Some n => [Data (AStr (t_id c)) (AStr n) ANil (AStr p) (AStr r) (ABool md)]
     | None => []
     end.
Definition scope_rows (c : tenant_obj) (p : string) (md : bool) (s : string) : list data :=
  Data (AStr (t_id c)) ANil (AStr s) (AStr p) ANil (ABool md)
  :: match t_default c with
     | Some n => [Data (AStr (t_id c)) (AStr n) (AStr s) (AStr p) ANil (ABool md)]
     | None => []
     end.
(** The state with more rows, and nothing else changed. *)
Definition with_rows (st : state) (new : list data) : state := foldl add_data st new.
