(** Properties C66, C67, C68 and C69: the listing queries of the root package. *)
From Verif Require Import QueryModel QuerySpec QueryProofs QueryMore QueryPerm QueryEx.

(** C66: each query returns exactly the stored rows it is named after, each once. *)
Theorem C66_scopes_by_principal (o : oracle) (st : state) (p : any) : reachable st ->
  lists_rows st (get_scopes_by_principal o st p)
    (fun d => principal d = p /\ principal d <> ANil /\ scope d <> ANil /\ tenant d <> ANil).
Proof. exact (scopes_by_principal_rows o st p). Qed.
Print Assumptions C66_scopes_by_principal.
Theorem C66_namespaces_by_tenant (o : oracle) (st : state) (t : any) : reachable st ->
  lists_rows st (get_namespaces_by_tenant o st t)
    (fun d => tenant d = t /\ tenant d <> ANil /\ namespace d <> ANil).
Proof. exact (namespaces_by_tenant_rows o st t). Qed.
Print Assumptions C66_namespaces_by_tenant.
Theorem C66_scopes_by_tenant (o : oracle) (st : state) (t : any) : reachable st ->
  lists_rows st (get_scopes_by_tenant o st t)
    (fun d => tenant d = t /\ tenant d <> ANil /\ scope d <> ANil).
Proof. exact (scopes_by_tenant_rows o st t). Qed.
Print Assumptions C66_scopes_by_tenant.
Theorem C66_tenants (o : oracle) (st : state) (p : any) : reachable st ->
  lists_rows st (get_tenants o st p)
    (fun d => principal d = p /\ principal d <> ANil /\ tenant d <> ANil).
Proof. exact (tenants_rows o st p). Qed.
Print Assumptions C66_tenants.
(** GetTenantsByPrincipal: the tenants themselves, each once. *)
Theorem C66_tenants_by_principal (o : oracle) (st : state) (p : any) :
  NoDup (get_tenants_by_principal o st p)
  /\ forall t, t ∈ get_tenants_by_principal o st p <-> has_row st p t.
Proof. exact (tenants_by_principal_list o st p). Qed.
Print Assumptions C66_tenants_by_principal.
Theorem C66_namespaces_for_principal_by_tenant (o : oracle) (st : state) (p t : any) : reachable st ->
  lists_rows st (get_namespace_for_principal_by_tenant o st p t)
    (fun d => tenant d = t /\ tenant d <> ANil /\ namespace d <> ANil /\ unset_or (principal d) p).
Proof. exact (namespaces_for_principal_rows o st p t). Qed.
Print Assumptions C66_namespaces_for_principal_by_tenant.
Theorem C66_scopes_for_principal_by_tenant (o : oracle) (st : state) (p t : any) : reachable st ->
  lists_rows st (get_scopes_for_principal_by_tenant o st p t)
    (fun d => tenant d = t /\ tenant d <> ANil /\ scope d <> ANil /\ unset_or (principal d) p).
Proof. exact (scopes_for_principal_rows o st p t). Qed.
Print Assumptions C66_scopes_for_principal_by_tenant.
Theorem C66_namespaces_by_principal (o : oracle) (st : state) (p : any) : reachable st ->
  lists_rows st (get_namespaces_by_principal o st p)
    (fun d => has_row st p (tenant d) /\ namespace d <> ANil /\ unset_or (principal d) p).
Proof. exact (namespaces_by_principal_rows o st p). Qed.
Print Assumptions C66_namespaces_by_principal.
Example C66_ex : reachable (ops_state w66_ops) /\
  let st := ops_state w66_ops in
  get_scopes_by_principal id_oracle st (AStr "ann")
    = [row "acme" "" "till" "ann" ""; row "bolt" "north" "safe" "ann" "clerk"]
  /\ get_namespaces_by_tenant id_oracle st (AStr "acme")
    = [row "acme" "east" "" "" ""; row "acme" "east" "desk" "" ""; row "acme" "west" "" "bob" ""]
  /\ get_scopes_for_principal_by_tenant id_oracle st (AStr "ann") (AStr "acme")
    = [row "acme" "east" "desk" "" ""; row "acme" "" "till" "ann" ""]
  /\ get_namespaces_by_principal id_oracle st (AStr "ann")
    = [row "acme" "east" "" "" ""; row "acme" "east" "desk" "" ""; row "bolt" "north" "safe" "ann" "clerk"].
Proof. exact (conj w66_reach w66_lists). Qed.
(** GetImplicitScopesByPrincipal does not: it never returns any row. *)
Theorem C66_implicit_scopes_empty (o : oracle) (st : state) (p : string) (st' : state) (l : list data) :
  get_implicit_scopes_by_principal o st (AStr p) = Ok (st', l) ->
  l = [] /\ exists U, get_implicit_tenants o st p = Ok (st', U).
Proof. exact (implicit_scopes_nothing o st p st' l). Qed.
Print Assumptions C66_implicit_scopes_empty.

(** C67 is false: role listings for a principal in a tenant contain rows of other principals in
    other tenants. *)
Theorem C67_tenant_namespace_refuted : exists st p t n d, reachable st
  /\ d ∈ get_roles_tn id_oracle st p t n /\ principal d <> p /\ tenant d <> t.
Proof. exact c67_tn_refuted. Qed.
Print Assumptions C67_tenant_namespace_refuted.
Theorem C67_tenant_scope_refuted : exists st p t s d, reachable st
  /\ d ∈ get_roles_ts id_oracle st p t s /\ principal d <> p /\ tenant d <> t.
Proof. exact c67_ts_refuted. Qed.
Print Assumptions C67_tenant_scope_refuted.
Theorem C67_tenant_namespace_scope_refuted : exists st p t n s d, reachable st
  /\ d ∈ get_roles_tns id_oracle st p t n s /\ tenant d <> t.
Proof. exact c67_tns_refuted. Qed.
Print Assumptions C67_tenant_namespace_scope_refuted.
(** ... and scope listings for a namespace contain scopes of other namespaces. *)
Theorem C67_scopes_by_namespace_refuted : exists st p t n d, reachable st
  /\ d ∈ get_scopes_for_principal_by_tenant_and_namespace id_oracle st p t n
  /\ namespace d <> ANil /\ namespace d <> n.
Proof. exact c67_scopes_refuted. Qed.
Print Assumptions C67_scopes_by_namespace_refuted.
(** Exactly what each lists. *)
Theorem C67_tenant_namespace_exact (o : oracle) (st : state) (p t n : any) : reachable st ->
  lists_rows st (get_roles_tn o st p t n)
    (fun d => role d <> ANil /\ (tenant d = t /\ tenant d <> ANil /\ principal d = p /\ principal d <> ANil
                                 \/ namespace d = n /\ namespace d <> ANil)).
Proof. exact (roles_tn_rows o st p t n). Qed.
Print Assumptions C67_tenant_namespace_exact.
Theorem C67_tenant_scope_exact (o : oracle) (st : state) (p t s : any) : reachable st ->
  lists_rows st (get_roles_ts o st p t s)
    (fun d => role d <> ANil /\ (tenant d = t /\ tenant d <> ANil /\ principal d = p /\ principal d <> ANil
                                 \/ scope d = s /\ scope d <> ANil)).
Proof. exact (roles_ts_rows o st p t s). Qed.
Print Assumptions C67_tenant_scope_exact.
Theorem C67_tenant_namespace_scope_exact (o : oracle) (st : state) (p t n s : any) : reachable st ->
  lists_rows st (get_roles_tns o st p t n s)
    (fun d => role d <> ANil /\ principal d = p /\ principal d <> ANil
              /\ (tenant d = t /\ tenant d <> ANil \/ namespace d = n /\ namespace d <> ANil
                  \/ scope d = s /\ scope d <> ANil)).
Proof. exact (roles_tns_rows o st p t n s). Qed.
Print Assumptions C67_tenant_namespace_scope_exact.
Theorem C67_scopes_tenant_namespace_exact (o : oracle) (st : state) (p t n : any) : reachable st ->
  lists_rows st (get_scopes_for_principal_by_tenant_and_namespace o st p t n) (tn_scope_row p t n).
Proof. exact (scopes_tn_rows o st p t n). Qed.
Print Assumptions C67_scopes_tenant_namespace_exact.
Theorem C67_scopes_namespace_exact (o : oracle) (st : state) (p n : any) : reachable st ->
  lists_rows st (get_scope_for_principal_by_namespace o st p n)
    (fun d => has_row st p (tenant d) /\ tn_scope_row p (tenant d) n d).
Proof. exact (scopes_by_namespace_rows o st p n). Qed.
Print Assumptions C67_scopes_namespace_exact.
(** GetRolesByTenant lists nothing at all. *)
Theorem C67_roles_by_tenant_empty (o : oracle) (st : state) (t : any) : get_roles_by_tenant o st t = [].
Proof. exact (roles_by_tenant_rows o st t). Qed.
Print Assumptions C67_roles_by_tenant_empty.
(** C67 holds when every role row naming the namespace or the scope is the principal's own. *)
Theorem C67_own_rows_partial (o : oracle) (st : state) (p t n s : any) : reachable st ->
  (forall d, stored st d -> role d <> ANil -> namespace d = n /\ namespace d <> ANil \/ scope d = s /\ scope d <> ANil ->
     principal d = p /\ tenant d = t) ->
  forall d, d ∈ get_roles_tn o st p t n \/ d ∈ get_roles_ts o st p t s \/ d ∈ get_roles_tns o st p t n s ->
    principal d = p /\ tenant d = t.
Proof. exact (c67_partial o st p t n s). Qed.
Print Assumptions C67_own_rows_partial.

(** C68 is false: GetScopesWithRolesForPrincipal lists scopes that every row gives to somebody else, ... *)
Theorem C68_scopes_refuted : exists st p t n st' resp s r, reachable st
  /\ get_scopes_with_roles id_oracle st p t n = Ok (st', resp) /\ lists_role resp s r
  /\ forall d, stored st d -> scope d = s -> principal d <> ANil /\ principal d <> p.
Proof. exact c68_scopes_refuted. Qed.
Print Assumptions C68_scopes_refuted.
(** ... lists nil among the roles, ... *)
Theorem C68_roles_refuted : exists st p t n st' resp s, reachable st
  /\ get_scopes_with_roles id_oracle st p t n = Ok (st', resp) /\ lists_role resp s ANil.
Proof. exact c68_roles_refuted. Qed.
Print Assumptions C68_roles_refuted.
(** ... and answers a question about a tenant without any scope with the scopes of another tenant,
    which one depending on the iteration order. *)
Theorem C68_tenant_refuted : exists st p t n st1 resp1 st2 resp2, reachable st
  /\ get_scopes_with_roles id_oracle st p t n = Ok (st1, resp1)
  /\ get_scopes_with_roles rev_oracle st p t n = Ok (st2, resp2)
  /\ (forall s, ~ scope_of st t s) /\ resp1 <> []
  /\ exists s, s ∈ resp1.*1 /\ s ∉ resp2.*1.
Proof. exact c68_tenant_refuted. Qed.
Print Assumptions C68_tenant_refuted.
(** Exactly what it lists: each scope once; the scopes on offer with every role of the principal,
    and the scopes given to the principal together with a role. *)
Theorem C68_exact (o : oracle) (st : state) (p t n : any) (st' : state) (resp : list (any * list any)) :
  get_scopes_with_roles o st p t n = Ok (st', resp) ->
  NoDup resp.*1
  /\ exists T, answered_for (sub o 1) st p t st' T
     /\ forall s r, lists_role resp s r <->
          offered_scope st T n s /\ holds_role st p T r \/ scoped_role st p T s r.
Proof. exact (scopes_with_roles_exact o st p t n st' resp). Qed.
Print Assumptions C68_exact.
(** What is left of C68: for a principal with a row in the tenant, scopes of that tenant and roles
    of the principal in it only. *)
Theorem C68_own_tenant_partial (o : oracle) (st : state) (p t n : any) (st' : state) (resp : list (any * list any)) (s r : any) :
  has_row st p t -> get_scopes_with_roles o st p t n = Ok (st', resp) -> lists_role resp s r ->
  st' = st /\ scope_of st t s /\ holds_role st p t r.
Proof. exact (c68_partial o st p t n st' resp s r). Qed.
Print Assumptions C68_own_tenant_partial.
(** A principal that is not a string and has no row in the tenant makes it panic. *)
Theorem C68_panics (o : oracle) (st : state) (p t n : any) : ~ has_row st p t -> (forall s, p <> AStr s) ->
  get_scopes_with_roles o st p t n = Panic.
Proof. exact (scopes_with_roles_panics o st p t n). Qed.
Print Assumptions C68_panics.

(** C69: GetRolesForAvailablePermissions lists role [id] for an attribute iff the registered role has
    it, itself or through its descendants; each attribute once per category, never without roles. *)
Theorem C69_exact (o : oracle) (st : state) (m : gmap string (list (attr * list string))) :
  reachable st -> get_roles_for_available_permissions o st = Ok m ->
  (forall grp al, m !! grp = Some al -> al <> [] /\ NoDup al.*1 /\ forall a, (a, []) ∉ al)
  /\ forall grp a id, lists_attr m grp a id <-> role_offers st id grp a.
Proof. exact (available_exact o st m). Qed.
Print Assumptions C69_exact.
Example C69_ex : reachable (ops_state w69_ops)
  /\ get_roles_for_available_permissions id_oracle (ops_state w69_ops) = Ok w69_resp
  /\ lists_attr w69_resp "page" (Attr "/y" "GET") "boss" /\ ~ lists_attr w69_resp "page" (Attr "/z" "GET") "boss".
Proof. exact w69_ex. Qed.
(** It returns unless a registered role reaches a cycle, and then it does not. *)
Theorem C69_returns (o : oracle) (st : state) : reachable st ->
  (exists m, get_roles_for_available_permissions o st = Ok m)
     /\ (forall id l, m_roles st !! id = Some l -> ~ cyclic_from (s_heap st) l)
  \/ get_roles_for_available_permissions o st = Hang
     /\ exists id l, m_roles st !! id = Some l /\ cyclic_from (s_heap st) l.
Proof. exact (available_returns o st). Qed.
Print Assumptions C69_returns.
(** Listing each role once is false. *)
Theorem C69_each_once_refuted : exists st m grp al a rs, reachable st
  /\ get_roles_for_available_permissions id_oracle st = Ok m
  /\ m !! grp = Some al /\ (a, rs) ∈ al /\ ~ NoDup rs.
Proof. exact c69_refuted. Qed.
Print Assumptions C69_each_once_refuted.
