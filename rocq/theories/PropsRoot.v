(** Properties C11 to C19, C25, C53 and C54: the root package's manager. *)
From Verif Require Import AuthModel AuthSpec RootSpec RegModel RegSpec RootInv RoleCor RootCor RootCor2 RootCor3 RegProofs RootEx.

(** C11: Authorize only ever says yes to a registered principal that some earlier call
    associated with something, about registered resources. *)
Theorem C11_registered (o : oracle) (st : state) (p : string) (q : opts) (st' : state) :
  authorize o st p q = Ok (st', true) -> p ∈ m_principals st /\ valid_request st q.
Proof. exact (authorize_registered o st p q st'). Qed.
Print Assumptions C11_registered.
Theorem C11_associated (o : oracle) (ops : list op) (st : state) (outs : list out) (o' : oracle) (p : string) (q : opts) (st' : state) :
  run o 0 init_state ops = Ok (st, outs) -> authorize o' st p q = Ok (st', true) ->
  OAddPrincipal p ∈ ops /\ exists x, x ∈ ops /\ names_principal p x.
Proof. exact (authorize_history o ops st outs o' p q st'). Qed.
Print Assumptions C11_associated.
Example C11_ex : exists st outs st',
  run id_oracle 0 init_state w16_ops = Ok (st, outs)
  /\ authorize rev_oracle st "ann" (tenant_only "acme") = Ok (st', true)
  /\ (exists st'', authorize rev_oracle st "bob" (tenant_only "acme") = Ok (st'', false))
  /\ exists st'', authorize rev_oracle st "ann" (tenant_only "other") = Ok (st'', false).
Proof. exact c11_ex. Qed.

(** C12: membership requests, exactly.  [U] is what GetImplicitTenants answers from then on. *)
Theorem C12_membership_exact (o : oracle) (st : state) (p : string) (q : opts) (st' : state) (b : bool) :
  ~ asks_activity q -> authorize o st p q = Ok (st', b) ->
  b = false /\ p ∉ m_principals st
  \/ p ∈ m_principals st /\ exists U, (forall o', get_implicit_tenants o' st' p = Ok (st', U))
     /\ (b = true <-> U <> ∅ /\ valid_request st q
          /\ (grants_membership st p q (shape_of q)
              \/ exists u, u ∈ U /\ grants_membership st p (set_o_tenant q (AStr u)) (shape_of q))).
Proof. exact (authorize_membership o st p q st' b). Qed.
Print Assumptions C12_membership_exact.
(** The same in terms of rows and tenant hierarchy alone, when the caches have not gone stale. *)
Theorem C12_fresh (o : oracle) (st : state) (p : string) (q : opts) (st' : state) (b : bool) :
  reachable st -> m_cache st !! p = None -> hierarchy_fresh st -> tenants_coherent st -> flags_agree st p ->
  authorize o st p q = Ok (st', b) ->
  (b = true <-> p ∈ m_principals st /\ (exists t, own st p t) /\ valid_request st q
     /\ (grants st p q (shape_of q)
         \/ exists u, (own st p u \/ exists t0, manages st p t0 /\ below st t0 u)
              /\ grants st p (set_o_tenant q (AStr u)) (shape_of q))).
Proof. exact (authorize_fresh o st p q st' b). Qed.
Print Assumptions C12_fresh.
(** Requests that name only a namespace, only a scope or nothing are denied. *)
Theorem C12_incomplete_denied (o : oracle) (st : state) (p : string) (q : opts) (st' : state) (b : bool) :
  authorize o st p q = Ok (st', b) -> o_tenant q = ANil -> o_namespace q = ANil \/ o_scope q = ANil -> b = false.
Proof. exact (authorize_no_shape o st p q st' b). Qed.
Print Assumptions C12_incomplete_denied.
Example C12_ex :
  let st := ops_state w12_ops in
  fresh_for st "ann"
  /\ verdict (authorize rev_oracle st "ann" (Opts (AStr "acme") (AStr "hr") ANil ANil ANil)) = Some true
  /\ verdict (authorize rev_oracle st "ann" (Opts (AStr "acme") (AStr "hr") (AStr "s") ANil ANil)) = Some false
  /\ verdict (authorize rev_oracle st "ann" (Opts (AStr "branch") ANil ANil ANil ANil)) = Some true
  /\ verdict (authorize rev_oracle st "ann" (Opts ANil (AStr "hr") ANil ANil ANil)) = Some false
  /\ verdict (authorize rev_oracle st "bob" (Opts (AStr "acme") (AStr "hr") ANil ANil ANil)) = Some false.
Proof. exact c12_ex. Qed.

(** C13: activity requests, exactly. *)
Theorem C13_activity_exact (o : oracle) (st : state) (p : string) (q : opts) (st' : state) (b : bool) :
  asks_activity q -> authorize o st p q = Ok (st', b) ->
  b = false /\ p ∉ m_principals st
  \/ p ∈ m_principals st /\ exists U, (forall o', get_implicit_tenants o' st' p = Ok (st', U))
     /\ (b = true <-> U <> ∅ /\ valid_request st q
          /\ (grants_activity st p q (shape_of q)
              \/ exists u, u ∈ U /\ grants_activity st p (set_o_tenant q (AStr u)) (shape_of q))).
Proof. exact (authorize_activity o st p q st' b). Qed.
Print Assumptions C13_activity_exact.
(** It does return a verdict unless a pattern loops, a role or tenant graph is cyclic, or a
    value has the wrong type. *)
Theorem C13_returns (o : oracle) (st : state) (p : string) (q : opts) :
  reachable st -> stringy_rows st -> stringy_request q -> ~ manages_cycle st p -> decidable_roles st q ->
  exists st' b, authorize o st p q = Ok (st', b).
Proof. exact (authorize_reachable_returns o st p q). Qed.
Print Assumptions C13_returns.
Example C13_ex :
  let st := ops_state w13_ops in
  let ask ns s act := verdict (authorize rev_oracle st "ann" (Opts (AStr "acme") ns s (AStr "page") (AStr act))) in
  ask (AStr "hr") ANil "/orders/7 GET" = Some true
  /\ ask (AStr "hr") (AStr "s") "/orders/7 GET" = Some true
  /\ ask (AStr "hr") ANil "/orders/7/x GET" = Some false
  /\ ask ANil ANil "/orders/7 GET" = Some false.
Proof. exact c13_ex. Qed.

(** C14 is false: one row in any tenant opens every registered tenant. *)
Theorem C14_tenant_isolation_refuted : exists st p t, reachable st
  /\ ~ own st p t /\ (forall t0, manages st p t0 -> ~ below st t0 t)
  /\ forall o, exists st', authorize o st p (tenant_only t) = Ok (st', true).
Proof. exact c14_refuted. Qed.
Print Assumptions C14_tenant_isolation_refuted.
(** The hole in general. *)
Theorem C14_any_tenant (o : oracle) (st : state) (p t : string) (l : nat) (u : string) (st' : state) (b : bool) :
  reachable st -> m_cache st !! p = None -> p ∈ m_principals st -> m_tenants st !! t = Some l -> own st p u ->
  authorize o st p (Opts (AStr t) ANil ANil ANil ANil) = Ok (st', b) -> b = true.
Proof. exact (tenant_hole o st p t l u st' b). Qed.
Print Assumptions C14_any_tenant.
(** What remains true: with no implicit tenant other than the requested one, only the rows for
    the requested tenant count. *)
Theorem C14_tenant_isolation_partial (o : oracle) (st : state) (p : string) (q : opts) (t : string) (st' : state) (b : bool) (U : gset string) :
  authorize o st p q = Ok (st', b) -> o_tenant q = AStr t ->
  (forall o', get_implicit_tenants o' st' p = Ok (st', U)) -> U ⊆ {[t]} ->
  b = true -> grants st p q (shape_of q).
Proof. exact (tenant_isolated o st p q t st' b U). Qed.
Print Assumptions C14_tenant_isolation_partial.
Example C14_ex : exists st' U, authorize id_oracle (ops_state w14_ops) "eve" (tenant_only "globex") = Ok (st', true)
  /\ get_implicit_tenants id_oracle st' "eve" = Ok (st', U) /\ elements U = ["globex"].
Proof. exact c14_ex. Qed.

(** C15 is false: eve gets what only boss' role permits. *)
Theorem C15_principal_isolation_refuted : exists st p q st', reachable st /\ asks_activity q
  /\ authorize id_oracle st p q = Ok (st', true)
  /\ forall d r l, stored st d -> principal d = AStr p \/ principal d = ANil -> role d = AStr r -> m_roles st !! r = Some l ->
       forall g a, ~ permits (s_heap st) l g a [].
Proof. exact c15_refuted. Qed.
Print Assumptions C15_principal_isolation_refuted.
(** In general: any row with the namespace (scope) of the request, of any principal and any
    tenant, lends its role to everyone who has a tenant at all. *)
Theorem C15_shared_namespace (o : oracle) (st : state) (p t n g a : string) (l : nat) (d : data) (r : string) (rl : nat) (u : string) (st' : state) (b : bool) :
  reachable st -> m_cache st !! p = None -> own st p u ->
  p ∈ m_principals st -> m_tenants st !! t = Some l -> n ∈ m_namespaces st ->
  stored st d -> namespace d = AStr n -> role d = AStr r -> m_roles st !! r = Some rl -> permits (s_heap st) rl g a [] ->
  authorize o st p (Opts (AStr t) (AStr n) ANil (AStr g) (AStr a)) = Ok (st', b) -> b = true.
Proof. exact (namespace_hole o st p t n g a l d r rl u st' b). Qed.
Print Assumptions C15_shared_namespace.
Theorem C15_shared_scope (o : oracle) (st : state) (p t s g a : string) (l : nat) (d : data) (r : string) (rl : nat) (u : string) (st' : state) (b : bool) :
  reachable st -> m_cache st !! p = None -> own st p u ->
  p ∈ m_principals st -> m_tenants st !! t = Some l -> s ∈ m_scopes st ->
  stored st d -> scope d = AStr s -> role d = AStr r -> m_roles st !! r = Some rl -> permits (s_heap st) rl g a [] ->
  authorize o st p (Opts (AStr t) ANil (AStr s) (AStr g) (AStr a)) = Ok (st', b) -> b = true.
Proof. exact (scope_hole o st p t s g a l d r rl u st' b). Qed.
Print Assumptions C15_shared_scope.
(** It holds for requests that name both a namespace and a scope. *)
Theorem C15_own_roles_partial (o : oracle) (st : state) (p : string) (q : opts) (st' : state) :
  authorize o st p q = Ok (st', true) -> asks_activity q -> o_namespace q <> ANil -> o_scope q <> ANil ->
  exists g a d r l, o_group q = AStr g /\ o_activity q = AStr a /\ stored st d /\ principal d = AStr p
    /\ role d = AStr r /\ m_roles st !! r = Some l /\ permits (s_heap st) l g a [].
Proof. exact (own_roles o st p q st'). Qed.
Print Assumptions C15_own_roles_partial.
(** In every case the role comes from a row of the principal, or one with the namespace or the
    scope of the request. *)
Theorem C15_own_or_shared (o : oracle) (st : state) (p : string) (q : opts) (st' : state) :
  authorize o st p q = Ok (st', true) -> asks_activity q ->
  exists g a d r l, o_group q = AStr g /\ o_activity q = AStr a /\ stored st d
    /\ (principal d = AStr p
        \/ namespace d = o_namespace q /\ o_namespace q <> ANil \/ scope d = o_scope q /\ o_scope q <> ANil)
    /\ role d = AStr r /\ m_roles st !! r = Some l /\ permits (s_heap st) l g a [].
Proof. exact (own_or_shared_roles o st p q st'). Qed.
Print Assumptions C15_own_or_shared.
Example C15_ex :
  let q := Opts (AStr "acme") (AStr "hr") (AStr "s") (AStr "page") (AStr "/orders/7 GET") in
  asks_activity q /\ verdict (authorize id_oracle (ops_state w13_ops) "ann" q) = Some true.
Proof. exact c15_ex. Qed.

(** C16 is false ... *)
Theorem C16_tenant_activity_refuted : exists st p q d r l, reachable st /\ p ∈ m_principals st /\ is_Some (m_tenants st !! "acme")
  /\ q = Opts (AStr "acme") ANil ANil (AStr "page") (AStr "/orders GET")
  /\ stored st d /\ tenant d = AStr "acme" /\ principal d = AStr p /\ role d = AStr r /\ m_roles st !! r = Some l
  /\ permits (s_heap st) l "page" "/orders GET" []
  /\ forall o, exists st', authorize o st p q = Ok (st', false).
Proof. exact c16_refuted. Qed.
Print Assumptions C16_tenant_activity_refuted.
(** ... always: no activity is ever granted at tenant level. *)
Theorem C16_tenant_activity_never (o : oracle) (st : state) (p : string) (q : opts) (st' : state) (b : bool) :
  authorize o st p q = Ok (st', b) -> asks_activity q -> o_namespace q = ANil -> o_scope q = ANil -> b = false.
Proof. exact (tenant_activity_denied o st p q st' b). Qed.
Print Assumptions C16_tenant_activity_never.

(** C17 is false: a principal asked about before its first grant ... *)
Theorem C17_grants_effective_refuted : exists ops p q outs st,
  run id_oracle 0 init_state ops = Ok (st, outs) /\ last outs = Some (RBool false)
  /\ last ops = Some (OAuthorize p q)
  /\ own st p "acme" /\ q = tenant_only "acme" /\ p ∈ m_principals st /\ is_Some (m_tenants st !! "acme").
Proof. exact c17_refuted. Qed.
Print Assumptions C17_grants_effective_refuted.
(** ... is locked out for good, whatever is granted afterwards. *)
Theorem C17_lockout (o1 : oracle) (ops1 : list op) (st1 : state) (outs1 : list out) (o2 : oracle) (p : string) (q : opts)
    (st2 : state) (b : bool) (o3 : oracle) (i : nat) (ops2 : list op) (st3 : state) (outs2 : list out) (o4 : oracle) (q' : opts) (st4 : state) (b' : bool) :
  run o1 0 init_state ops1 = Ok (st1, outs1) -> (forall x, x ∈ ops1 -> ~ names_principal p x) ->
  p ∈ m_principals st1 -> authorize o2 st1 p q = Ok (st2, b) ->
  run o3 i st2 ops2 = Ok (st3, outs2) -> authorize o4 st3 p q' = Ok (st4, b') -> b' = false.
Proof. exact (lockout o1 ops1 st1 outs1 o2 p q st2 b o3 i ops2 st3 outs2 o4 q' st4 b'). Qed.
Print Assumptions C17_lockout.
Theorem C17_descendants_refuted : exists st outs, run id_oracle 0 init_state w17b_ops = Ok (st, outs)
  /\ (exists U, last outs = Some (RSet U) /\ elements U = ["acme"]) /\ manages st "ann" "acme" /\ below st "acme" "branch".
Proof. exact c17_descendant_refuted. Qed.
Print Assumptions C17_descendants_refuted.
(** It holds for a principal nobody has asked about yet. *)
Theorem C17_grants_effective_partial (o : oracle) (ops : list op) (st : state) (outs : list out) (t : nat) (c : tenant_obj) (p : string)
    (md : bool) (rs : list string) (st1 : state) (l : nat) (o' : oracle) (st2 : state) (b : bool) :
  run o 0 init_state ops = Ok (st, outs) -> (forall x, x ∈ ops -> ~ asks_about p x) ->
  s_tenants st !! t = Some c -> m_tenants st !! t_id c = Some l ->
  tenant_add_principal st t p md rs = Ok (st1, None) -> rs <> [] ->
  authorize o' st1 p (tenant_only (t_id c)) = Ok (st2, b) -> b = true.
Proof. exact (grant_effective o ops st outs t c p md rs st1 l o' st2 b). Qed.
Print Assumptions C17_grants_effective_partial.
Example C17_ex : exists st1, tenant_add_principal (ops_state w54_ops) 0 "ann" true ["clerk"] = Ok (st1, None)
  /\ verdict (authorize id_oracle st1 "ann" (tenant_only "acme")) = Some true.
Proof. exact c17_ex. Qed.

(** C18: queries change nothing but the caches ... *)
Theorem C18_read_only (o : oracle) (i : nat) (st : state) (ops : list op) (st' : state) (outs : list out) :
  (forall x, x ∈ ops -> is_query x) -> run o i st ops = Ok (st', outs) -> same_but_caches st st'.
Proof. exact (query_run_same o i st ops st' outs). Qed.
Print Assumptions C18_read_only.
(** ... and a repeated call gives the same verdict, if it gives any, ... *)
Theorem C18_repeatable_partial (o1 : oracle) (st : state) (p : string) (q : opts) (st1 : state) (b1 : bool) (o2 : oracle) (i : nat)
    (ops : list op) (st2 : state) (outs : list out) (o3 : oracle) (st3 : state) (b2 : bool) :
  authorize o1 st p q = Ok (st1, b1) -> (forall x, x ∈ ops -> is_query x) -> run o2 i st1 ops = Ok (st2, outs) ->
  authorize o3 st2 p q = Ok (st3, b2) -> b1 = b2.
Proof. exact (authorize_repeatable o1 st p q st1 b1 o2 i ops st2 outs o3 st3 b2). Qed.
Print Assumptions C18_repeatable_partial.
(** ... but it may never return, depending on the iteration order. *)
Theorem C18_repeatable_refuted : exists st p q st1 o1 o2, reachable st
  /\ authorize o1 st p q = Ok (st1, true) /\ authorize o2 st1 p q = Hang.
Proof. exact c18_refuted. Qed.
Print Assumptions C18_repeatable_refuted.
Example C18_ex : exists st1 outs st2,
  authorize id_oracle (ops_state w12_ops) "ann" (tenant_only "branch") = Ok (st1, true)
  /\ run rev_oracle 0 st1 [OTenantChildren "acme"; OImplicitTenants "bob"; OAuthorize "bob" (tenant_only "acme")] = Ok (st2, outs)
  /\ verdict (authorize rev_oracle st2 "ann" (tenant_only "branch")) = Some true.
Proof. exact c18_ex. Qed.

(** C19 is false: of several rows for one tenant, the first one visited decides. *)
Theorem C19_implicit_exact_refuted : exists st p st1 st2 U1 U2, reachable st
  /\ get_implicit_tenants id_oracle st p = Ok (st1, U1) /\ get_implicit_tenants rev_oracle st p = Ok (st2, U2)
  /\ elements U1 = ["acme"] /\ "branch" ∈ elements U2
  /\ manages st p "acme" /\ below st "acme" "branch".
Proof. exact c19_refuted. Qed.
Print Assumptions C19_implicit_exact_refuted.
(** Always: own tenants are in, and nothing else than own and managed tenants. *)
Theorem C19_implicit_bounds (o : oracle) (st : state) (p : string) (st' : state) (U : gset string) :
  reachable st -> m_cache st !! p = None -> get_implicit_tenants o st p = Ok (st', U) ->
  (forall t, own st p t -> t ∈ U)
  /\ (forall t, t ∈ U -> own st p t \/ exists t0, manages st p t0 /\ below st t0 t).
Proof. exact (implicit_reachable_bounds o st p st' U). Qed.
Print Assumptions C19_implicit_bounds.
(** Exactly these when the rows agree and no cache is stale. *)
Theorem C19_implicit_exact_partial (o : oracle) (st : state) (p : string) (st' : state) (U : gset string) :
  reachable st -> m_cache st !! p = None -> hierarchy_fresh st -> tenants_coherent st -> flags_agree st p ->
  get_implicit_tenants o st p = Ok (st', U) ->
  forall t, t ∈ U <-> own st p t \/ exists t0, manages st p t0 /\ below st t0 t.
Proof. exact (implicit_reachable_exact o st p st' U). Qed.
Print Assumptions C19_implicit_exact_partial.
(** It returns, unless a managed tenant's descendants form a cycle. *)
Theorem C19_returns (o : oracle) (st : state) (p : string) : reachable st -> stringy_rows st ->
  (exists st' U, get_implicit_tenants o st p = Ok (st', U))
  \/ get_implicit_tenants o st p = Hang /\ manages_cycle st p.
Proof. exact (implicit_reachable_returns o st p). Qed.
Print Assumptions C19_returns.
Theorem C19_cycle_hangs : reachable (ops_state w19b_ops)
  /\ get_implicit_tenants id_oracle (ops_state w19b_ops) "ann" = Hang
  /\ authorize id_oracle (ops_state w19b_ops) "ann" (tenant_only "a") = Hang.
Proof. exact c19_hangs. Qed.
Print Assumptions C19_cycle_hangs.
Example C19_ex : fresh_for (ops_state w12_ops) "ann" /\ reachable (ops_state w12_ops)
  /\ exists st' U, get_implicit_tenants rev_oracle (ops_state w12_ops) "ann" = Ok (st', U) /\ elements U ≡ₚ ["acme"; "branch"].
Proof. exact c19_ex. Qed.

(** C25: each registry holds, under each id, the first object offered under it ... *)
Theorem C25_roles (o : oracle) (ops : list op) (st : state) (outs : list out) (id : string) :
  run o 0 init_state ops = Ok (st, outs) -> get_role st id = first (role_called st id) (omap adds_role ops).
Proof. exact (roles_history o ops st outs id). Qed.
Print Assumptions C25_roles.
Theorem C25_groups (o : oracle) (ops : list op) (st : state) (outs : list out) (id : string) :
  run o 0 init_state ops = Ok (st, outs) -> get_attribute_group st id = first (group_called st id) (omap adds_group ops).
Proof. exact (groups_history o ops st outs id). Qed.
Print Assumptions C25_groups.
Theorem C25_tenants (o : oracle) (ops : list op) (st : state) (outs : list out) (id : string) :
  run o 0 init_state ops = Ok (st, outs) -> get_tenant st id = first (tenant_called st id) (omap adds_tenant ops).
Proof. exact (tenants_history o ops st outs id). Qed.
Print Assumptions C25_tenants.
Theorem C25_attributes (o : oracle) (ops : list op) (st : state) (outs : list out) (key : string) :
  run o 0 init_state ops = Ok (st, outs) ->
  get_attribute st key = first (fun a => bool_decide (attr_string a = key)) (omap adds_attribute ops).
Proof. exact (attributes_history o ops st outs key). Qed.
Print Assumptions C25_attributes.
Theorem C25_sets (o : oracle) (ops : list op) (st : state) (outs : list out) (id : string) :
  run o 0 init_state ops = Ok (st, outs) ->
  (get_namespace st id = true <-> OAddNamespace id ∈ ops)
  /\ (get_scope st id = true <-> OAddScope id ∈ ops)
  /\ (get_principal st id = true <-> OAddPrincipal id ∈ ops).
Proof. exact (sets_history o ops st outs id). Qed.
Print Assumptions C25_sets.
(** ... Add* return the registered object and change nothing when the id is taken ... *)
Theorem C25_add_role (st : state) (l : nat) (st' : state) (l' : nat) : add_role st l = Ok (st', l') ->
  (exists id, role_called st id l = true /\ get_role st' id = Some l') /\ (st' = st \/ l' = l).
Proof. exact (add_role_returns st l st' l'). Qed.
Print Assumptions C25_add_role.
Theorem C25_add_group (st : state) (l : nat) (st' : state) (l' : nat) : add_attribute_group st l = Ok (st', l') ->
  (exists id, group_called st id l = true /\ get_attribute_group st' id = Some l') /\ (st' = st \/ l' = l).
Proof. exact (add_group_returns st l st' l'). Qed.
Print Assumptions C25_add_group.
Theorem C25_add_attribute (st : state) (a : attr) (st' : state) (a' : attr) : add_attribute st a = (st', a') ->
  get_attribute st' (attr_string a) = Some a' /\ (st' = st \/ a' = a).
Proof. exact (add_attribute_returns st a st' a'). Qed.
Print Assumptions C25_add_attribute.
Theorem C25_add_tenant_partial (st : state) (l : nat) (st' : state) (l' : nat) : add_tenant st l = Ok (st', l') ->
  (exists id, tenant_called st id l = true /\ get_tenant st' id = Some l')
  /\ (get_tenant st' = get_tenant st \/ l' = l).
Proof. exact (add_tenant_returns st l st' l'). Qed.
Print Assumptions C25_add_tenant_partial.
(** ... except that AddTenant hands the manager to the rejected object too. *)
Theorem C25_add_tenant_refuted : exists st t st', reachable st /\ add_tenant st t = Ok (st', 0) /\ t <> 0
  /\ tenant_add_namespace st t "n" = Panic /\ exists st'', tenant_add_namespace st' t "n" = Ok st''.
Proof. exact c25_refuted. Qed.
Print Assumptions C25_add_tenant_refuted.
(** Listings name every registered id once; the totals count them. *)
Theorem C25_totals (o : oracle) (st : state) :
  lists (role_list o st) (fun id => is_Some (get_role st id)) /\ n_roles (summary_of st) = length (role_list o st)
  /\ lists (tenant_list o st) (fun id => is_Some (get_tenant st id)) /\ n_tenants (summary_of st) = length (tenant_list o st)
  /\ lists (attribute_list o st) (fun id => is_Some (get_attribute st id)) /\ n_attributes (summary_of st) = length (attribute_list o st)
  /\ lists (namespace_list o st) (fun id => get_namespace st id = true) /\ n_namespaces (summary_of st) = length (namespace_list o st)
  /\ lists (scope_list o st) (fun id => get_scope st id = true) /\ n_scopes (summary_of st) = length (scope_list o st)
  /\ lists (principal_list o st) (fun id => get_principal st id = true) /\ n_principals (summary_of st) = length (principal_list o st)
  /\ exists ids, lists ids (fun id => is_Some (get_attribute_group st id)) /\ n_groups (summary_of st) = length ids.
Proof. exact (totals o st). Qed.
Print Assumptions C25_totals.
Example C25_ex :
  let st := ops_state [ONewRole "a"; ONewRole "a"; OAddRole 1; OAddRole 0; OAddScope "s"; OAddScope "s"; OAddScope "t"] in
  get_role st "a" = Some 1 /\ get_role st "b" = None /\ summary_of st = Summary 0 0 0 2 1 0 0
  /\ scope_list id_oracle st ≡ₚ ["s"; "t"].
Proof. exact c25_ex. Qed.

(** C53: Authorize does not panic as long as AddData rows and the request hold strings ... *)
Theorem C53_no_panic_partial (o : oracle) (ops : list op) (st : state) (outs : list out) (o' : oracle) (p : string) (q : opts) :
  run o 0 init_state ops = Ok (st, outs) ->
  (forall d, OAddData d ∈ ops -> stringy (tenant d) /\ stringy (role d)) -> stringy_request q ->
  authorize o' st p q <> Panic.
Proof. exact (authorize_never_panics o ops st outs o' p q). Qed.
Print Assumptions C53_no_panic_partial.
(** ... and does otherwise. *)
Theorem C53_no_panic_refuted : exists st p q st2 q2, reachable st /\ stringy_request q /\ authorize id_oracle st p q = Panic
  /\ reachable st2 /\ stringy_rows st2 /\ authorize id_oracle st2 p q2 = Panic.
Proof. exact c53_refuted. Qed.
Print Assumptions C53_no_panic_refuted.
Example C53_ex : verdict (authorize id_oracle (ops_state w53b_ops) "ann" (Opts ANil ANil ANil (AStr "g") (AStr "x"))) = Some false.
Proof. exact c53_ex. Qed.

(** C54: AddPrincipal and AssignScopesToPrincipal store exactly the rows of the roles (scopes)
    before the first unknown one. *)
Theorem C54_add_principal_exact (st : state) (t : nat) (c : tenant_obj) (p : string) (md : bool) (rs : list string) :
  s_tenants st !! t = Some c -> t_managed c = true ->
  let ok := fun r => p ∈ m_principals st /\ is_Some (m_roles st !! r) in
  (Forall ok rs /\ tenant_add_principal st t p md rs = Ok (with_rows st (rs ≫= role_rows c p md), None))
  \/ exists rs1 r rs2 e, rs = rs1 ++ r :: rs2 /\ Forall ok rs1 /\ ~ ok r
       /\ tenant_add_principal st t p md rs = Ok (with_rows st (rs1 ≫= role_rows c p md), Some e).
Proof. exact (add_principal_exact st t c p md rs). Qed.
Print Assumptions C54_add_principal_exact.
Theorem C54_assign_scopes_exact (st : state) (t : nat) (c : tenant_obj) (p : string) (md : bool) (ss : list string) :
  s_tenants st !! t = Some c -> t_managed c = true ->
  let ok := fun s => p ∈ m_principals st /\ s ∈ m_scopes st in
  (Forall ok ss /\ tenant_assign_scopes st t p md ss = Ok (with_rows st (ss ≫= scope_rows c p md), None))
  \/ exists ss1 s ss2 e, ss = ss1 ++ s :: ss2 /\ Forall ok ss1 /\ ~ ok s
       /\ tenant_assign_scopes st t p md ss = Ok (with_rows st (ss1 ≫= scope_rows c p md), Some e).
Proof. exact (assign_scopes_exact st t c p md ss). Qed.
Print Assumptions C54_assign_scopes_exact.
Theorem C54_add_principal_stored (st : state) (t : nat) (c : tenant_obj) (p : string) (md : bool) (rs : list string) (st' : state) :
  reachable st -> s_tenants st !! t = Some c -> tenant_add_principal st t p md rs = Ok (st', None) -> rs <> [] ->
  p ∈ m_principals st /\ forall r d, r ∈ rs -> d ∈ role_rows c p md r -> stored st' d.
Proof. exact (add_principal_stored st t c p md rs st'). Qed.
Print Assumptions C54_add_principal_stored.
Theorem C54_assign_scopes_stored (st : state) (t : nat) (c : tenant_obj) (p : string) (md : bool) (ss : list string) (st' : state) :
  reachable st -> s_tenants st !! t = Some c -> tenant_assign_scopes st t p md ss = Ok (st', None) -> ss <> [] ->
  p ∈ m_principals st /\ forall s d, s ∈ ss -> d ∈ scope_rows c p md s -> stored st' d.
Proof. exact (assign_scopes_stored st t c p md ss st'). Qed.
Print Assumptions C54_assign_scopes_stored.
(** So they are not all-or-nothing. *)
Theorem C54_atomic_refuted : exists st t p rs st' e, reachable st
  /\ tenant_add_principal st t p true rs = Ok (st', Some e)
  /\ (forall d, ~ stored st d) /\ exists d, stored st' d /\ principal d = AStr p.
Proof. exact c54_refuted. Qed.
Print Assumptions C54_atomic_refuted.
