(** Properties of package v1: registries and set-up. *)
From Verif Require Import V1RegEx V1RegSpec.

(** ** C72: each registry holds, under each id, the first object offered under it *)
Theorem C72_roles (o : oracle) (ops : list uop) (st : ustate) (outs : list uout) (id : string) :
  urun o 0 u_init ops = Ok (st, outs) -> uget_role st id = first (named (urole_id st) id) (omap uadds_role ops).
Proof. exact (uroles_history o ops st outs id). Qed.
Print Assumptions C72_roles.
Theorem C72_groups (o : oracle) (ops : list uop) (st : ustate) (outs : list uout) (id : string) :
  urun o 0 u_init ops = Ok (st, outs) -> uget_group st id = first (named (ugroup_id st) id) (omap uadds_group ops).
Proof. exact (ugroups_history o ops st outs id). Qed.
Print Assumptions C72_groups.
Theorem C72_tenants (o : oracle) (ops : list uop) (st : ustate) (outs : list uout) (id : string) :
  urun o 0 u_init ops = Ok (st, outs) -> uget_tenant st id = first (named (utenant_id st) id) (omap uadds_tenant ops).
Proof. exact (utenants_history o ops st outs id). Qed.
Print Assumptions C72_tenants.
Theorem C72_namespaces (o : oracle) (ops : list uop) (st : ustate) (outs : list uout) (id : string) :
  urun o 0 u_init ops = Ok (st, outs) -> uget_namespace st id = first (named (uns_id st) id) (omap uadds_namespace ops).
Proof. exact (unamespaces_history o ops st outs id). Qed.
Print Assumptions C72_namespaces.
Theorem C72_attributes (o : oracle) (ops : list uop) (st : ustate) (outs : list uout) (key : string) :
  urun o 0 u_init ops = Ok (st, outs) ->
  uget_attribute st key = first (fun a => bool_decide (attr_string a = key)) (omap uadds_attribute ops).
Proof. exact (uattributes_history o ops st outs key). Qed.
Print Assumptions C72_attributes.
Theorem C72_sets (o : oracle) (ops : list uop) (st : ustate) (outs : list uout) (id : string) :
  urun o 0 u_init ops = Ok (st, outs) ->
  (uget_scope st id = true <-> UAddScope id ∈ ops) /\ (uget_principal st id = true <-> UAddPrincipal id ∈ ops).
Proof. exact (usets_history o ops st outs id). Qed.
Print Assumptions C72_sets.
(** Add* return the registered object and change nothing when the id is taken ... *)
Theorem C72_add_role (o : oracle) (st : ustate) (l : nat) (st' : ustate) (y : uout) : ustep o st (UAddRole l) = Ok (st', y) ->
  exists id l', urole_id st l = Some id /\ y = YLoc l' /\ uget_role st' id = Some l'
    /\ match uget_role st id with Some d => l' = d /\ st' = st | None => l' = l /\ st' = uw_roles st (<[id := l]> (u_roles st)) end.
Proof. exact (uadd_role_returns o st l st' y). Qed.
Print Assumptions C72_add_role.
Theorem C72_add_group (o : oracle) (st : ustate) (l : nat) (st' : ustate) (y : uout) : ustep o st (UAddGroup l) = Ok (st', y) ->
  exists id l', ugroup_id st l = Some id /\ y = YLoc l' /\ uget_group st' id = Some l'
    /\ match uget_group st id with Some d => l' = d /\ st' = st | None => l' = l /\ st' = uw_groups st (<[id := l]> (u_groups st)) end.
Proof. exact (uadd_group_returns o st l st' y). Qed.
Print Assumptions C72_add_group.
Theorem C72_add_namespace (o : oracle) (st : ustate) (l : nat) (st' : ustate) (y : uout) : ustep o st (UAddNamespace l) = Ok (st', y) ->
  exists id l', uns_id st l = Some id /\ y = YLoc l' /\ uget_namespace st' id = Some l'
    /\ match uget_namespace st id with Some d => l' = d /\ st' = st | None => l' = l /\ st' = uw_regns st (<[id := l]> (u_regns st)) end.
Proof. exact (uadd_namespace_returns o st l st' y). Qed.
Print Assumptions C72_add_namespace.
Theorem C72_add_attribute (o : oracle) (st : ustate) (a : attr) (st' : ustate) (y : uout) : ustep o st (UAddAttribute a) = Ok (st', y) ->
  exists a', y = YAttr a' /\ uget_attribute st' (attr_string a) = Some a'
    /\ match uget_attribute st (attr_string a) with
       | Some d => a' = d /\ st' = st
       | None => a' = a /\ st' = uw_attrs st (<[attr_string a := a]> (u_attrs st)) end.
Proof. exact (uadd_attribute_returns o st a st' y). Qed.
Print Assumptions C72_add_attribute.
(** ... except AddTenant, which connects the rejected object to the manager as well. *)
Theorem C72_add_tenant (o : oracle) (st : ustate) (t : nat) (st' : ustate) (y : uout) : ustep o st (UAddTenant t) = Ok (st', y) ->
  exists c t', u_tenants st !! t = Some c /\ y = YLoc t' /\ uget_tenant st' (ut_id c) = Some t'
    /\ u_tenants st' = <[t := ut_with_manager c]> (u_tenants st)
    /\ match uget_tenant st (ut_id c) with
       | Some d => t' = d /\ u_reg st' = u_reg st
       | None => t' = t /\ u_reg st' = <[ut_id c := t]> (u_reg st)
       end
    /\ st' = uw_reg (uw_tenants st (u_tenants st')) (u_reg st').
Proof. exact (uadd_tenant_returns o st t st' y). Qed.
Print Assumptions C72_add_tenant.
(** So a rejected tenant object can hand out assignments in the registered tenant, with roles of its own. *)
Theorem C72_rejected_tenant_refuted : exists st st' st'' y a, ureachable st
  /\ ustep id_oracle st (UTAddPrincipal 1 "p" ["r"]) = Panic
  /\ ustep id_oracle st (UAddTenant 1) = Ok (st', YLoc 0)
  /\ ustep id_oracle st' (UTAddPrincipal 1 "p" ["r"]) = Ok (st'', y)
  /\ uget_tenant st'' "acme" = Some 0 /\ get_principal_roles id_oracle st'' "acme" "p" = Ok [a].
Proof. exact c72_refuted. Qed.
Print Assumptions C72_rejected_tenant_refuted.
(** Listings name every registered id once; the totals count them. *)
Theorem C72_totals (o : oracle) (st : ustate) :
  lists (urole_list o st) (fun id => is_Some (uget_role st id)) /\ un_roles_total (usummary_of st) = length (urole_list o st)
  /\ lists (utenant_list o st) (fun id => is_Some (uget_tenant st id)) /\ un_tenants (usummary_of st) = length (utenant_list o st)
  /\ lists (unamespace_list o st) (fun id => is_Some (uget_namespace st id)) /\ un_namespaces (usummary_of st) = length (unamespace_list o st)
  /\ lists (uattribute_list o st) (fun id => is_Some (uget_attribute st id)) /\ un_attributes (usummary_of st) = length (uattribute_list o st)
  /\ lists (uscope_list o st) (fun id => uget_scope st id = true) /\ un_scopes_total (usummary_of st) = length (uscope_list o st)
  /\ lists (uprincipal_list o st) (fun id => uget_principal st id = true) /\ un_principals (usummary_of st) = length (uprincipal_list o st)
  /\ exists ids, lists ids (fun id => is_Some (uget_group st id)) /\ un_groups (usummary_of st) = length ids.
Proof. exact (utotals o st). Qed.
Print Assumptions C72_totals.
Example C72_ex :
  let st := uops_state [UNewRole "a"; UNewRole "a"; UAddRole 1; UAddRole 0; UAddScope "s"; UAddScope "s"; UAddScope "t";
                        UNewNamespace "n"; UAddNamespace 0; UAddAttribute (Attr "a b" "c"); UAddAttribute (Attr "a" "b c")] in
  uget_role st "a" = Some 1 /\ uget_role st "b" = None /\ uget_namespace st "n" = Some 0
  /\ uget_attribute st "a b c" = Some (Attr "a b" "c")
  /\ usummary_of st = USummary 0 0 1 2 1 0 1
  /\ uscope_list id_oracle st ≡ₚ ["s"; "t"].
Proof. exact c72_ex. Qed.

(** ** C73: AddPermissionsToRole is checked and all or nothing *)
Theorem C73_exact (o : oracle) (st : ustate) (r g : string) (attrs : list attr) (st' : ustate) (y : uout) : ureachable st ->
  ustep o st (UAddPermissionsToRole r g attrs) = Ok (st', y) ->
  (y = YErr None <-> (exists l, u_roles st !! r = Some l /\ unlocked (u_heap st) l) /\ in_group st g attrs)
  /\ (y <> YErr None -> st' = st)
  /\ (y = YErr None -> exists l, u_roles st !! r = Some l /\ st' = uw_heap st (u_heap st')
        /\ role_add_permission (u_heap st) l g attrs = Ok (u_heap st', None)).
Proof. exact (add_permissions_exact o st r g attrs st' y). Qed.
Print Assumptions C73_exact.
Theorem C73_effect (o : oracle) (st : ustate) (r g : string) (attrs : list attr) (st' : ustate) : ureachable st ->
  ustep o st (UAddPermissionsToRole r g attrs) = Ok (st', YErr None) ->
  exists l, u_roles st !! r = Some l
    /\ (forall k a, holds (u_heap st') l g k a <->
          holds (u_heap st) l g k a \/ (forall a', ~ holds (u_heap st) l g k a') /\ first_with attr_string attrs k a)
    /\ (forall x k d, child (u_heap st') x k d <-> child (u_heap st) x k d)
    /\ (forall x grp k a, (x = l /\ grp = g \/ exists gl, points (u_heap st) l g gl /\ points (u_heap st) x grp gl)
                          \/ (holds (u_heap st') x grp k a <-> holds (u_heap st) x grp k a)).
Proof. exact (add_permissions_effect o st r g attrs st'). Qed.
Print Assumptions C73_effect.
Theorem C73_errors (o : oracle) (st : ustate) (r g : string) (attrs : list attr) (st' : ustate) (y : uout) : ureachable st ->
  ustep o st (UAddPermissionsToRole r g attrs) = Ok (st', y) ->
  (u_roles st !! r = None -> y = YErr (Some "no role available"))
  /\ (is_Some (u_roles st !! r) -> u_groups st !! g = None -> y = YErr (Some "no attribute group available"))
  /\ (forall pre a post gl gr, is_Some (u_roles st !! r) -> u_groups st !! g = Some gl -> h_groups (u_heap st) !! gl = Some gr ->
        attrs = pre ++ a :: post -> g_perms gr !! attr_string a = None -> (forall b, b ∈ pre -> is_Some (g_perms gr !! attr_string b)) ->
        y = YErr (Some ("attribute '" ++ attr_string a ++ "' not associated to the group '" ++ g ++ "'")%string)).
Proof. exact (add_permissions_errors o st r g attrs st' y). Qed.
Print Assumptions C73_errors.
Theorem C73_returns (o : oracle) (st : ustate) (r g : string) (attrs : list attr) : ureachable st ->
  exists st' e, ustep o st (UAddPermissionsToRole r g attrs) = Ok (st', YErr e).
Proof. exact (add_permissions_returns o st r g attrs). Qed.
Print Assumptions C73_returns.
Example C73_ex : exists st, ureachable st
  /\ uanswer (ustep id_oracle st (UAddPermissionsToRole "r" "g" [Attr "a" "x"])) = Some (YErr None)
  /\ uanswer (ustep id_oracle st (UAddPermissionsToRole "r" "g" [Attr "a" "x"; Attr "c" "z"]))
     = Some (YErr (Some "attribute 'c z' not associated to the group 'g'"))
  /\ uanswer (ustep id_oracle st (UAddPermissionsToRole "s" "g" [])) = Some (YErr (Some "no role available"))
  /\ uanswer (ustep id_oracle st (UAddPermissionsToRole "r" "h" [])) = Some (YErr (Some "no attribute group available")).
Proof. exact c73_ex. Qed.
(** The check is against the registered group; the role gets a group of its own with that name. *)
Example C73_apart_ex : exists st st' m, ureachable st
  /\ ustep id_oracle st (UAddPermissionsToRole "r" "g" [Attr "a" "x"]) = Ok (st', YErr None)
  /\ get_role_permissions id_oracle st' "r" = Ok (Some m) /\ (forall x, listed m "g" x <-> x = Attr "a" "x")
  /\ (exists g, h_groups (u_heap st') !! 0 = Some g /\ g_perms g !! "b y" = Some (Attr "b" "y")).
Proof. exact c73_apart. Qed.

(** ** C74: GetPermissionsForPrincipal agrees with Authorize.  It does not: permissions of descendants count for
    Authorize but are not listed, and assignments of principals that are not registered are listed. *)
Theorem C74_agrees_refuted :
  (exists st l, ureachable st /\ known st "cat" /\ get_permissions_for_principal id_oracle st "acme" "cat" = Ok l
     /\ u_authorize id_oracle st "cat" (q_put ANil ANil) = Ok true
     /\ forall a m, (a, m) ∈ l -> ~ listed m "doc" (Attr "/d" "PUT"))
  /\ (exists st l a m, ureachable st /\ get_permissions_for_principal id_oracle st "acme" "dan" = Ok l
     /\ (a, m) ∈ l /\ listed m "doc" (Attr "/d" "GET")
     /\ u_authorize id_oracle st "dan" (q_get ANil ANil) = Ok false).
Proof. exact c74_refuted. Qed.
Print Assumptions C74_agrees_refuted.
(** What it returns, exactly: for each assignment with a registered role, what the role itself holds. *)
Theorem C74_exact (o : oracle) (st : ustate) (t p : string) : ureachable st ->
  exists l, get_permissions_for_principal o st t p = Ok l
  /\ (forall a m, (a, m) ∈ l -> member st p t a /\ tp_role a <> "" /\ lists_own st (tp_role a) m)
  /\ (forall a, member st p t a -> tp_role a <> "" -> is_Some (u_roles st !! tp_role a) -> exists m, (a, m) ∈ l).
Proof. exact (permissions_exact o st t p). Qed.
Print Assumptions C74_exact.
(** For registered principals and tenants, what is listed is granted in the tenant. *)
Theorem C74_listed_granted_partial (o o' : oracle) (st : ustate) (t p : string) (l : list (trow * gmap string (list attr)))
    (a : trow) (m : gmap string (list attr)) (grp : string) (x : attr) (b : bool) :
  ureachable st -> known st p -> (exists c, utenant_is st t c) ->
  get_permissions_for_principal o st t p = Ok l -> (a, m) ∈ l -> listed m grp x ->
  u_authorize o' st p (UOpts (AStr t) ANil ANil (AStr grp) (AStr (attr_string x))) = Ok b -> b = true.
Proof. exact (listed_granted o o' st t p l a m grp x b). Qed.
Print Assumptions C74_listed_granted_partial.
Theorem C74_role_permissions (o : oracle) (st : ustate) (r : string) : ureachable st ->
  match u_roles st !! r with
  | None => get_role_permissions o st r = Ok None
  | Some _ => exists m, get_role_permissions o st r = Ok (Some m) /\ lists_own st r m
  end.
Proof. exact (role_permissions_exact o st r). Qed.
Print Assumptions C74_role_permissions.
Example C74_ex : exists st l a m, ureachable st /\ known st "cat" /\ (exists c, utenant_is st "acme" c)
  /\ get_permissions_for_principal id_oracle st "acme" "cat" = Ok l /\ (a, m) ∈ l /\ listed m "doc" (Attr "/d" "GET")
  /\ u_authorize id_oracle st "cat" (q_get ANil ANil) = Ok true.
Proof. exact c74_ex. Qed.

(** ** C78: the set-up methods of tenants and namespaces change what they say and nothing else *)
Theorem C78_add_descendent (o : oracle) (st : ustate) (t : nat) (ds : list nat) (st' : ustate) (y : uout) :
  ustep o st (UTAddDescendent t ds) = Ok (st', y) -> forall c, u_tenants st !! t = Some c ->
  exists m, fills (utenant_id st) (ut_desc c) ds m /\ tenant_becomes st t (ut_with_desc c m) st'.
Proof. exact (add_descendent_exact o st t ds st' y). Qed.
Print Assumptions C78_add_descendent.
Theorem C78_add_namespace (o : oracle) (st : ustate) (t : nat) (ns : list nat) (st' : ustate) (y : uout) :
  ustep o st (UTAddNamespace t ns) = Ok (st', y) -> forall c, u_tenants st !! t = Some c ->
  exists m, fills (uns_id st) (ut_namespaces c) ns m /\ tenant_becomes st t (ut_with_namespaces c m) st'.
Proof. exact (add_namespace_exact o st t ns st' y). Qed.
Print Assumptions C78_add_namespace.
Theorem C78_add_role (o : oracle) (st : ustate) (t : nat) (rs : list nat) (st' : ustate) (y : uout) :
  ustep o st (UTAddRole t rs) = Ok (st', y) -> forall c, u_tenants st !! t = Some c ->
  exists X, (forall r, r ∈ X <-> r ∈ ut_roles c \/ exists l, l ∈ rs /\ urole_id st l = Some r)
    /\ tenant_becomes st t (ut_with_roles c X) st'.
Proof. exact (add_role_exact o st t rs st' y). Qed.
Print Assumptions C78_add_role.
Theorem C78_set_default (o : oracle) (st : ustate) (t : nat) (ns : string) (st' : ustate) (y : uout) :
  ustep o st (UTSetDefault t ns) = Ok (st', y) -> forall c, u_tenants st !! t = Some c ->
  match ut_namespaces c !! ns with
  | None => st' = st
  | Some l => tenant_becomes st t (ut_with_default c (Some l)) st'
  end.
Proof. exact (set_default_exact o st t ns st' y). Qed.
Print Assumptions C78_set_default.
(** AddScopes also adds to the default namespace, if there is one. *)
Theorem C78_add_scopes (o : oracle) (st : ustate) (t : nat) (ss : list string) (st' : ustate) (y : uout) (H : ureachable st) :
  ustep o st (UTAddScopes t ss) = Ok (st', y) -> forall c, u_tenants st !! t = Some c ->
  exists X ns, (forall s, s ∈ X <-> s ∈ ut_scopes c \/ s ∈ ss)
    /\ st' = uw_nss (uw_tenants st (<[t := ut_with_scopes c X]> (u_tenants st))) ns
    /\ match ut_default c with
       | None => ns = u_nss st
       | Some l => exists m Y, u_nss st !! l = Some m /\ (forall s, s ∈ Y <-> s ∈ un_scopes m \/ s ∈ ss)
                     /\ ns = <[l := UNamespace (un_id m) (un_roles m) Y]> (u_nss st)
       end.
Proof. exact (add_scopes_exact o st t ss st' y (ureachable_wf st H)). Qed.
Print Assumptions C78_add_scopes.
Theorem C78_namespace_add_roles (o : oracle) (st : ustate) (n : nat) (rs : list nat) (st' : ustate) (y : uout) :
  ustep o st (UNAddRoles n rs) = Ok (st', y) -> forall m, u_nss st !! n = Some m ->
  exists X, (forall r, r ∈ X <-> r ∈ un_roles m \/ exists l, l ∈ rs /\ urole_id st l = Some r)
    /\ st' = uw_nss st (<[n := UNamespace (un_id m) X (un_scopes m)]> (u_nss st)).
Proof. exact (ns_add_roles_exact o st n rs st' y). Qed.
Print Assumptions C78_namespace_add_roles.
Theorem C78_namespace_add_scopes (o : oracle) (st : ustate) (n : nat) (ss : list string) (st' : ustate) (y : uout) :
  ustep o st (UNAddScopes n ss) = Ok (st', y) -> forall m, u_nss st !! n = Some m ->
  exists X, (forall s, s ∈ X <-> s ∈ un_scopes m \/ s ∈ ss)
    /\ st' = uw_nss st (<[n := UNamespace (un_id m) (un_roles m) X]> (u_nss st)).
Proof. exact (ns_add_scopes_exact o st n ss st' y). Qed.
Print Assumptions C78_namespace_add_scopes.
(** GetDescendantTenants returns everything below the tenant, or recurses forever when there is a cycle below it. *)
Theorem C78_descendant_tenants (o : oracle) (st : ustate) (t : nat) : ureachable st -> is_Some (u_tenants st !! t) ->
  (exists ds, get_descendant_tenants o st t = Ok ds /\ forall d, d ∈ ds <-> tc (utenant_edge st) t d) /\ ~ utenant_cyclic st t
  \/ get_descendant_tenants o st t = Hang /\ utenant_cyclic st t.
Proof. exact (descendant_tenants_exact o st t). Qed.
Print Assumptions C78_descendant_tenants.
Example C78_ex : exists st c m, ureachable st /\ u_tenants st !! 0 = Some c /\ ut_namespaces c !! "n" = Some 1
  /\ ut_default c = Some 1 /\ u_nss st !! 1 = Some m /\ "s" ∈ un_scopes m /\ "s" ∈ ut_scopes c
  /\ get_descendant_tenants id_oracle st 0 = Ok [1; 2] /\ get_descendant_tenants id_oracle st 3 = Hang.
Proof. exact c78_ex. Qed.
