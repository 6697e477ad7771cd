(** Model of authorize.go: Authorize, and the operations of a history. *)
From Verif Require Export RootModel.

(** options.go:3-9 Option, as left by the functional options (tenant.go:9-13, namespace.go:3-7,
    scope.go:3-7, activity.go:3-7, activity_group.go:7-11), which only assign a field each. *)
Record opts : Type := Opts {
  o_tenant : any;
  o_namespace : any;
  o_scope : any;
  o_group : any;
  o_activity : any
}.
Definition set_o_tenant (q : opts) (t : any) : opts :=
  Opts t (o_namespace q) (o_scope q) (o_group q) (o_activity q).

(** authorize.go:26-30: which of tenant, namespace, scope were given, fixed before the loop over
    tenants.  At most one of the five flags of the Go code is true; the remaining requests (none
    of them true) are [FNone]. *)
Inductive shape : Type := FT | FTN | FTS | FTNS | FNS | FNone.
Definition shape_of (q : opts) : shape :=
  match is_nil (o_tenant q), is_nil (o_namespace q), is_nil (o_scope q) with
  | false, true, true => FT
  | false, false, true => FTN
  | false, true, false => FTS
  | false, false, false => FTNS
  | true, false, false => FNS
  | true, _, _ => FNone
  end.

(** authorize.go:53-70 validateResources *)
Definition valid_resource (v : any) (registered : string -> bool) : res bool :=
  match v with
  | ANil => Ok true
  | AStr s => Ok (registered s)
  | _ => Panic                                          (* failed type assertion *)
  end.
Definition validate_resources (st : state) (q : opts) : res bool :=
  let! bt := valid_resource (o_tenant q) (fun s => bool_decide (is_Some (m_tenants st !! s))) in
  if negb bt then Ok false else
  let! bn := valid_resource (o_namespace q) (fun s => bool_decide (s ∈ m_namespaces st)) in
  if negb bn then Ok false else
  let! bs := valid_resource (o_scope q) (fun s => bool_decide (s ∈ m_scopes st)) in
  Ok bs.

(** authorize.go:72-89 checkNoActivity *)
Definition check_no_activity (o : oracle) (st : state) (p : string) (q : opts) (f : shape) : bool :=
  match f with
  | FT => contains (get_tenants_by_principal o st (AStr p)) (o_tenant q)
  | FTN => contains (get_namespace_ids (get_namespace_for_principal_by_tenant o st (AStr p) (o_tenant q)))
             (o_namespace q)
  | FTS => contains (get_scope_ids (get_scopes_for_principal_by_tenant o st (AStr p) (o_tenant q)))
             (o_scope q)
  | FNS => contains (get_scope_ids (get_scope_for_principal_by_namespace o st (AStr p) (o_namespace q)))
             (o_scope q)
  | FTNS => contains (get_scope_ids (get_scopes_for_principal_by_tenant_and_namespace o st (AStr p)
                        (o_tenant q) (o_namespace q))) (o_scope q)
  | FNone => false
  end.

(** d.Role.(string) for each row with a role accepted by [keep], in order. *)
Fixpoint role_names (keep : data -> bool) (rs : list data) : res (list string) :=
  match rs with
  | [] => Ok []
  | d :: rs' =>
      if negb (is_nil (role d)) && keep d then
        match role d with
        | AStr r => let! l := role_names keep rs' in Ok (r :: l)
        | _ => Panic
        end
      else role_names keep rs'
  end.

Definition nil_or (x v : any) : bool := is_nil x || any_eq x v.

(** authorize.go:130-140 collectRoles: (roles, allowedRoles) *)
Definition collect_roles (o : oracle) (st : state) (p : string) (t : any)
    : res (list string * list string) :=
  let rs := get_roles_by_tenant o st t in
  let! allowed := role_names (fun _ => true) rs in
  let! roles := role_names (fun d => any_eq (principal d) (AStr p)) rs in
  Ok (roles, allowed).
(** authorize.go:142-156 collectRolesByTenantAndNamespace *)
Definition collect_roles_tn (o : oracle) (st : state) (p : string) (t n : any)
    : res (list string * list string) :=
  let! allowed := role_names (fun _ => true) (get_roles_by_tenant (sub o 0) st t) in
  let! roles := role_names (fun d => nil_or (namespace d) n) (get_roles_tn (sub o 1) st (AStr p) t n) in
  Ok (roles, allowed).
(** authorize.go:158-172 collectRolesByTenantAndScope *)
Definition collect_roles_ts (o : oracle) (st : state) (p : string) (t s : any)
    : res (list string * list string) :=
  let! allowed := role_names (fun _ => true) (get_roles_by_tenant (sub o 0) st t) in
  let! roles := role_names (fun d => nil_or (scope d) s) (get_roles_ts (sub o 1) st (AStr p) t s) in
  Ok (roles, allowed).
(** authorize.go:192-206 collectRolesByTenantNamespaceAndScope *)
Definition collect_roles_tns (o : oracle) (st : state) (p : string) (t n s : any)
    : res (list string * list string) :=
  let! allowed := role_names (fun _ => true) (get_roles_by_tenant (sub o 0) st t) in
  let! roles := role_names (fun d => nil_or (namespace d) n && nil_or (scope d) s)
                  (get_roles_tns (sub o 1) st (AStr p) t n s) in
  Ok (roles, allowed).
(** authorize.go:174-190 collectRolesByNamespaceAndScope *)
Fixpoint collect_roles_ns_loop (o : oracle) (i : nat) (st : state) (p : string) (n s : any)
    (ts : list data) : res (list string * list string) :=
  match ts with
  | [] => Ok ([], [])
  | t :: ts' =>
      let! ra := collect_roles_tns (sub o i) st p (tenant t) n s in
      let! rest := collect_roles_ns_loop o (S i) st p n s ts' in
      Ok (ra.1 ++ rest.1, ra.2 ++ rest.2)
  end.
Definition collect_roles_ns (o : oracle) (st : state) (p : string) (n s : any)
    : res (list string * list string) :=
  collect_roles_ns_loop o 1 st p n s (get_tenants (sub o 0) st (AStr p)).

(** authorize.go:122-126 *)
Fixpoint any_role_has (o : oracle) (i : nat) (st : state) (q : opts) (allowed : list string)
    (roles : list string) : res bool :=
  match roles with
  | [] => Ok false
  | r :: rs' =>
      match m_roles st !! r with
      | None => any_role_has o (S i) st q allowed rs'
      | Some l =>
          match o_group q, o_activity q with
          | AStr g, AStr a =>
              let! b := role_has (sub o i) (s_heap st) l g a allowed in
              if b then Ok true else any_role_has o (S i) st q allowed rs'
          | _, _ => Panic                                (* failed type assertion *)
          end
      end
  end.
(** authorize.go:91-128 checkActivity *)
Definition check_activity (o : oracle) (st : state) (p : string) (q : opts) (f : shape) : res bool :=
  if is_nil (o_group q) then Ok false else
  if is_nil (o_activity q) then Ok false else
  let! ra := match f with
             | FT => collect_roles (sub o 0) st p (o_tenant q)
             | FTN => collect_roles_tn (sub o 0) st p (o_tenant q) (o_namespace q)
             | FTS => collect_roles_ts (sub o 0) st p (o_tenant q) (o_scope q)
             | FNS => collect_roles_ns (sub o 0) st p (o_namespace q) (o_scope q)
             | FTNS => collect_roles_tns (sub o 0) st p (o_tenant q) (o_namespace q) (o_scope q)
             | FNone => Ok ([], [])
             end in
  match ra.1 with
  | [] => Ok false
  | roles => any_role_has (sub o 1) 0 st q (compact_adjacent ra.2) (compact_adjacent roles)
  end.
(** authorize.go:46-51 authorize *)
Definition authorize_one (o : oracle) (st : state) (no_activity : bool) (p : string) (q : opts) (f : shape)
    : res bool :=
  if no_activity then Ok (check_no_activity o st p q f) else check_activity o st p q f.

(** authorize.go:34-42: the loop over the implicit tenants; svr is overwritten as it goes *)
Fixpoint tenant_loop (o : oracle) (i : nat) (st : state) (no_activity : bool) (p : string) (q : opts)
    (f : shape) (ts : list string) : res bool :=
  match ts with
  | [] => Ok false
  | t :: ts' =>
      if any_eq (o_tenant q) (AStr t) then tenant_loop o (S i) st no_activity p q f ts'
      else
        let q' := set_o_tenant q (AStr t) in
        let! b := authorize_one (sub o i) st no_activity p q' f in
        if b then Ok true else tenant_loop o (S i) st no_activity p q' f ts'
  end.

(** authorize.go:9-44 Authorize *)
Definition authorize (o : oracle) (st : state) (p : string) (q : opts) : res (state * bool) :=
  if negb (bool_decide (p ∈ m_principals st)) then Ok (st, false) else
  let! su := get_implicit_tenants (sub o 0) st p in
  let st1 := su.1 in
  if bool_decide (su.2 = ∅) then Ok (st1, false) else
  let! v := validate_resources st1 q in
  if negb v then Ok (st1, false) else
  let no_activity := negb (negb (is_nil (o_group q)) && negb (is_nil (o_activity q))) in
  let f := shape_of q in
  let! b := authorize_one (sub o 1) st1 no_activity p q f in
  if b then Ok (st1, true)
  else
    let! b' := tenant_loop (sub o 2) 0 st1 no_activity p q f (ordered (sub o 3) (elements su.2)) in
    Ok (st1, b').

(** ** Histories: every exported operation that changes anything. *)
Inductive op : Type :=
| ONewRole (id : string)
| ONewGroup (id : string)
| ONewTenant (id : string)
| OGroupAdd (g : nat) (attrs : list attr)              (* AttributeGroup.AddAttributes *)
| OLock (r : nat)
| OUnlock (r : nat)
| ORoleAddDescendant (r : nat) (ds : list nat)
| ORoleAddPermission (r : nat) (grp : string) (attrs : list attr)
| ORoleAddGroup (r : nat) (g : nat)                    (* AddPermissionResourceGroup *)
| OAddRole (r : nat)
| OAddGroup (g : nat)
| OAddTenant (t : nat)
| OAddNamespace (id : string)
| OAddScope (id : string)
| OAddPrincipal (id : string)
| OAddAttribute (a : attr)
| OAddData (d : data)
| OAddPermissionsToRole (r g : string) (attrs : list attr)
| OTenantAddNamespaces (t : nat) (ns : list string)
| OTenantAddDescendant (t : nat) (ds : list nat)
| OTenantAddScopesToNamespace (t : nat) (n s : string)
| OTenantSetDefault (t : nat) (n : string)
| OTenantAddPrincipalInNamespace (t : nat) (u n r : string)
| OTenantAddRoles (t : nat) (rs : list nat)
| OTenantAddScopes (t : nat) (ss : list string)
| OTenantAddPrincipal (t : nat) (p : string) (md : bool) (rs : list string)
| OTenantAssignScopes (t : nat) (p : string) (md : bool) (ss : list string)
| OTenantChildren (t : string)
| OImplicitTenants (p : string)
| OAuthorize (p : string) (q : opts).

Inductive out : Type :=
| RUnit
| RLoc (l : nat)
| RErr (e : goerr)
| RBool (b : bool)
| RAttr (a : attr)
| RList (l : list any)
| RSet (s : gset string).

Definition ret_heap (st : state) (x : res (rheap * goerr)) : res (state * out) :=
  let! he := x in Ok (with_heap st he.1, RErr he.2).
Definition ret_unit (x : res state) : res (state * out) := let! st := x in Ok (st, RUnit).
Definition ret_err (x : res (state * goerr)) : res (state * out) := let! r := x in Ok (r.1, RErr r.2).
Definition ret_loc (x : res (state * nat)) : res (state * out) := let! r := x in Ok (r.1, RLoc r.2).

Definition step (o : oracle) (st : state) (x : op) : res (state * out) :=
  match x with
  | ONewRole id => let lh := new_role (s_heap st) id in Ok (with_heap st lh.2, RLoc lh.1)
  | ONewGroup id => let lh := new_group (s_heap st) id in Ok (with_heap st lh.2, RLoc lh.1)
  | ONewTenant id => let ls := new_tenant st id in Ok (ls.2, RLoc ls.1)
  | OGroupAdd g attrs => let! h := add_attributes (s_heap st) g attrs in Ok (with_heap st h, RUnit)
  | OLock r => let! h := role_set_lock (s_heap st) r true in Ok (with_heap st h, RUnit)
  | OUnlock r => let! h := role_set_lock (s_heap st) r false in Ok (with_heap st h, RUnit)
  | ORoleAddDescendant r ds => ret_heap st (role_add_descendant (s_heap st) r ds)
  | ORoleAddPermission r grp attrs => ret_heap st (role_add_permission (s_heap st) r grp attrs)
  | ORoleAddGroup r g => ret_heap st (role_add_group (s_heap st) r g)
  | OAddRole r => ret_loc (add_role st r)
  | OAddGroup g => ret_loc (add_attribute_group st g)
  | OAddTenant t => ret_loc (add_tenant st t)
  | OAddNamespace id => Ok (add_namespace st id, RUnit)
  | OAddScope id => Ok (add_scope st id, RUnit)
  | OAddPrincipal id => Ok (add_principal st id, RUnit)
  | OAddAttribute a => let sa := add_attribute st a in Ok (sa.1, RAttr sa.2)
  | OAddData d => Ok (add_data st d, RUnit)
  | OAddPermissionsToRole r g attrs => ret_err (add_permissions_to_role st r g attrs)
  | OTenantAddNamespaces t ns => ret_unit (tenant_add_namespaces st t ns)
  | OTenantAddDescendant t ds => ret_unit (tenant_add_descendants st t ds)
  | OTenantAddScopesToNamespace t n s => ret_unit (tenant_add_scopes_to_namespace st t n s)
  | OTenantSetDefault t n => ret_unit (tenant_set_default st t n)
  | OTenantAddPrincipalInNamespace t u n r => ret_unit (tenant_add_principal_in_namespace st t u n r)
  | OTenantAddRoles t rs => ret_unit (tenant_add_roles st t rs)
  | OTenantAddScopes t ss => ret_unit (tenant_add_scopes st t ss)
  | OTenantAddPrincipal t p md rs => ret_err (tenant_add_principal st t p md rs)
  | OTenantAssignScopes t p md ss => ret_err (tenant_assign_scopes st t p md ss)
  | OTenantChildren t => let! r := tenant_children o st t in Ok (r.1, RList r.2)
  | OImplicitTenants p => let! r := get_implicit_tenants o st p in Ok (r.1, RSet r.2)
  | OAuthorize p q => let! r := authorize o st p q in Ok (r.1, RBool r.2)
  end.

(** A run of a whole program; operation [i] gets its own iteration orders. *)
Fixpoint run (o : oracle) (i : nat) (st : state) (ops : list op) : res (state * list out) :=
  match ops with
  | [] => Ok (st, [])
  | x :: ops' =>
      let! s1 := step (sub o i) st x in
      let! s2 := run o (S i) s1.1 ops' in
      Ok (s2.1, s1.2 :: s2.2)
  end.

(** The states a program can reach from New(). *)
Definition reachable (st : state) : Prop :=
  exists o ops outs, run o 0 init_state ops = Ok (st, outs).
