(** Model of the root package: managers, tenants, grants and Authorize. *)
From Verif Require Export RoleModel DataModel TrieModel.

(** tenant.go:15-20 Tenant.  [t_default]: id of defaultNamespace (namespaces are immutable).
    [t_managed]: manager is set.  Simplification: there is one manager, so the pointer is a
    boolean. *)
Record tenant_obj : Type := Tenant {
  t_id : string;
  t_desc : gmap string nat;
  t_default : option string;
  t_managed : bool
}.

(** role_manager.go:12-23 RoleManager, together with the heaps of everything clients have
    created.  Namespaces, scopes and principals are immutable objects determined by their id, so
    their registries are sets of ids.  A location outside a heap is the nil pointer. *)
Record state : Type := State {
  s_heap : rheap;
  s_tenants : list tenant_obj;
  m_tenants : gmap string nat;
  m_namespaces : gset string;
  m_scopes : gset string;
  m_principals : gset string;
  m_roles : gmap string nat;
  m_attributes : gmap string attr;
  m_groups : gmap string nat;
  m_trie : node data;
  m_hierarchy : gmap string (list any);
  m_cache : gmap string (gset string)
}.

(** role_manager.go:25-38 New *)
Definition init_state : state :=
  State (RHeap [] []) [] ∅ ∅ ∅ ∅ ∅ ∅ ∅ new_node ∅ ∅.

(** Field updates. *)
Definition with_heap (st : state) (h : rheap) : state :=
  State h (s_tenants st) (m_tenants st) (m_namespaces st) (m_scopes st) (m_principals st)
    (m_roles st) (m_attributes st) (m_groups st) (m_trie st) (m_hierarchy st) (m_cache st).
Definition with_tenant_objs (st : state) (ts : list tenant_obj) : state :=
  State (s_heap st) ts (m_tenants st) (m_namespaces st) (m_scopes st) (m_principals st)
    (m_roles st) (m_attributes st) (m_groups st) (m_trie st) (m_hierarchy st) (m_cache st).
Definition with_m_tenants (st : state) (x : gmap string nat) : state :=
  State (s_heap st) (s_tenants st) x (m_namespaces st) (m_scopes st) (m_principals st)
    (m_roles st) (m_attributes st) (m_groups st) (m_trie st) (m_hierarchy st) (m_cache st).
Definition with_m_namespaces (st : state) (x : gset string) : state :=
  State (s_heap st) (s_tenants st) (m_tenants st) x (m_scopes st) (m_principals st)
    (m_roles st) (m_attributes st) (m_groups st) (m_trie st) (m_hierarchy st) (m_cache st).
Definition with_m_scopes (st : state) (x : gset string) : state :=
  State (s_heap st) (s_tenants st) (m_tenants st) (m_namespaces st) x (m_principals st)
    (m_roles st) (m_attributes st) (m_groups st) (m_trie st) (m_hierarchy st) (m_cache st).
Definition with_m_principals (st : state) (x : gset string) : state :=
  State (s_heap st) (s_tenants st) (m_tenants st) (m_namespaces st) (m_scopes st) x
    (m_roles st) (m_attributes st) (m_groups st) (m_trie st) (m_hierarchy st) (m_cache st).
Definition with_m_roles (st : state) (x : gmap string nat) : state :=
  State (s_heap st) (s_tenants st) (m_tenants st) (m_namespaces st) (m_scopes st) (m_principals st)
    x (m_attributes st) (m_groups st) (m_trie st) (m_hierarchy st) (m_cache st).
Definition with_m_attributes (st : state) (x : gmap string attr) : state :=
  State (s_heap st) (s_tenants st) (m_tenants st) (m_namespaces st) (m_scopes st) (m_principals st)
    (m_roles st) x (m_groups st) (m_trie st) (m_hierarchy st) (m_cache st).
Definition with_m_groups (st : state) (x : gmap string nat) : state :=
  State (s_heap st) (s_tenants st) (m_tenants st) (m_namespaces st) (m_scopes st) (m_principals st)
    (m_roles st) (m_attributes st) x (m_trie st) (m_hierarchy st) (m_cache st).
Definition with_trie (st : state) (x : node data) : state :=
  State (s_heap st) (s_tenants st) (m_tenants st) (m_namespaces st) (m_scopes st) (m_principals st)
    (m_roles st) (m_attributes st) (m_groups st) x (m_hierarchy st) (m_cache st).
Definition with_hierarchy (st : state) (x : gmap string (list any)) : state :=
  State (s_heap st) (s_tenants st) (m_tenants st) (m_namespaces st) (m_scopes st) (m_principals st)
    (m_roles st) (m_attributes st) (m_groups st) (m_trie st) x (m_cache st).
Definition with_cache (st : state) (x : gmap string (gset string)) : state :=
  State (s_heap st) (s_tenants st) (m_tenants st) (m_namespaces st) (m_scopes st) (m_principals st)
    (m_roles st) (m_attributes st) (m_groups st) (m_trie st) (m_hierarchy st) x.

(** ** Grants *)

(** role_manager.go:108-110 AddData *)
Definition add_data (st : state) (d : data) : state :=
  with_trie st (trie_insert data_keys (m_trie st) d).

(** A method of a tenant that starts with c.manager: nil tenant or nil manager panics. *)
Definition managed_tenant (st : state) (t : nat) : res tenant_obj :=
  match s_tenants st !! t with
  | None => Panic
  | Some c => if t_managed c then Ok c else Panic
  end.
Definition set_tenant (st : state) (t : nat) (c : tenant_obj) : state :=
  with_tenant_objs st (<[t := c]> (s_tenants st)).

(** permission.go:7-12 NewTenant *)
Definition new_tenant (st : state) (id : string) : nat * state :=
  (length (s_tenants st), with_tenant_objs st (s_tenants st ++ [Tenant id ∅ None false])).

(** tenant.go:26-29 AddNamespace *)
Definition tenant_add_namespace (st : state) (t : nat) (n : string) : res state :=
  let! c := managed_tenant st t in
  Ok (add_data st (Data (AStr (t_id c)) (AStr n) ANil ANil ANil ANil)).
(** tenant.go:53-57 AddNamespaces, and the other variadic wrappers: repeated calls *)
Fixpoint repeat_op {A} (f : state -> A -> res state) (st : state) (xs : list A) : res state :=
  match xs with
  | [] => Ok st
  | x :: xs' => let! st' := f st x in repeat_op f st' xs'
  end.
Definition tenant_add_namespaces (st : state) (t : nat) (ns : list string) : res state :=
  repeat_op (fun st n => tenant_add_namespace st t n) st ns.
(** tenant.go:59-61 AddScopesToNamespace *)
Definition tenant_add_scopes_to_namespace (st : state) (t : nat) (n s : string) : res state :=
  let! c := managed_tenant st t in
  Ok (add_data st (Data (AStr (t_id c)) (AStr n) (AStr s) ANil ANil ANil)).
(** tenant.go:63-67 SetDefaultNamespace *)
Definition tenant_set_default (st : state) (t : nat) (n : string) : res state :=
  let! c := managed_tenant st t in
  Ok (if bool_decide (n ∈ m_namespaces st)
      then set_tenant st t (Tenant (t_id c) (t_desc c) (Some n) (t_managed c))
      else st).
(** tenant.go:69-71 AddPrincipalInNamespace *)
Definition tenant_add_principal_in_namespace (st : state) (t : nat) (u n r : string) : res state :=
  let! c := managed_tenant st t in
  Ok (add_data st (Data (AStr (t_id c)) (AStr n) ANil (AStr u) (AStr r) ANil)).
(** tenant.go:73-76 AddRole; [r] is the id of the role passed *)
Definition tenant_add_role (st : state) (t : nat) (r : nat) : res state :=
  let! c := managed_tenant st t in
  match h_roles (s_heap st) !! r with
  | None => Panic
  | Some ro => Ok (add_data st (Data (AStr (t_id c)) ANil ANil ANil (AStr (r_id ro)) ANil))
  end.
(** tenant.go:78-82 AddRoles *)
Definition tenant_add_roles (st : state) (t : nat) (rs : list nat) : res state :=
  repeat_op (fun st r => tenant_add_role st t r) st rs.
(** tenant.go:84-87 AddScope *)
Definition tenant_add_scope (st : state) (t : nat) (s : string) : res state :=
  let! c := managed_tenant st t in
  Ok (add_data st (Data (AStr (t_id c)) ANil (AStr s) ANil ANil ANil)).
(** tenant.go:89-93 AddScopes *)
Definition tenant_add_scopes (st : state) (t : nat) (ss : list string) : res state :=
  repeat_op (fun st s => tenant_add_scope st t s) st ss.

(** tenant.go:45-48: what AddDescendant does for each descendant when there is a default
    namespace *)
Definition pass_default (st : state) (d : nat) (n : string) : res state :=
  let! st1 := tenant_add_namespace st d n in tenant_set_default st1 d n.
(** tenant.go:40-51 AddDescendant.  The receiver is re-read each time: with [descendant == c]
    the calls inside change [c] itself. *)
Fixpoint tenant_add_descendants (st : state) (t : nat) (ds : list nat) : res state :=
  match ds with
  | [] => Ok st
  | d :: ds' =>
      match s_tenants st !! t, s_tenants st !! d with
      | Some c, Some dc =>
          let st1 := match t_desc c !! t_id dc with
                     | Some _ => st
                     | None => set_tenant st t
                         (Tenant (t_id c) (<[t_id dc := d]> (t_desc c)) (t_default c) (t_managed c))
                     end in
          let! st2 := match t_default c with
                      | None => Ok st1
                      | Some n => pass_default st1 d n
                      end in
          tenant_add_descendants st2 t ds'
      | _, _ => Panic
      end
  end.

Definition err_no_principal : goerr := Some "no principal available".
Definition err_no_role : goerr := Some "no role available".
Definition err_no_scope : goerr := Some "no scope available".
Definition err_no_group : goerr := Some "no attribute group available".

(** tenant.go:95-107 AddPrincipalWithRole *)
Definition tenant_add_principal_with_role (st : state) (t : nat) (p r : string) (md : bool)
    : res (state * goerr) :=
  let! c := managed_tenant st t in
  if negb (bool_decide (p ∈ m_principals st)) then Ok (st, err_no_principal) else
  match m_roles st !! r with
  | None => Ok (st, err_no_role)
  | Some _ =>
      let st1 := add_data st (Data (AStr (t_id c)) ANil ANil (AStr p) (AStr r) (ABool md)) in
      Ok (match t_default c with
          | None => st1
          | Some n => add_data st1 (Data (AStr (t_id c)) (AStr n) ANil (AStr p) (AStr r) (ABool md))
          end, None)
  end.
(** tenant.go:109-117 AddPrincipal and 133-141 AssignScopesToPrincipal: stop at the first error *)
Fixpoint until_error {A} (f : state -> A -> res (state * goerr)) (st : state) (xs : list A)
    : res (state * goerr) :=
  match xs with
  | [] => Ok (st, None)
  | x :: xs' => let! r := f st x in
                match r with
                | (st', Some e) => Ok (st', Some e)
                | (st', None) => until_error f st' xs'
                end
  end.
Definition tenant_add_principal (st : state) (t : nat) (p : string) (md : bool) (rs : list string)
    : res (state * goerr) :=
  until_error (fun st r => tenant_add_principal_with_role st t p r md) st rs.
(** tenant.go:119-131 AddScopeToPrincipal *)
Definition tenant_add_scope_to_principal (st : state) (t : nat) (p s : string) (md : bool)
    : res (state * goerr) :=
  let! c := managed_tenant st t in
  if negb (bool_decide (p ∈ m_principals st)) then Ok (st, err_no_principal) else
  if negb (bool_decide (s ∈ m_scopes st)) then Ok (st, err_no_scope) else
  let st1 := add_data st (Data (AStr (t_id c)) ANil (AStr s) (AStr p) ANil (ABool md)) in
  Ok (match t_default c with
      | None => st1
      | Some n => add_data st1 (Data (AStr (t_id c)) (AStr n) (AStr s) (AStr p) ANil (ABool md))
      end, None).
Definition tenant_assign_scopes (st : state) (t : nat) (p : string) (md : bool) (ss : list string)
    : res (state * goerr) :=
  until_error (fun st s => tenant_add_scope_to_principal st t p s md) st ss.

(** ** Registries *)

(** tenant.go:143-150 AddTenant: sets the manager even when the id is taken *)
Definition add_tenant (st : state) (t : nat) : res (state * nat) :=
  match s_tenants st !! t with
  | None => Panic
  | Some c =>
      let st1 := set_tenant st t (Tenant (t_id c) (t_desc c) (t_default c) true) in
      match m_tenants st1 !! t_id c with
      | Some d => Ok (st1, d)
      | None => Ok (with_m_tenants st1 (<[t_id c := t]> (m_tenants st1)), t)
      end
  end.
(** permission.go:58-64 AddRole *)
Definition add_role (st : state) (r : nat) : res (state * nat) :=
  match h_roles (s_heap st) !! r with
  | None => Panic
  | Some ro =>
      match m_roles st !! r_id ro with
      | Some d => Ok (st, d)
      | None => Ok (with_m_roles st (<[r_id ro := r]> (m_roles st)), r)
      end
  end.
(** activity_group.go:13-19 AddAttributeGroup *)
Definition add_attribute_group (st : state) (g : nat) : res (state * nat) :=
  match h_groups (s_heap st) !! g with
  | None => Panic
  | Some go =>
      match m_groups st !! g_id go with
      | Some d => Ok (st, d)
      | None => Ok (with_m_groups st (<[g_id go := g]> (m_groups st)), g)
      end
  end.
(** activity.go:9-15 AddAttribute *)
Definition add_attribute (st : state) (a : attr) : state * attr :=
  match m_attributes st !! attr_string a with
  | Some d => (st, d)
  | None => (with_m_attributes st (<[attr_string a := a]> (m_attributes st)), a)
  end.
(** namespace.go:17-23, scope.go:17-23, principal.go:12-18 *)
Definition add_namespace (st : state) (id : string) : state :=
  if bool_decide (id ∈ m_namespaces st) then st else with_m_namespaces st ({[id]} ∪ m_namespaces st).
Definition add_scope (st : state) (id : string) : state :=
  if bool_decide (id ∈ m_scopes st) then st else with_m_scopes st ({[id]} ∪ m_scopes st).
Definition add_principal (st : state) (id : string) : state :=
  if bool_decide (id ∈ m_principals st) then st else with_m_principals st ({[id]} ∪ m_principals st).

(** role.go:195-210 AddPermissionsToRole *)
Definition err_not_associated (a : attr) (g : string) : goerr :=
  Some (String.append "attribute '" (String.append (attr_string a)
    (String.append "' not associated to the group '" (String.append g "'")))).
Fixpoint check_attrs (g : group) (gid : string) (attrs : list attr) : goerr :=
  match attrs with
  | [] => None
  | a :: attrs' => match g_perms g !! attr_string a with
                   | None => err_not_associated a gid
                   | Some _ => check_attrs g gid attrs'
                   end
  end.
Definition add_permissions_to_role (st : state) (rid gid : string) (attrs : list attr)
    : res (state * goerr) :=
  match m_roles st !! rid with
  | None => Ok (st, err_no_role)
  | Some r =>
      match m_groups st !! gid with
      | None => Ok (st, err_no_group)
      | Some gl =>
          match h_groups (s_heap st) !! gl with
          | None => Panic
          | Some g =>
              match check_attrs g gid attrs with
              | Some e => Ok (st, Some e)
              | None => let! hr := role_add_permission (s_heap st) r gid attrs in
                        Ok (with_heap st hr.1, hr.2)
              end
          end
      end
  end.

(** ** Queries *)

Definition row_filter (t n s p : any) : data := Data t n s p ANil ANil.

(** query.go:18-20 search *)
Definition search (o : oracle) (st : state) (f : data) (ff : data -> data -> bool) : list data :=
  trie_search o (m_trie st) (ff f).
(** query.go:10-16 SearchFuncWrapper *)
Definition search_wrapper (o : oracle) (st : state) (f : data) (ff : data -> data -> bool)
    (extract : data -> any) : list any :=
  compact (extract <$> search o st f ff).
(** query.go:22-24 GetTenantsByPrincipal *)
Definition get_tenants_by_principal (o : oracle) (st : state) (p : any) : list any :=
  search_wrapper o st (row_filter ANil ANil ANil p) filter_tenants_by_principal tenant.
(** query.go:26-29 GetTenants *)
Definition get_tenants (o : oracle) (st : state) (p : any) : list data :=
  search o st (row_filter ANil ANil ANil p) filter_tenants_by_principal.

Definition tenant_children_of (st : state) (t : nat) : option (gmap string nat) :=
  t_desc <$> s_tenants st !! t.
(** tenant.go:31-38 GetDescendants *)
Definition tenant_descendants (o : oracle) (st : state) (t : nat) : res (list any) :=
  let! ds := descend (tenant_children_of st) (S (length (s_tenants st))) o t in
  Ok (AStr <$> ds.*1).
(** query.go:31-37 GetDescendantTenant *)
Definition get_descendant_tenant (o : oracle) (st : state) (d : any) : res (list any) :=
  match m_tenants st !! to_string d with
  | None => Ok []
  | Some t => tenant_descendants o st t
  end.
(** role_manager.go:124-135 TenantChildren *)
Definition tenant_children (o : oracle) (st : state) (t : string) : res (state * list any) :=
  match m_hierarchy st !! t with
  | Some ds => Ok (st, ds)
  | None =>
      match m_tenants st !! t with
      | None => Ok (st, [])
      | Some tl =>
          let! ds := tenant_descendants o st tl in
          Ok (with_hierarchy st (<[t := compact ds]> (m_hierarchy st)), ds)
      end
  end.

(** query.go:53-57 *)
Fixpoint add_children (ex : gset string) (ds : list any) : res (gset string) :=
  match ds with
  | [] => Ok ex
  | ANil :: ds' => add_children ex ds'
  | AStr d :: ds' => add_children ({[d]} ∪ ex) ds'
  | _ :: _ => Panic
  end.
(** query.go:46-59 *)
Fixpoint implicit_loop (o : oracle) (i : nat) (st : state) (ex : gset string) (rs : list data)
    : res (state * gset string) :=
  match rs with
  | [] => Ok (st, ex)
  | r :: rs' =>
      match tenant r with
      | AStr t =>
          if bool_decide (t ∈ ex) then implicit_loop o (S i) st ex rs'
          else
            let ex1 := {[t]} ∪ ex in
            match manage r with
            | ABool true =>
                let! sd := tenant_children (sub o i) st t in
                let! ex2 := add_children ex1 sd.2 in
                implicit_loop o (S i) sd.1 ex2 rs'
            | _ => implicit_loop o (S i) st ex1 rs'
            end
      | _ => Panic
      end
  end.
(** query.go:39-62 GetImplicitTenants *)
Definition get_implicit_tenants (o : oracle) (st : state) (p : string) : res (state * gset string) :=
  match m_cache st !! p with
  | Some s => Ok (st, s)
  | None =>
      let rs := search (sub o 0) st (row_filter ANil ANil ANil (AStr p)) filter_tenants_by_principal in
      let! se := implicit_loop o 1 st ∅ rs in
      Ok (with_cache se.1 (<[p := se.2]> (m_cache se.1)), se.2)
  end.

(** query.go:77-80 GetRolesByTenant *)
Definition get_roles_by_tenant (o : oracle) (st : state) (t : any) : list data :=
  search o st (row_filter t ANil ANil ANil) filter_role_by_tenant.
(** query.go:90-93, 139-141 GetNamespace(s)ForPrincipalByTenant *)
Definition get_namespace_for_principal_by_tenant (o : oracle) (st : state) (p t : any) : list data :=
  search o st (row_filter t ANil ANil p) filter_namespace_for_principal_by_tenant.
(** query.go:105-108 GetScopesForPrincipalByTenant *)
Definition get_scopes_for_principal_by_tenant (o : oracle) (st : state) (p t : any) : list data :=
  search o st (row_filter t ANil ANil p) filter_scope_for_principal_by_tenant.
(** query.go:119-121 GetScopesForPrincipalByTenantAndNamespace *)
Definition get_scopes_for_principal_by_tenant_and_namespace (o : oracle) (st : state) (p t n : any)
    : list data :=
  search o st (row_filter t n ANil p) filter_scope_for_principal_by_tenant_and_namespace.
(** query.go:110-117 GetScopeForPrincipalByNamespace *)
Definition get_scope_for_principal_by_namespace (o : oracle) (st : state) (p n : any) : list data :=
  concat (imap (fun i t => get_scopes_for_principal_by_tenant_and_namespace (sub o (S i)) st p t n)
               (get_tenants_by_principal (sub o 0) st p)).
(** query.go:123-125 GetRolesForPrincipalByTenantNamespaceAndScope *)
Definition get_roles_tns (o : oracle) (st : state) (p t n s : any) : list data :=
  search o st (row_filter t n s p) filter_role_for_principal_by_tenant_namespace_and_scope.
(** query.go:127-129 GetRolesForPrincipalByTenantAndNamespace *)
Definition get_roles_tn (o : oracle) (st : state) (p t n : any) : list data :=
  search o st (row_filter t n ANil p) filter_role_for_principal_by_tenant_and_namespace.
(** query.go:131-133 GetRolesForPrincipalByTenantAndScope *)
Definition get_roles_ts (o : oracle) (st : state) (p t s : any) : list data :=
  search o st (row_filter t ANil s p) filter_role_for_principal_by_tenant_and_scope.
